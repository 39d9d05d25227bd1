(** Specifications for the aircraft file (C34). *)
From Coq Require Import List String Ascii ZArith QArith.
From Verif Require Import PyBase PyVal ControlModel AircraftIOModel.
Import ListNotations.
Open Scope string_scope.

(** Parts of strings. *)
Definition has_part (p s : string) : Prop := exists x y, s = x ++ p ++ y.
Definition begins (p s : string) : Prop := exists y, s = p ++ y.
Definition plain_name (s : string) : Prop := ~ has_part "/" s.

(** A directory other than the root of the file system, without trailing slash. *)
Definition directory (root : string) : Prop := exists r c, root = r ++ String c "" /\ c <> "/"%char.

(** An airfoil name that survives: no coordinate file of the project ("blade." file, or a name
    beginning with "airfoils"), or a blade file directly in the folder "airfoils". *)
Definition airfoil_kept (root : string) (v : pyval) : Prop :=
  exists s, v = PStr s /\
    ((~ has_part "blade." s /\ ~ begins "airfoils" s) \/
     (has_part "blade." s /\ exists b, plain_name b /\ s = root ++ "/airfoils/" ++ b)).

(** Angles in the ranges that are checked when the file is read. *)
Definition angle_in (d : dict pyval) (lo hi : Q) (k : string) : Prop :=
  exists q, dget d k = Some (PFlt (Some q)) /\ (lo <= q <= hi)%Q.
Definition angles_kept (s : segdef) : Prop :=
  Forall (angle_in (sd_geometry s) (-90) 90) ["inner_alpha"; "outer_alpha"; "inner_beta"; "outer_beta"; "sweep"] /\
  angle_in (sd_geometry s) (-180) 180 "dihedral".

Definition each_segment (P : segdef -> Prop) (a : acdef) : Prop :=
  forall ku w ks s, In (ku, w) (ad_wings a) -> In (ks, s) (wd_segs w) -> P s.
Definition airfoils_kept (root : string) (s : segdef) : Prop := forall k v, In (k, v) (sd_airfoils s) -> airfoil_kept root v.
