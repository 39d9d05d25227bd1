(** Specifications for the settings (C32, C33, C61, C62). *)
From Coq Require Import List String ZArith QArith.
From Verif Require Import PyBase PyVal SettingsModel.
Import ListNotations.
From Coq Require Import Ascii.
Open Scope string_scope.

(** Values of a Python type; True and False are integers. *)
Inductive of_type : pyval -> pytype -> Prop :=
| ot_str s : of_type (PStr s) TyStr
| ot_int z : of_type (PInt z) TyInt
| ot_bool_int b : of_type (PBool b) TyInt
| ot_flt x : of_type (PFlt x) TyFloat
| ot_bool b : of_type (PBool b) TyBool
| ot_list l : of_type (PList l) TyList
| ot_dict d : of_type (PDict d) TyDict.

(** [v] is a dictionary with the value [x] for [k]. *)
Definition item (v : pyval) (k : string) (x : pyval) : Prop := exists d, v = PDict d /\ dget d k = Some x.

(** [v] looks like the template: every key that does not allow None is there with one of the
    types, and nested templates are followed. *)
Inductive fits : tval -> pyval -> Prop :=
| fits_nest t v :
    (forall key value dtype, In (key, (value, dtype)) t ->
       (~ In None dtype -> exists x ty, item v key x /\ In (Some ty) dtype /\ of_type x ty) /\
       (forall rest, dtype = Some TyDict :: rest -> exists x, item v key x /\ fits value x)) ->
    fits (TNest t) v.

(** A template whose defaults have the types it asks for. *)
Inductive consistent : tval -> Prop :=
| consistent_nest t :
    NoDup (map fst t) ->
    (forall key value dtype, In (key, (value, dtype)) t ->
       (~ In None dtype -> exists ty, In (Some ty) dtype /\
          match value with TPlain v => of_type v ty | TNest _ => ty = TyDict end) /\
       (forall rest, dtype = Some TyDict :: rest -> consistent value)) ->
    consistent (TNest t).

(** Requirements on the settings, key by key. *)
Definition typed (d : dict pyval) (k : string) (ty : pytype) : Prop := exists x, dget d k = Some x /\ of_type x ty.
Definition sub (d : dict pyval) (k : string) (P : dict pyval -> Prop) : Prop := exists e, dget d k = Some (PDict e) /\ P e.
Definition plot_options (d : dict pyval) : Prop := typed d "opt" TyList /\ typed d "show" TyBool /\ typed d "save" TyBool.
Definition settings_ok (s : dict pyval) : Prop :=
  typed s "aircraft" TyStr /\ typed s "state" TyStr /\
  typed s "vlm_autopanels_c" TyInt /\ typed s "vlm_autopanels_s" TyInt /\
  sub s "save_results" (fun r => typed r "global" TyBool /\ typed r "panelwise" TyBool /\
                                 typed r "aeroperformance" TyBool /\ typed r "matrix_system" TyBool) /\
  sub s "plot" (fun p => sub p "geometry" plot_options /\ sub p "lattice" plot_options /\
                         sub p "matrix_downwash" plot_options /\ sub p "results" plot_options) /\
  typed s "_do_normal_rotations" TyBool /\ typed s "_deformation_check" TyBool /\
  exists e, dget s "_epsilon" = Some (PFlt (Some e)) /\ (0 < e < 1)%Q.

(** Additionally the documented type of the deformation file name. *)
Definition deformation_ok (s : dict pyval) : Prop :=
  dget s "deformation" = Some PNone \/ typed s "deformation" TyStr.

(** Values that Python regards as false. *)
Definition empty (v : pyval) : Prop :=
  match v with
  | PNone => True | PBool b => b = false | PInt z => z = 0%Z | PFlt (Some q) => (q == 0)%Q | PFlt None => False
  | PStr s => s = "" | PPath _ => False | PList l => l = [] | PDict d => d = []
  end.

(** The value at a path of nested dictionaries. *)
Fixpoint at_path (v : pyval) (path : list string) (x : pyval) : Prop :=
  match path with
  | [] => v = x
  | k :: path' => exists y, item v k y /\ at_path y path' x
  end.

Definition is_dict (v : pyval) : Prop := exists d, v = PDict d.
Definition hidden (k : string) : Prop := exists r, k = String "_"%char r.

(** No [Path] object anywhere. *)
Inductive json : pyval -> Prop :=
| js_none : json PNone
| js_bool b : json (PBool b)
| js_int z : json (PInt z)
| js_flt x : json (PFlt x)
| js_str s : json (PStr s)
| js_list l : (forall x, In x l -> json x) -> json (PList l)
| js_dict d : (forall k x, In (k, x) d -> json x) -> json (PDict d).
