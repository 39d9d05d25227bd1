(** Specifications for the checks of a control definition (C39). *)
From Coq Require Import List String ZArith QArith.
From Verif Require Import PyBase PyVal ControlModel.
Import ListNotations.
Open Scope string_scope.

(** Numbers; True and False are 1 and 0. *)
Inductive num_val : pyval -> Q -> Prop :=
| nv_float q : num_val (PFlt (Some q)) q
| nv_int z : num_val (PInt z) (inject_Z z)
| nv_true : num_val (PBool true) 1
| nv_false : num_val (PBool false) 0.

Section Spec.
(** None accepted everywhere / integers accepted as floats by the schema library. *)
Variable none_ok int_ok : bool.

(** Absent, where absence is tolerated. *)
Definition unset (d : dict pyval) (k : string) : Prop := none_ok = true /\ dget d k = Some PNone.

(** A number between 0 and 1. *)
Definition unit_pos (v : pyval) (q : Q) : Prop :=
  num_val v q /\ (0 <= q <= 1)%Q /\ ((exists x, v = PFlt x) \/ int_ok = true).
Definition unit_at (d : dict pyval) (k : string) : Prop :=
  unset d k \/ exists v q, dget d k = Some v /\ unit_pos v q.
Definition text_at (d : dict pyval) (k : string) : Prop := unset d k \/ exists s, dget d k = Some (PStr s).

Definition angle (v : pyval) (q : Q) : Prop := num_val v q /\ (-90 <= q <= 90)%Q.

(** The rules for a control on a wing with/without symmetry. *)
Definition control_ok (sym : bool) (c : ctldef) : Prop :=
  (text_at (cd_segment c) "inner" /\ text_at (cd_segment c) "outer") /\
  (dget (cd_panels c) "num_c" = None \/ unset (cd_panels c) "num_c" \/ dget (cd_panels c) "num_c" = Some (PBool true) \/
   exists n, dget (cd_panels c) "num_c" = Some (PInt n) /\ (0 < n)%Z) /\
  (unit_at (cd_rel c) "eta_inner" /\ unit_at (cd_rel c) "eta_outer" /\ unit_at (cd_rel c) "xsi_inner" /\ unit_at (cd_rel c) "xsi_outer") /\
  (unit_at (cd_hinge c) "xsi_inner" /\ unit_at (cd_hinge c) "xsi_outer") /\
  cd_device c <> None /\
  (dget (cd_segment c) "inner" = dget (cd_segment c) "outer" ->
     exists v w a b, dget (cd_rel c) "eta_inner" = Some v /\ dget (cd_rel c) "eta_outer" = Some w /\
       num_val v a /\ num_val w b /\ (a < b)%Q) /\
  (exists q, angle (cd_deflection c) q) /\
  (sym = true -> cd_mirror c = PNone \/ exists q, angle (cd_mirror c) q).

(** The exceptions for the rules that are broken.  NaN is a number outside of all ranges. *)
Inductive angle_error (v : pyval) : exn -> Prop :=
| ae_range q : num_val v q -> ~ (-90 <= q <= 90)%Q -> angle_error v ValueError
| ae_nan : v = PFlt None -> angle_error v ValueError
| ae_type : (forall q, ~ num_val v q) -> v <> PFlt None -> angle_error v TypeError.
Definition positions_ok (c : ctldef) : Prop :=
  (text_at (cd_segment c) "inner" /\ text_at (cd_segment c) "outer") /\
  (dget (cd_panels c) "num_c" = None \/ unset (cd_panels c) "num_c" \/ dget (cd_panels c) "num_c" = Some (PBool true) \/
   exists n, dget (cd_panels c) "num_c" = Some (PInt n) /\ (0 < n)%Z) /\
  (unit_at (cd_rel c) "eta_inner" /\ unit_at (cd_rel c) "eta_outer" /\ unit_at (cd_rel c) "xsi_inner" /\ unit_at (cd_rel c) "xsi_outer") /\
  (unit_at (cd_hinge c) "xsi_inner" /\ unit_at (cd_hinge c) "xsi_outer").
Definition one_segment (c : ctldef) : Prop := dget (cd_segment c) "inner" = dget (cd_segment c) "outer".
Inductive control_error (sym : bool) (c : ctldef) : exn -> Prop :=
| ce_schema : ~ positions_ok c -> control_error sym c SchemaError
| ce_device : cd_device c = None -> control_error sym c ComponentDefinitionError
| ce_order v w a b : one_segment c -> dget (cd_rel c) "eta_inner" = Some v -> dget (cd_rel c) "eta_outer" = Some w ->
    num_val v a -> num_val w b -> (b <= a)%Q -> control_error sym c ValueError
| ce_unordered k : one_segment c -> k = "eta_inner" \/ k = "eta_outer" -> dget (cd_rel c) k = Some PNone -> control_error sym c TypeError
| ce_missing : cd_deflection c = PNone -> control_error sym c ComponentDefinitionError
| ce_deflection e : cd_deflection c <> PNone -> angle_error (cd_deflection c) e -> control_error sym c e
| ce_mirror e : sym = true -> cd_mirror c <> PNone -> angle_error (cd_mirror c) e -> control_error sym c e.
End Spec.
