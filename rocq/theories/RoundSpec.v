(** What rounding to double precision means, and divisions of a segment up to rounding. *)
From Coq Require Import List ZArith QArith Qabs.
From Verif Require Import PyBase StripModel StripSpec.
Import ListNotations.
Open Scope Q_scope.

(** Numbers with a significand of 53 bits. *)
Definition is_double (x : Q) : Prop := exists m e : Z, (- 2 ^ 53 <= m <= 2 ^ 53)%Z /\ x == inject_Z m * 2 ^ e.
(** [y] is a double, and no double is closer to [x]. *)
Definition nearest_double (x y : Q) : Prop := is_double y /\ forall z, is_double z -> Qabs (y - x) <= Qabs (z - x).

(** A rounding with half a unit in the last place of relative error. *)
Definition HALF_ULP : Q := 1 # (2 ^ 53).
Definition accurate (rnd : Q -> Q) : Prop := forall x, Qabs (rnd x - x) <= Qabs x * HALF_ULP.

(** [n] strips without devices, in order, each border within 2^-51 of the position i/n; the first
    and the last border are exact and neighbours share their border. *)
Definition near (x y : Q) : Prop := Qabs (x - y) <= 1 # (2 ^ 51).
Definition almost_equal_strips (n : Z) (l : segment) : Prop :=
  List.length l = Z.to_nat n /\
  (forall i s, nth_error l i = Some s ->
    near (eta_a s) (inject_Z (Z.of_nat i) / inject_Z n) /\ near (eta_b s) (inject_Z (Z.of_nat i + 1) / inject_Z n) /\
    forall k, no_device s k) /\
  (forall s, nth_error l 0 = Some s -> eta_a s == 0) /\
  (forall s, nth_error l (Z.to_nat n - 1) = Some s -> eta_b s == 1) /\
  (forall i s t, nth_error l i = Some s -> nth_error l (S i) = Some t -> eta_b s == eta_a t).
