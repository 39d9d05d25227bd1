(** Specification for the linear system in floating-point arithmetic (C117). *)
From Coq Require Import Reals List.
From Verif Require Import Vec PanelModel VlmModel VlmSpec FloatModel FloatSpec.
Import ListNotations.
Open Scope R_scope.

(** The regularisation [eps] is not lost in rounding errors. *)
Definition survives (u eps : R) : Prop := (1 + u) ^ 3 < (1 + eps) * (1 - u) ^ 9.

(** Strength of one leg seen from [p] and size of the velocity it induces (the products of the cross
    product without cancellation). *)
Definition strength (eps : R) (p a b : vec) : R :=
  let r1 := vsub p a in let r2 := vsub p b in
  1 / (4 * PI) * (1 / (vdot r1 r2 + vnorm r1 * vnorm r2 * (1 + eps))) * (1 / vnorm r1 + 1 / vnorm r2).
Definition leg_size (eps : R) (p a b : vec) : vec := vscale (strength eps p a b) (across (vsub p a) (vsub p b)).

(** How much the regularisation enlarges rounding errors. *)
Definition amplified (u eps : R) : R := ((1 + u) ^ 11 - 1) * (2 + eps) / eps.
(** Relative error after [k] further roundings. *)
Definition velocity_error (u eps : R) (k : nat) : R := (1 + u) ^ k / ((1 - u) ^ 13 * (1 - amplified u eps)) - 1.

(** [v] is [V] up to a relative error [e] of the sizes [m]. *)
Definition vnear (e : R) (v V m : vec) : Prop :=
  Rabs (vx v - vx V) <= e * vx m /\ Rabs (vy v - vy V) <= e * vy m /\ Rabs (vz v - vz V) <= e * vz m.

(** The constant PI of the C code is one rounding away from the number. *)
Definition pi_rounded (u PIc : R) : Prop := Rabs (PIc - PI) <= u * PI.

Definition entry (m : list (list R)) (i j : nat) : option R := match nth_error m i with Some row => nth_error row j | None => None end.
(** Size of an entry of the downwash matrix. *)
Definition entry_size (eps : R) (i j : panel) : R :=
  rsum (map (fun l => vdot (leg_size eps (pC i) (fst l) (snd l)) (vabs (pN i))) (legs j)).

(** Right-hand side: velocity of the aircraft (free stream [w] and rotation) along the normal, and its size. *)
Definition onset_normal (w : vec) (s : flow) (r : refs) (i : panel) : R :=
  - vdot (vsub w (vcross (omega s) (vsub (pC i) (r_CG r)))) (pN i).
Definition onset_size (w : vec) (s : flow) (r : refs) (i : panel) : R :=
  vdot (vadd (vabs w) (across (omega s) (vsub (pC i) (r_CG r)))) (vabs (pN i)).
