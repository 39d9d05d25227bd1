(** Specification for the lattice in floating-point arithmetic (C116). *)
From Coq Require Import Reals ZArith.
From Verif Require Import Vec PanelModel FloatModel FloatLatModel FloatSpec.
Open Scope R_scope.

(** Neighbours of one subarea: the edge between two panels, and the vortex leg along it, is stored
    twice with the same numbers. *)
Definition share_chordwise (front rear : flatp) : Prop := lP rear = lS front /\ lQ rear = lR front.
Definition share_spanwise (left right : flatp) : Prop :=
  lP right = lQ left /\ lS right = lR left /\ lV1 right = lV4 left /\ lV2 right = lV3 left.

(** All coordinates are at most [M] in absolute value. *)
Definition vbounded (M : R) (v : vec) : Prop := Rabs (vx v) <= M /\ Rabs (vy v) <= M /\ Rabs (vz v) <= M.
Definition bounded (M : R) (q : quad) : Prop := vbounded M (qa q) /\ vbounded M (qb q) /\ vbounded M (qc q) /\ vbounded M (qd q).

(** Each coordinate is the exact one up to [k] roundings of a quantity of size [m]. *)
Definition vclose (u : R) (k : nat) (v V : vec) (m : R) : Prop :=
  close u k (vx v) (vx V) m /\ close u k (vy v) (vy V) m /\ close u k (vz v) (vz V) m.

(** A panel [f] in floating-point arithmetic and the exact panel [p] of a subarea of size [M]; the legs reach [L] downstream. *)
Definition panel_close (u M L : R) (f : flatp) (p : panel) : Prop :=
  vclose u 10 (lP f) (pP p) (9 * M) /\ vclose u 10 (lQ f) (pQ p) (9 * M) /\
  vclose u 10 (lR f) (pR p) (9 * M) /\ vclose u 10 (lS f) (pS p) (9 * M) /\
  vclose u 12 (lV2 f) (pV2 p) (9 * M) /\ vclose u 12 (lV3 f) (pV3 p) (9 * M) /\
  vclose u 13 (lV1 f) (pV1 p) (9 * M + L) /\ vclose u 13 (lV4 f) (pV4 p) (9 * M + L) /\
  vclose u 13 (lC f) (pC p) (9 * M) /\ vclose u 14 (lB f) (pB p) (9 * M) /\
  close u 35 (lA f) (pA p) (2916 * (M * M)).

(** Length one up to rounding. *)
Definition unit_length (u : R) (n : vec) : Prop := (1 - u) / (1 + u) ^ 3 <= vnorm n <= (1 + u) / (1 - u) ^ 3.
(** Twice the exact normal of the panel, not normalised; how far rounding moves it. *)
Definition normal_error (u M : R) : R := ((1 + u) ^ 32 - 1) * (648 * (M * M)).

(** [q2] begins at the edge where [q1] ends. *)
Definition adjacent (q1 q2 : quad) : Prop := qb q1 = qa q2 /\ qc q1 = qd q2.
Definition at_most (m : R) (v w : vec) : Prop := Rabs (vx v - vx w) <= m /\ Rabs (vy v - vy w) <= m /\ Rabs (vz v - vz w) <= m.
