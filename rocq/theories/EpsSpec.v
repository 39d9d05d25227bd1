(** The dimensions of a wing that decide how small the regularisation must be (C121). *)
From Coq Require Import Reals List ZArith.
From Verif Require Import Vec PanelModel DragSpec.
Import ListNotations.
Open Scope R_scope.

(** Chord lengths between [c] and [cm], strips of widths between [w] and [wm], nothing beyond [y + D]. *)
Definition dimensions (y c cm w wm D : R) (subs : list (quad * (Z * Z))) : Prop :=
  forall q ns nc, In (q, (ns, nc)) subs ->
    c <= vx (qd q) - vx (qa q) <= cm /\ c <= vx (qc q) - vx (qb q) <= cm /\
    w * IZR ns <= across q <= wm * IZR ns /\ vy (qb q) <= y + D.

(** The regularisation is small for a wing of [n] panels with these dimensions.  [cm / w] and
    [wm / c] tell how far the panels are from being square. *)
Definition small (eps : R) (n : nat) (c cm w wm D : R) : Prop :=
  16 * eps * (1 + (cm / w) ^ 2) * D < w /\
  INR n * eps * (16 * (1 + (cm / w) ^ 2) * (cm / w) + 2 * (1 + (2 * wm / c) ^ 2)) <= 1.
