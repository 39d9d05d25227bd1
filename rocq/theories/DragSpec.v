(** Wings whose strips are all of the same width, for the induced drag (C120). *)
From Coq Require Import Reals List ZArith.
From Verif Require Import Vec PanelModel.
Import ListNotations.
Open Scope R_scope.

(** Width of a subarea across the flow, between the corner points at the leading edge. *)
Definition across (q : quad) : R := vy (qb q) - vy (qa q).
(** Strips of width [h] throughout, however many each subarea has. *)
Definition even (h : R) (subs : list (quad * (Z * Z))) : Prop :=
  forall q ns nc, In (q, (ns, nc)) subs -> across q = IZR ns * h.
(** Some panel carries a vortex. *)
Definition loaded (g : list R) : Prop := exists q, In q g /\ q <> 0.
