(** Specification for the continuity warnings (C119). *)
From Coq Require Import Reals List.
From Verif Require Import Vec PanelModel.
Import ListNotations.
Open Scope R_scope.

(** The outer edge (b, c) of a segment is the inner edge (a, d) of the next one. *)
Definition joined (s1 s2 : quad) : Prop := qb s1 = qa s2 /\ qc s1 = qd s2 /\ qb s1 <> qc s1.
(** The same in a wing described from tip to root. *)
Definition joined_back (s1 s2 : quad) : Prop := qa s1 = qb s2 /\ qd s1 = qc s2 /\ qa s1 <> qd s1.

(** Neighbours of a list with the index of the first. *)
Definition neighbours (segs : list quad) (i : nat) (s1 s2 : quad) : Prop :=
  nth_error segs i = Some s1 /\ nth_error segs (S i) = Some s2.

(** Chords parallel to the x axis. *)
Definition along_x (p q : vec) : Prop := vx p < vx q /\ vy p = vy q /\ vz p = vz q.
Definition straight (s : quad) : Prop := along_x (qa s) (qd s) /\ along_x (qb s) (qc s).
(** Distance of two points seen in direction x. *)
Definition sideways (p q : vec) : R := vnorm (mkV 0 (vy q - vy p) (vz q - vz p)).
(** The segments have no point of their facing edges in common: chords along x on one line, one behind
    the other. *)
Definition behind (s1 s2 : quad) : Prop := vx (qc s1) < vx (qa s2).

(** Chords in the same direction up to a hundredth, when signs of components are ignored. *)
Definition heading (p q : vec) : vec :=
  let n := vnorm (vsub q p) in mkV (Rabs (vx q - vx p) / n) (Rabs (vy q - vy p) / n) (Rabs (vz q - vz p) / n).
Definition similar (p q p' q' : vec) : Prop := p <> q /\ p' <> q' /\ vnorm (vsub (heading p q) (heading p' q')) < 1 / 100.
Definition similar_out_in (s1 s2 : quad) : Prop := similar (qa s2) (qd s2) (qb s1) (qc s1).
Definition similar_in_out (s1 s2 : quad) : Prop := similar (qb s2) (qc s2) (qa s1) (qd s1).
Definition similar_out_out (s1 s2 : quad) : Prop := similar (qb s2) (qc s2) (qb s1) (qc s1).
Definition similar_in_in (s1 s2 : quad) : Prop := similar (qa s2) (qd s2) (qa s1) (qd s1).
(** Segments with a common edge that is an outer edge of both, or an inner edge of both. *)
Definition joined_outer (s1 s2 : quad) : Prop := qb s1 = qb s2 /\ qc s1 = qc s2 /\ qb s1 <> qc s1.
Definition joined_inner (s1 s2 : quad) : Prop := qa s1 = qa s2 /\ qd s1 = qd s2 /\ qa s1 <> qd s1.
