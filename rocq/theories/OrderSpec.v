(** Specification for C126: the order of the wings. *)
From Coq Require Import Reals List String ZArith Permutation.
From Verif Require Import PyBase Vec StripModel AircraftModel LatticeModel PanelModel GeomModel VlmModel.
Import ListNotations.

(** The camber of a subarea does not depend on the number of its wing in the list of wings. *)
Definition camber_of_wing (camber : subarea_visit -> R -> R) : Prop :=
  forall sub st seg i j k w y, camber (sub, st, seg, (i, k, w)) y = camber (sub, st, seg, (j, k, w)) y.

(** The panels with their loads, in some order. *)
Definition same_panels (lat lat' : list panel) (o o' : results) : Prop :=
  exists sg : nat -> nat, (forall i j, (i < List.length lat)%nat -> (j < List.length lat)%nat -> sg i = sg j -> i = j) /\
  forall i p, nth_error lat i = Some p -> nth_error lat' (sg i) = Some p /\
    forall pr, nth_error (o_panels o) i = Some pr -> exists pr', nth_error (o_panels o') (sg i) = Some pr' /\ o_f pr' = o_f pr /\ o_iw pr' = o_iw pr.

(** Two segments that differ in names and numbers only: same vertices, mirror plane, strips, numbers of panels, camber, and same settings of
    the controls that they carry. *)
Definition same_segment (geo geo' : string -> string -> quad) (camber camber' : subarea_visit -> R -> R)
  (x x' : item string wsegment * item string wing) : Prop :=
  let s := obj (fst x) in let s' := obj (fst x') in let w := obj (snd x) in let w' := obj (snd x') in
  geo' (w_uid w') (ws_uid s') = geo (w_uid w) (ws_uid s) /\ w_symmetry w' = w_symmetry w /\ ws_strips s' = ws_strips s /\ ws_num_c s' = ws_num_c s /\
  (forall sub st y, camber' (sub, st, fst x', snd x') y = camber (sub, st, fst x, snd x) y) /\
  (forall st k v c, In st (ws_strips s) -> In (k, v) (st_subs st) -> sa_ctrl v = Some c -> dget (w_ctls w') (ct_uid c) = dget (w_ctls w) (ct_uid c)).
(** The same segments, in any order and distributed to wings in any way. *)
Definition same_segments geo geo' camber camber' (a a' : aircraft) : Prop :=
  exists l, Permutation (all_segments a) l /\ Forall2 (same_segment geo geo' camber camber') l (all_segments a').
