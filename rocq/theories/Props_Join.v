(** C119: warnings about gaps between the segments of a wing. *)
From Coq Require Import Reals List.
From Verif Require Import Vec PanelModel JoinModel JoinSpec JoinProofs.
Import ListNotations.
Open Scope R_scope.

(** Segments joined from root to tip are not reported. *)
Theorem C119_joined segs i s1 s2 : neighbours segs i s1 s2 -> joined s1 s2 -> ~ In i (w_edges (continuity segs)).
Proof. exact (joined_silent segs i s1 s2). Qed.
Print Assumptions C119_joined.

(** The wing is reported exactly if one of its edges is; only edges between two segments are. *)
Theorem C119_wing segs : (w_wing (continuity segs) = true <-> exists i, In i (w_edges (continuity segs))) /\
  forall i, In i (w_edges (continuity segs)) -> exists s1 s2, neighbours segs i s1 s2.
Proof.
  exact (conj (wing_reported segs) (fun i H => match proj1 (reported segs i) H with ex_intro _ s1 (ex_intro _ s2 (conj N _)) => ex_intro _ s1 (ex_intro _ s2 N) end)).
Qed.
Print Assumptions C119_wing.

(** Chords along x: segments apart in direction of the span are reported if the gap is at least a
    hundredth of the distances between their corners. *)
Theorem C119_apart_partial segs i s1 s2 : neighbours segs i s1 s2 -> straight s1 -> straight s2 ->
  1 / 100 * vnorm (vsub (qd s2) (qb s1)) <= sideways (qb s1) (qa s2) -> 1 / 100 * vnorm (vsub (qd s2) (qc s1)) <= sideways (qb s1) (qa s2) ->
  In i (w_edges (continuity segs)).
Proof. exact (apart segs i s1 s2). Qed.
Print Assumptions C119_apart_partial.

(** Segments whose edges lie on one line are never reported... *)
Theorem C119_line segs i s1 s2 : neighbours segs i s1 s2 -> straight s1 -> straight s2 -> sideways (qb s1) (qa s2) = 0 -> ~ In i (w_edges (continuity segs)).
Proof. exact (on_line segs i s1 s2). Qed.
Print Assumptions C119_line.
(** ...so a segment far behind its neighbour is not reported. *)
Theorem C119_gap_refuted : exists s1 s2, straight s1 /\ straight s2 /\ behind s1 s2 /\
  w_edges (continuity [s1; s2]) = [] /\ w_wing (continuity [s1; s2]) = false.
Proof. exact (ex_intro _ _ (ex_intro _ _ gap_silent)). Qed.
Print Assumptions C119_gap_refuted.

(** A wing without gaps is reported if it is described from tip to root and its chords are parallel. *)
Theorem C119_tip_to_root_refuted : exists s1 s2, joined_back s1 s2 /\ In O (w_edges (continuity [s1; s2])).
Proof. exact (ex_intro _ _ (ex_intro _ _ back_reported)). Qed.
Print Assumptions C119_tip_to_root_refuted.

(** Segments with another common edge are not reported if no pair of edges tested before is parallel... *)
Theorem C119_other segs i s1 s2 : neighbours segs i s1 s2 -> ~ similar_out_in s1 s2 ->
  joined_back s1 s2 \/ ~ similar_in_out s1 s2 /\ (joined_outer s1 s2 \/ ~ similar_out_out s1 s2 /\ joined_inner s1 s2) ->
  ~ In i (w_edges (continuity segs)).
Proof.
  intros N S [J|(T & [J|(U & J)])];
    [exact (back_silent segs i s1 s2 N J S)|exact (outer_silent segs i s1 s2 N J S T)|exact (inner_silent segs i s1 s2 N J S T U)].
Qed.
Print Assumptions C119_other.
(** ...and segments without parallel edges are always reported. *)
Theorem C119_turned segs i s1 s2 : neighbours segs i s1 s2 ->
  ~ similar_out_in s1 s2 -> ~ similar_in_out s1 s2 -> ~ similar_out_out s1 s2 -> ~ similar_in_in s1 s2 -> In i (w_edges (continuity segs)).
Proof. exact (turned segs i s1 s2). Qed.
Print Assumptions C119_turned.

(** Two rectangles side by side, and two with one missing between them. *)
Example C119_example : joined (rect 0 0) (rect 1 0) /\ neighbours [rect 0 0; rect 1 0] 0 (rect 0 0) (rect 1 0) /\
  straight (rect 0 0) /\ straight (rect 2 0) /\
  1 / 100 * vnorm (vsub (qd (rect 2 0)) (qb (rect 0 0))) <= sideways (qb (rect 0 0)) (qa (rect 2 0)) /\
  1 / 100 * vnorm (vsub (qd (rect 2 0)) (qc (rect 0 0))) <= sideways (qb (rect 0 0)) (qa (rect 2 0)).
Proof. exact (conj (proj1 rects_joined) (conj (proj2 rects_joined) (conj (rect_straight 0 0) (conj (rect_straight 2 0) rects_apart)))). Qed.
(** Twisted segments joined from tip to root. *)
Example C119_example_other : joined_back (twist 1 2 0) (twist 0 2 2) /\ ~ similar_out_in (twist 1 2 0) (twist 0 2 2).
Proof. exact back_witness. Qed.
