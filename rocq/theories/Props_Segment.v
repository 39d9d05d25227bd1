(** Property theorems: geometric properties of a segment (C70, C71, C72, C76). *)
From Coq Require Import Reals Lra.
From Verif Require Import Vec PanelModel SegmentModel SegmentSpec SegmentProofs.
Open Scope R_scope.

(** C70: chords, span, sweep, incidence and yaw of a segment are those of its vertices, for every
    four points.  Incidence and yaw are missing (NaN) exactly for a chord that is a point seen from
    above; an incidence is beyond 90 degrees exactly if the chord points upstream. *)
Theorem C70_vertices : forall q ai ao, let g := generate q ai ao in
  g_span g = vnorm (mkV 0 (vy (edge_AB q)) (vz (edge_AB q))) /\
  angle_of (g_sweep g) (g_span g) (vx (edge_AB q)) /\ -90 <= g_sweep g <= 90 /\
  forall p d, (p = g_inner g /\ d = edge_AD q \/ p = g_outer g /\ d = edge_BC q) ->
    cp_chord p = vnorm d /\
    (cp_alpha p = None <-> upright d) /\ (cp_beta p = None <-> upright d) /\
    (forall a, cp_alpha p = Some a -> angle_of a (vx d) (- vz d) /\ -180 <= a <= 180 /\ (-90 <= a <= 90 <-> 0 <= vx d)) /\
    (forall b, cp_beta p = Some b -> angle_of b (Rabs (vx d)) (- vy d) /\ -90 <= b <= 90).
Proof.
  intros q ai ao. split; [exact (span_ok q ai ao)|]. split; [apply sweep_ok|]. split; [apply sweep_ok|].
  intros p d [[-> ->]|[-> ->]]; (split; [reflexivity|]); (split; [apply chord_defined|]); (split; [apply chord_defined|]);
    split; intros; first [apply chord_alpha_ok; assumption|apply chord_beta_ok; assumption].
Qed.
Print Assumptions C70_vertices.

(** The ranges that aircraft files ask for (see C34) are met exactly by segments whose chords are
    neither upright nor point upstream. *)
Theorem C70_ranges : forall q ai ao, let g := generate q ai ao in
  (within (-90) 90 (cp_alpha (g_inner g)) /\ within (-90) 90 (cp_beta (g_inner g)) /\
   within (-90) 90 (cp_alpha (g_outer g)) /\ within (-90) 90 (cp_beta (g_outer g)) /\
   -90 <= g_sweep g <= 90 /\ within (-180) 180 (g_dihedral g)) <->
  (~ upright (edge_AD q) /\ ~ upright (edge_BC q) /\ 0 <= vx (edge_AD q) /\ 0 <= vx (edge_BC q)).
Proof. exact ranges_iff. Qed.
Print Assumptions C70_ranges.
Example C70_example : exists q, ~ upright (edge_AD q) /\ ~ upright (edge_BC q) /\ 0 <= vx (edge_AD q) /\ 0 <= vx (edge_BC q) /\
  g_span (generate q (1 / 4) (1 / 4)) = 5.
Proof.
  exists (mkQuad (mkV 0 0 0) (mkV 1 3 4) (mkV 2 3 3) (mkV 2 0 0)). unfold upright, edge_AD, edge_BC. cbn [qa qb qc qd vx vy vz vsub].
  split; [lra|]. split; [lra|]. split; [lra|]. split; [lra|]. rewrite span_ok. unfold edge_AB. cbn [qa qb qc qd vx vy vz vsub].
  apply vnorm_eq_of_sq; [lra|]. unfold vdot. cbn [vx vy vz]. ring.
Qed.

(** C71: the dihedral is that of the axis line if the axis lies equally far below the leading edge
    on both chords (in particular without incidence). *)
Theorem C71_dihedral_partial : forall q ai ao,
  vx (edge_AD q) <> 0 -> vx (edge_BC q) <> 0 -> ao * vz (edge_BC q) = ai * vz (edge_AD q) ->
  exists x, g_dihedral (generate q ai ao) = Some x /\ -180 <= x <= 180 /\
    angle_of x (vy (axis_line q ai ao)) (vz (axis_line q ai ao)).
Proof.
  intros q ai ao X Y E. destruct (dihedral_ok q ai ao X Y E) as (x & D & A). exists x. split; [exact D|].
  split; [exact (dihedral_range _ _ _ _ D)|exact A].
Qed.
Print Assumptions C71_dihedral_partial.
(** In general it is not: for a segment with washout the axis goes down and the computed dihedral
    is positive (the vertical offset of the axis enters with the wrong sign). *)
Theorem C71_dihedral_refuted : exists q ai ao x,
  0 <= ai <= 1 /\ 0 <= ao <= 1 /\ g_dihedral (generate q ai ao) = Some x /\
  0 < x < 90 /\ 0 < vy (axis_line q ai ao) /\ vz (axis_line q ai ao) < 0.
Proof. exact dihedral_wrong. Qed.
Print Assumptions C71_dihedral_refuted.
Example C71_example : exists q, vx (edge_AD q) <> 0 /\ vx (edge_BC q) <> 0 /\ 1 / 4 * vz (edge_BC q) = 1 / 4 * vz (edge_AD q) /\
  vz (edge_AD q) <> 0 /\ vz (edge_AB q) <> 0.
Proof.
  exists (mkQuad (mkV 0 0 0) (mkV 1 3 4) (mkV 3 3 3) (mkV 2 0 (-1))). unfold edge_AD, edge_BC, edge_AB. cbn [qa qb qc qd vx vy vz vsub].
  repeat split; lra.
Qed.

(** C72: the area of a segment is the area of its quadrilateral if the chords point straight
    back. *)
Theorem C72_area_partial : forall q ai ao, straight q -> segment_area (generate q ai ao) = plane_area q.
Proof. exact area_ok. Qed.
Print Assumptions C72_area_partial.
(** Not for other plane segments. *)
Theorem C72_area_refuted : exists q ai ao,
  (exists u v, vsub (qc q) (qa q) = vadd (vscale u (edge_AB q)) (vscale v (edge_AD q))) /\
  segment_area (generate q ai ao) <> plane_area q.
Proof. exact area_wrong. Qed.
Print Assumptions C72_area_refuted.
Example C72_example : straight (mkQuad (mkV 0 0 0) (mkV 1 3 4) (mkV 2 3 4) (mkV 2 0 0)).
Proof. unfold straight, edge_AD, edge_BC. cbn [qa qb qc qd vx vy vz vsub]. lra. Qed.

(** C76: the normal of a segment is perpendicular to both edges at A; the main direction is
    perpendicular to AD and points to the side of B, unless A, B and D lie on a line. *)
Theorem C76_direction : forall q,
  vdot (main_direction q) (edge_AD q) = 0 /\
  0 <= vdot (main_direction q) (edge_AB q) /\
  (vdot (main_direction q) (edge_AB q) = 0 <-> vcross (edge_AB q) (edge_AD q) = vzero) /\
  vdot (normal_vector q) (edge_AD q) = 0 /\ vdot (normal_vector q) (edge_AB q) = 0.
Proof. exact main_direction_ok. Qed.
Print Assumptions C76_direction.
Example C76_example : 0 < vdot (main_direction (mkQuad (mkV 0 0 0) (mkV 1 3 4) (mkV 2 3 4) (mkV 2 0 0)))
  (edge_AB (mkQuad (mkV 0 0 0) (mkV 1 3 4) (mkV 2 3 4) (mkV 2 0 0))).
Proof. unfold main_direction, normal_vector, edge_AB, vdot, vcross. cbn [qa qb qc qd vx vy vz vsub]. lra. Qed.
