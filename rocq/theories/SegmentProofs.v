(** Proofs about the geometric properties of segments. *)
From Coq Require Import Reals Lra Psatz Ratan.
From Verif Require Import Vec PanelModel SegmentModel SegmentSpec.
Open Scope R_scope.

Lemma deg_rad x : degrees x * PI / 180 = x.
Proof. unfold degrees. field. apply PI_neq0. Qed.
Lemma rad_deg x : radians (degrees x) = x.
Proof. apply deg_rad. Qed.
Lemma deg_opp x : - degrees x = degrees (- x).
Proof. unfold degrees. field. apply PI_neq0. Qed.

Lemma deg_le x y : x <= y <-> degrees x <= degrees y.
Proof.
  pose proof PI_RGT_0 as P. unfold degrees.
  assert (E : forall z, z = z * 180 / PI * (PI / 180)) by (intro; field; lra).
  split; intro H.
  - unfold Rdiv. apply Rmult_le_compat_r; [left; apply Rinv_0_lt_compat; lra|lra].
  - rewrite (E x), (E y). apply Rmult_le_compat_r; [|exact H]. lra.
Qed.
Lemma deg_PI : degrees PI = 180. Proof. unfold degrees. field. apply PI_neq0. Qed.
Lemma deg_PI2 : degrees (PI / 2) = 90. Proof. unfold degrees. field. apply PI_neq0. Qed.
Lemma deg_mPI : degrees (- PI) = -180. Proof. unfold degrees. field. apply PI_neq0. Qed.
Lemma deg_mPI2 : degrees (- (PI / 2)) = -90. Proof. unfold degrees. field. apply PI_neq0. Qed.

Lemma atan_polar x y : 0 < x -> let m := sqrt (x * x + y * y) in
  x = m * cos (atan (y / x)) /\ y = m * sin (atan (y / x)).
Proof.
  intros X m.
  assert (Q : sqrt (1 + (y / x)²) = m / x).
  { unfold m. transitivity (sqrt (x * x + y * y) / sqrt (x * x)); [|rewrite (sqrt_square x) by lra; reflexivity].
    rewrite <- sqrt_div_alt by nra. f_equal. unfold Rsqr. field. lra. }
  assert (M : 0 < m) by (apply sqrt_lt_R0; nra).
  rewrite cos_atan, sin_atan, Q. split; field; lra.
Qed.

Lemma atan2_polar x y : let m := sqrt (x * x + y * y) in
  x = m * cos (atan2 y x) /\ y = m * sin (atan2 y x).
Proof.
  unfold atan2. cbv zeta. destruct (Rlt_dec 0 x) as [X|X]; [apply atan_polar, X|].
  destruct (Rlt_dec x 0) as [X'|X'].
  - pose proof (atan_polar (- x) (- y) ltac:(lra)) as [A B].
    replace (- y / - x) with (y / x) in A, B by (field; lra).
    replace (- x * - x + - y * - y) with (x * x + y * y) in A, B by ring.
    destruct (Rle_dec 0 y).
    + rewrite neg_cos, neg_sin. lra.
    + replace (atan (y / x) - PI) with (- (PI - atan (y / x))) by ring.
      rewrite cos_neg, sin_neg, Rtrigo_facts.cos_pi_minus, Rtrigo_facts.sin_pi_minus. lra.
  - assert (x = 0) by lra. subst x.
    destruct (Rlt_dec 0 y); [|destruct (Rlt_dec y 0)].
    + replace (0 * 0 + y * y) with (y * y) by ring. rewrite sqrt_square by lra. rewrite cos_PI2, sin_PI2. lra.
    + replace (0 * 0 + y * y) with ((- y) * (- y)) by ring. rewrite sqrt_square by lra.
      rewrite cos_neg, sin_neg, cos_PI2, sin_PI2. lra.
    + assert (y = 0) by lra. subst. replace (0 * 0 + 0 * 0) with 0 by ring. rewrite sqrt_0. lra.
Qed.

Lemma atan2_bound y x : - PI <= atan2 y x <= PI.
Proof.
  pose proof PI_RGT_0. pose proof (atan_bound (y / x)). unfold atan2.
  destruct (Rlt_dec 0 x); [lra|]. destruct (Rlt_dec x 0).
  - destruct (Rle_dec 0 y).
    + split; [lra|]. assert (y / x <= 0) by (unfold Rdiv; pose proof (Rinv_lt_0_compat x ltac:(lra)); nra).
      assert (atan (y / x) <= 0); [|lra]. rewrite <- atan_0.
      destruct (Req_dec (y / x) 0) as [->|]; [lra|]. left. apply atan_increasing. lra.
    + split; [|lra]. assert (0 < y / x) by (unfold Rdiv; pose proof (Rinv_lt_0_compat x ltac:(lra)); nra).
      pose proof (atan_increasing _ _ H1). rewrite atan_0 in *. lra.
  - destruct (Rlt_dec 0 y); [lra|]. destruct (Rlt_dec y 0); lra.
Qed.

Lemma atan2_half y x : - (PI / 2) <= atan2 y x <= PI / 2 <-> 0 <= x.
Proof.
  pose proof PI_RGT_0. pose proof (atan_bound (y / x)). unfold atan2.
  destruct (Rlt_dec 0 x); [lra|]. destruct (Rlt_dec x 0).
  - destruct (Rle_dec 0 y); lra.
  - destruct (Rlt_dec 0 y); [lra|]. destruct (Rlt_dec y 0); lra.
Qed.

Lemma angle_atan2 x y : angle_of (degrees (atan2 y x)) x y.
Proof.
  destruct (atan2_polar x y) as [A B]. exists (sqrt (x * x + y * y)).
  split; [apply sqrt_pos|]. split; [apply sqrt_sqrt; nra|]. rewrite deg_rad. auto.
Qed.

Lemma angle_opp t x y : angle_of t x y -> angle_of (- t) x (- y).
Proof.
  intros (m & M & Q & A & B). exists m. split; [exact M|]. split; [lra|].
  replace (- t * PI / 180) with (- (t * PI / 180)) by field. rewrite cos_neg, sin_neg. lra.
Qed.

(** One chord *)
Lemma r_zero d : sqrt (vx d * vx d + vy d * vy d) = 0 <-> upright d.
Proof.
  unfold upright. split; [intro H|intros [-> ->]].
  - apply sqrt_eq_0 in H; [|nra]. split; nra.
  - replace (0 * 0 + 0 * 0) with 0 by ring. apply sqrt_0.
Qed.

Lemma chord_length d : cp_chord (chord_properties d) = vnorm d.
Proof. reflexivity. Qed.

Lemma chord_defined d : (cp_alpha (chord_properties d) = None <-> upright d) /\
  (cp_beta (chord_properties d) = None <-> upright d).
Proof.
  rewrite <- r_zero. unfold chord_properties. cbn [cp_alpha cp_beta]. unfold ndiv.
  destruct (Req_EM_T _ 0) as [E|E]; cbn [omap]; split; split; intro; try reflexivity; try exact E; try discriminate; contradiction.
Qed.

Lemma r_cos d : ~ upright d -> sqrt (vx d * vx d + vy d * vy d) * (vx d / sqrt (vx d * vx d + vy d * vy d)) = vx d.
Proof. intro H. rewrite <- r_zero in H. field. exact H. Qed.

Lemma chord_alpha d a : cp_alpha (chord_properties d) = Some a ->
  ~ upright d /\ a = - degrees (atan2 (vz d) (vx d)).
Proof.
  intro H. assert (N : ~ upright d) by (intro U; apply (proj1 (chord_defined d)) in U; congruence). split; [exact N|].
  revert H. unfold chord_properties. cbn [cp_alpha]. unfold ndiv.
  destruct (Req_EM_T _ 0) as [E|E]; cbn [omap]; [discriminate|].
  rewrite r_cos by exact N. congruence.
Qed.

Lemma chord_alpha_ok d a : cp_alpha (chord_properties d) = Some a ->
  angle_of a (vx d) (- vz d) /\ -180 <= a <= 180 /\ (-90 <= a <= 90 <-> 0 <= vx d).
Proof.
  intro H. apply chord_alpha in H as [N ->]. split; [|split].
  - apply angle_opp, angle_atan2.
  - rewrite deg_opp, <- deg_PI, <- deg_mPI, <- !deg_le. pose proof (atan2_bound (vz d) (vx d)). lra.
  - rewrite deg_opp, <- deg_PI2, <- deg_mPI2, <- !deg_le. rewrite <- (atan2_half (vz d) (vx d)). lra.
Qed.

Lemma ratio_bound x r : 0 < r -> x * x <= r * r -> -1 <= x / r <= 1.
Proof.
  intros R Q. assert (- r <= x <= r) by nra.
  split; apply Rmult_le_reg_r with r; try lra; unfold Rdiv; rewrite Rmult_assoc, Rinv_l, Rmult_1_r; lra.
Qed.

Lemma chord_beta_ok d b : cp_beta (chord_properties d) = Some b ->
  angle_of b (Rabs (vx d)) (- vy d) /\ -90 <= b <= 90.
Proof.
  intro H. assert (N : ~ upright d) by (intro U; apply (proj2 (chord_defined d)) in U; congruence).
  revert H. unfold chord_properties. cbn [cp_beta]. unfold ndiv.
  set (r := sqrt (vx d * vx d + vy d * vy d)). assert (R0 : r <> 0) by (unfold r; rewrite r_zero; exact N).
  assert (RP : 0 < r) by (pose proof (sqrt_pos (vx d * vx d + vy d * vy d)); unfold r in *; lra).
  assert (Q : r * r = vx d * vx d + vy d * vy d) by (apply sqrt_sqrt; nra).
  destruct (Req_EM_T r 0); [contradiction|]. cbn [omap]. intro H. injection H as <-.
  assert (B : -1 <= vy d / r <= 1) by (apply ratio_bound; nra).
  split.
  - exists r. split; [lra|]. split.
    { rewrite Q. f_equal; [|ring]. rewrite <- Rabs_mult. symmetry. apply Rabs_right. nra. }
    rewrite deg_opp, deg_rad, cos_neg, sin_neg, cos_asin, sin_asin by exact B. split.
    + symmetry. rewrite <- (sqrt_Rsqr_abs (vx d)).
      rewrite <- (sqrt_square r) at 1 by lra. rewrite <- sqrt_mult by (unfold Rsqr; nra).
      f_equal. unfold Rsqr. rewrite <- (Rplus_0_r (vx d * vx d)).
      transitivity (r * r - vy d * vy d); [field; lra|rewrite Q; ring].
    + field. lra.
  - rewrite deg_opp, <- deg_PI2, <- deg_mPI2, <- !deg_le. pose proof (asin_bound (vy d / r)). lra.
Qed.

(** Offsets of the axis. *)
Lemma axis_y_ok d ax : ~ upright d -> axis_y (chord_properties d) ax = Some (ax * vy d).
Proof.
  intro N. unfold axis_y, chord_properties. cbn [cp_r cp_sin]. unfold ndiv. pose proof N as N'. rewrite <- r_zero in N'.
  destruct (Req_EM_T _ 0); [contradiction|]. cbn [omap]. f_equal. field. exact N'.
Qed.

Lemma tan_atan2 y x : x <> 0 -> tan (- atan2 y x) = - (y / x).
Proof.
  intro X. rewrite tan_neg. f_equal. unfold atan2.
  destruct (Rlt_dec 0 x); [apply tan_atan|]. destruct (Rlt_dec x 0); [|lra].
  assert (P : forall t, tan (t + PI) = tan t).
  { intro t. unfold tan. rewrite neg_sin, neg_cos.
    destruct (Req_dec (cos t) 0) as [E|E]; [|field; exact E].
    rewrite E. replace (- 0) with 0 by ring. unfold Rdiv.
    rewrite Rinv_0. ring. }
  destruct (Rle_dec 0 y).
  - rewrite P. apply tan_atan.
  - rewrite <- P. replace (atan (y / x) - PI + PI) with (atan (y / x)) by ring. apply tan_atan.
Qed.

Lemma axis_z_ok d ax : vx d <> 0 -> axis_z (chord_properties d) ax = Some (- (ax * vz d)).
Proof.
  intro X. assert (N : ~ upright d) by (intros [? _]; contradiction).
  unfold axis_z, chord_properties. cbn [cp_r cp_cos cp_tan]. unfold ndiv. pose proof N as N'. rewrite <- r_zero in N'.
  destruct (Req_EM_T _ 0); [contradiction|]. cbn [omap omap2].
  rewrite r_cos by exact N. rewrite deg_opp, rad_deg, tan_atan2 by exact X. f_equal. field. split; [exact X|exact N'].
Qed.

(** Span and sweep *)
Lemma sweep_ok q ai ao : let g := generate q ai ao in
  angle_of (g_sweep g) (g_span g) (vx (edge_AB q)) /\ -90 <= g_sweep g <= 90.
Proof.
  cbn [generate g_sweep g_span]. split; [apply angle_atan2|].
  rewrite <- deg_PI2, <- deg_mPI2, <- !deg_le. apply atan2_half, sqrt_pos.
Qed.

Lemma span_ok q ai ao : g_span (generate q ai ao) = vnorm (mkV 0 (vy (edge_AB q)) (vz (edge_AB q))).
Proof. cbn [generate g_span]. unfold vnorm. f_equal. cbn [vx vy vz]. unfold edge_AB. ring. Qed.

Lemma dihedral_range q ai ao x : g_dihedral (generate q ai ao) = Some x -> -180 <= x <= 180.
Proof.
  cbn [generate g_dihedral]. intro H.
  destruct (omap2 Rminus (axis_y _ _) (axis_y _ _)), (omap2 Rminus (axis_z _ _) (axis_z _ _)); try discriminate.
  cbn [omap2] in H. injection H as <-. rewrite <- deg_PI, <- deg_mPI, <- !deg_le. apply atan2_bound.
Qed.

Lemma axis_defined d ax : (axis_y (chord_properties d) ax = None <-> upright d) /\
  (axis_z (chord_properties d) ax = None <-> upright d).
Proof.
  rewrite <- r_zero. unfold axis_y, axis_z, chord_properties. cbn [cp_r cp_sin cp_cos cp_tan]. unfold ndiv.
  destruct (Req_EM_T _ 0) as [E|E]; cbn [omap omap2]; split; split; intro; try reflexivity; try exact E; try discriminate; contradiction.
Qed.

Lemma dihedral_defined q ai ao : g_dihedral (generate q ai ao) = None <-> upright (edge_AD q) \/ upright (edge_BC q).
Proof.
  cbn [generate g_dihedral]. fold (edge_AD q). fold (edge_BC q).
  destruct (axis_defined (edge_AD q) ai) as [A B]. destruct (axis_defined (edge_BC q) ao) as [C D].
  destruct (axis_y (chord_properties (edge_BC q)) ao), (axis_z (chord_properties (edge_BC q)) ao),
    (axis_y (chord_properties (edge_AD q)) ai), (axis_z (chord_properties (edge_AD q)) ai); cbn [omap2];
    intuition discriminate.
Qed.

Lemma dihedral_value q ai ao : vx (edge_AD q) <> 0 -> vx (edge_BC q) <> 0 ->
  g_dihedral (generate q ai ao) =
  Some (degrees (atan2 (vz (edge_AB q) - ao * vz (edge_BC q) + ai * vz (edge_AD q))
                       (vy (edge_AB q) + ao * vy (edge_BC q) - ai * vy (edge_AD q)))).
Proof.
  intros X Y. cbn [generate g_dihedral]. fold (edge_AD q). fold (edge_BC q). fold (edge_AB q).
  rewrite !axis_z_ok, !axis_y_ok by (assumption || (intros [? _]; contradiction)). cbn [omap2].
  do 3 f_equal; ring.
Qed.

Lemma dihedral_ok q ai ao : vx (edge_AD q) <> 0 -> vx (edge_BC q) <> 0 ->
  ao * vz (edge_BC q) = ai * vz (edge_AD q) ->
  exists x, g_dihedral (generate q ai ao) = Some x /\
    angle_of x (vy (axis_line q ai ao)) (vz (axis_line q ai ao)).
Proof.
  intros X Y E. eexists. split; [apply dihedral_value; assumption|].
  replace (vy (axis_line q ai ao)) with (vy (edge_AB q) + ao * vy (edge_BC q) - ai * vy (edge_AD q))
    by (unfold axis_line, edge_AB; cbn [vx vy vz vadd vsub vscale]; ring).
  replace (vz (axis_line q ai ao)) with (vz (edge_AB q) - ao * vz (edge_BC q) + ai * vz (edge_AD q))
    by (rewrite E; transitivity (vz (edge_AB q)); [ring|];
        unfold axis_line, edge_AB; cbn [vx vy vz vadd vsub vscale]; rewrite E; ring).
  apply angle_atan2.
Qed.

(** A washed-out segment whose axis drops outwards is given a positive dihedral. *)
Definition washout : quad := mkQuad (mkV 0 0 0) (mkV 0 1 0) (mkV 1 1 (-1)) (mkV 1 0 0).
Lemma dihedral_wrong : exists q ai ao x,
  0 <= ai <= 1 /\ 0 <= ao <= 1 /\ g_dihedral (generate q ai ao) = Some x /\
  0 < x < 90 /\ 0 < vy (axis_line q ai ao) /\ vz (axis_line q ai ao) < 0.
Proof.
  exists washout, (1 / 4), (1 / 4), (degrees (atan (1 / 4))).
  split; [lra|]. split; [lra|]. split.
  { rewrite dihedral_value by (unfold washout, edge_AD, edge_BC; cbn [qa qb qc qd vx vsub]; lra).
    do 2 f_equal. unfold atan2, washout, edge_AD, edge_BC, edge_AB. cbn [qa qb qc qd vx vy vz vsub].
    destruct (Rlt_dec 0 _) as [_|N]; [f_equal; field|exfalso; apply N; lra]. }
  pose proof (atan_bound (1 / 4)) as B. pose proof (atan_increasing 0 (1 / 4) ltac:(lra)) as P. rewrite atan_0 in P.
  split.
  - pose proof PI_RGT_0. unfold degrees. split.
    + apply Rmult_lt_0_compat; [lra|]. apply Rinv_0_lt_compat. lra.
    + apply Rmult_lt_reg_r with PI; [lra|]. unfold Rdiv. rewrite Rmult_assoc, Rinv_l by lra. lra.
  - unfold washout, axis_line, edge_AD, edge_BC. cbn [qa qb qc qd vx vy vz vsub vadd vscale]. lra.
Qed.

(** All five angles lie in the ranges that the schema asks for exactly for segments that are
    neither upright nor upstream. *)
Lemma ranges_iff q ai ao : let g := generate q ai ao in
  (within (-90) 90 (cp_alpha (g_inner g)) /\ within (-90) 90 (cp_beta (g_inner g)) /\
   within (-90) 90 (cp_alpha (g_outer g)) /\ within (-90) 90 (cp_beta (g_outer g)) /\
   -90 <= g_sweep g <= 90 /\ within (-180) 180 (g_dihedral g)) <->
  (~ upright (edge_AD q) /\ ~ upright (edge_BC q) /\ 0 <= vx (edge_AD q) /\ 0 <= vx (edge_BC q)).
Proof.
  cbv zeta. change (g_inner (generate q ai ao)) with (chord_properties (edge_AD q)).
  change (g_outer (generate q ai ao)) with (chord_properties (edge_BC q)). split.
  - intros ((a & A & RA) & _ & (c & C & RC) & _ & _ & _).
    pose proof (chord_alpha _ _ A) as [NA _]. pose proof (chord_alpha _ _ C) as [NC _].
    apply chord_alpha_ok in A as (_ & _ & A). apply chord_alpha_ok in C as (_ & _ & C). tauto.
  - intros (NA & NC & XA & XC).
    assert (W : forall d, ~ upright d -> 0 <= vx d ->
      within (-90) 90 (cp_alpha (chord_properties d)) /\ within (-90) 90 (cp_beta (chord_properties d))).
    { intros d N X. destruct (chord_defined d) as [P Q].
      destruct (cp_alpha (chord_properties d)) as [a|] eqn:A; [|exfalso; apply N, P; reflexivity].
      destruct (cp_beta (chord_properties d)) as [b|] eqn:B; [|exfalso; apply N, Q; reflexivity].
      split; eexists; (split; [reflexivity|]); [apply chord_alpha_ok in A; tauto|apply chord_beta_ok in B; tauto]. }
    destruct (W _ NA XA), (W _ NC XC). repeat (split; [assumption|]). split; [apply sweep_ok|].
    destruct (g_dihedral (generate q ai ao)) as [x|] eqn:D.
    + exists x. split; [reflexivity|]. eapply dihedral_range, D.
    + apply dihedral_defined in D. tauto.
Qed.

(** Area *)
Lemma area_ok q ai ao : straight q -> segment_area (generate q ai ao) = plane_area q.
Proof.
  intros (A & B & C & D & E & F). unfold segment_area, plane_area.
  change (cp_chord (g_inner (generate q ai ao))) with (vnorm (edge_AD q)).
  change (cp_chord (g_outer (generate q ai ao))) with (vnorm (edge_BC q)).
  rewrite span_ok.
  assert (X : vnorm (edge_AD q) = vx (edge_AD q)) by (apply vnorm_eq_of_sq; [exact A|unfold vdot; rewrite B, C; ring]).
  assert (Y : vnorm (edge_BC q) = vx (edge_BC q)) by (apply vnorm_eq_of_sq; [exact D|unfold vdot; rewrite E, F; ring]).
  rewrite X, Y. set (s := vx (edge_AD q) + vx (edge_BC q)).
  transitivity (/ 2 * (Rabs s * vnorm (mkV 0 (vy (edge_AB q)) (vz (edge_AB q))))).
  { rewrite Rabs_right by (unfold s; lra). unfold s. field. }
  f_equal. rewrite <- vnorm_scale.
  set (u := vcross _ _).
  assert (U : vdot u u = vdot (vscale s (mkV 0 (vy (edge_AB q)) (vz (edge_AB q)))) (vscale s (mkV 0 (vy (edge_AB q)) (vz (edge_AB q))))).
  { unfold u, s. destruct q as [[ax ay az] [bx by_ bz] [cx cy cz] [dx dy dz]].
    unfold edge_AD, edge_BC, edge_AB in *. cbn [qa qb qc qd vx vy vz vsub vscale vcross] in *. unfold vdot. cbn [vx vy vz vsub vscale vcross].
    replace dy with ay by lra. replace dz with az by lra. replace cy with by_ by lra. replace cz with bz by lra. ring. }
  symmetry. apply vnorm_eq_of_sq; [apply vnorm_nonneg|]. rewrite vnorm_sq. exact U.
Qed.

Definition yawed : quad := mkQuad (mkV 0 0 0) (mkV 0 1 0) (mkV 1 2 0) (mkV 1 1 0).
Lemma area_wrong : exists q ai ao, (exists u v, vsub (qc q) (qa q) = vadd (vscale u (edge_AB q)) (vscale v (edge_AD q))) /\
  segment_area (generate q ai ao) <> plane_area q.
Proof.
  exists yawed, (1 / 4), (1 / 4). split.
  { exists 1, 1. unfold yawed, edge_AB, edge_AD. apply vec_eq; cbn [qa qb qc qd vx vy vz vsub vadd vscale]; ring. }
  unfold segment_area, plane_area. rewrite span_ok.
  change (cp_chord (g_inner (generate yawed (1 / 4) (1 / 4)))) with (vnorm (edge_AD yawed)).
  change (cp_chord (g_outer (generate yawed (1 / 4) (1 / 4)))) with (vnorm (edge_BC yawed)).
  rewrite (vnorm_eq_of_sq (mkV 0 _ _) 1); [|lra|unfold vdot, yawed, edge_AB; cbn [qa qb qc qd vx vy vz vsub]; ring].
  rewrite (vnorm_eq_of_sq (vcross _ _) 2); [|lra|unfold vdot, yawed; cbn [qa qb qc qd vx vy vz vsub vcross]; ring].
  replace (edge_BC yawed) with (edge_AD yawed) by (unfold yawed, edge_BC, edge_AD; apply vec_eq; cbn [qa qb qc qd vx vy vz vsub]; ring).
  intro H. assert (N : vnorm (edge_AD yawed) = 1) by lra.
  pose proof (vnorm_sq (edge_AD yawed)) as S. rewrite N in S. unfold vdot, yawed, edge_AD in S. cbn [qa qd vx vy vz vsub] in S. lra.
Qed.

(** Direction *)
Lemma main_direction_ok q : vdot (main_direction q) (edge_AD q) = 0 /\
  0 <= vdot (main_direction q) (edge_AB q) /\
  (vdot (main_direction q) (edge_AB q) = 0 <-> vcross (edge_AB q) (edge_AD q) = vzero) /\
  vdot (normal_vector q) (edge_AD q) = 0 /\ vdot (normal_vector q) (edge_AB q) = 0.
Proof.
  unfold main_direction, normal_vector. fold (edge_AB q). fold (edge_AD q).
  generalize (edge_AB q) (edge_AD q). intros u v.
  assert (E : vdot (vcross v (vcross u v)) u = vdot (vcross u v) (vcross u v))
    by (unfold vdot, vcross; cbn [vx vy vz]; ring).
  split; [unfold vdot, vcross; cbn [vx vy vz]; ring|].
  rewrite E. split; [apply vdot_self_nonneg|]. split; [split; [apply vdot_zero|]|].
  - intros ->. unfold vdot, vzero. cbn [vx vy vz]. ring.
  - split; unfold vdot, vcross; cbn [vx vy vz]; ring.
Qed.
