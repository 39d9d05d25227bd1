(** Laws of the solver core (C17-C25, C53-C55). *)
From Coq Require Import Reals List Lra Psatz Lia Permutation.
From Verif Require Import Vec PanelModel GeomSpec GeomProofs VlmModel VlmSpec VlmProofs.
Import ListNotations.
Open Scope R_scope.

(** ** C17 *)
Lemma sc2 x : sin x * sin x + cos x * cos x = 1.
Proof. pose proof (sin2_cos2 x). unfold Rsqr in *. lra. Qed.

Lemma free_stream s :
  vdot (free_stream_velocity_vector s) (free_stream_velocity_vector s) = f_airspeed s * f_airspeed s /\
  (0 <= f_airspeed s -> vnorm (free_stream_velocity_vector s) = f_airspeed s) /\
  (f_alpha s = 0 -> f_beta s = 0 -> free_stream_velocity_vector s = mkV (f_airspeed s) 0 0) /\
  free_stream_velocity_vector s = vscale (f_airspeed s) (freestream_direction (deg2rad (f_alpha s)) (deg2rad (f_beta s))) /\
  vel_wind s = vscale (-1) (free_stream_velocity_vector s) /\
  trail_dir (f_alpha s) (f_beta s) = vscale 10000 (freestream_direction (deg2rad (f_alpha s)) (deg2rad (f_beta s))).
Proof.
  assert (D : vdot (free_stream_velocity_vector s) (free_stream_velocity_vector s) = f_airspeed s * f_airspeed s).
  { unfold free_stream_velocity_vector, vdot. vsimp.
    set (a := deg2rad (f_alpha s)). set (b := deg2rad (f_beta s)).
    transitivity (f_airspeed s * f_airspeed s * ((sin a * sin a + cos a * cos a) * (cos b * cos b) + sin b * sin b)); [ring|].
    rewrite sc2. pose proof (sc2 b). nra. }
  split; [exact D|]. split; [intro H; apply vnorm_eq_of_sq; assumption|].
  split.
  { intros A B. unfold free_stream_velocity_vector. rewrite A, B. unfold deg2rad. rewrite Rmult_0_l, sin_0, cos_0.
    apply vec_eq; vsimp; ring. }
  split; [reflexivity|]. split.
  - unfold vel_wind, free_stream_velocity_vector, freestream_direction. apply vec_eq; vsimp; ring.
  - unfold trail_dir, infty. apply vec_eq; vsimp; ring.
Qed.

(** Conversely only zero angles (in the usual range) give a flow along the x axis. *)
Lemma free_stream_x s : 0 < f_airspeed s -> -90 < f_alpha s < 90 -> -90 < f_beta s < 90 ->
  vy (free_stream_velocity_vector s) = 0 -> vz (free_stream_velocity_vector s) = 0 -> f_alpha s = 0 /\ f_beta s = 0.
Proof.
  intros V A B. unfold free_stream_velocity_vector. vsimp. rewrite !deg2rad_rad.
  pose proof PI_RGT_0 as PP.
  assert (RA : - PI / 2 < rad (f_alpha s) < PI / 2) by (unfold rad; nra).
  assert (RB : - PI / 2 < rad (f_beta s) < PI / 2) by (unfold rad; nra).
  intros Y Z.
  assert (SB : sin (rad (f_beta s)) = 0) by nra.
  assert (CB : 0 < cos (rad (f_beta s))) by (apply cos_gt_0; lra).
  assert (SA : sin (rad (f_alpha s)) = 0).
  { apply Rmult_integral in Z. destruct Z as [Z|Z]; [lra|]. apply Rmult_integral in Z. destruct Z; lra. }
  assert (Q : forall x, - PI / 2 < x < PI / 2 -> sin x = 0 -> x = 0).
  { intros x X E. destruct (Rtotal_order x 0) as [L|[L|L]]; [|exact L|].
    - assert (0 < sin (- x)) by (apply sin_gt_0; lra). rewrite sin_neg in *. lra.
    - assert (0 < sin x) by (apply sin_gt_0; lra). lra. }
  apply Q in SA; [|exact RA]. apply Q in SB; [|exact RB]. unfold rad in *. split; nra.
Qed.

(** ** C18 *)
Lemma wind_axes s :
  vdot (axis_D s) (axis_D s) = 1 /\ vdot (axis_C s) (axis_C s) = 1 /\ vdot (axis_L s) (axis_L s) = 1 /\
  vdot (axis_D s) (axis_C s) = 0 /\ vdot (axis_D s) (axis_L s) = 0 /\ vdot (axis_C s) (axis_L s) = 0 /\
  vcross (axis_C s) (axis_L s) = axis_D s /\ wind s = vscale (f_airspeed s) (axis_D s).
Proof.
  unfold axis_D, axis_C, axis_L, wind, vdot. vsimp.
  set (a := rad (f_alpha s)). set (b := rad (f_beta s)). pose proof (sc2 a) as A. pose proof (sc2 b) as B.
  set (sa := sin a) in *. set (ca := cos a) in *. set (sb := sin b) in *. set (cb := cos b) in *. clearbody sa ca sb cb.
  repeat split.
  - transitivity ((sa * sa + ca * ca) * (cb * cb) + sb * sb); [ring|]. rewrite A. lra.
  - transitivity ((sa * sa + ca * ca) * (sb * sb) + cb * cb); [ring|]. rewrite A. lra.
  - lra.
  - transitivity (sb * cb * (sa * sa + ca * ca - 1)); [ring|]. rewrite A. ring.
  - ring.
  - ring.
  - apply vec_eq; vsimp; [ring| |ring].
    transitivity (- sb * (sa * sa + ca * ca)); [ring|]. rewrite A. ring.
  - apply vec_eq; vsimp; ring.
Qed.

Lemma wind_components s r F M :
  let c := vlm_coeffs s r F M in
  c_D c = vdot F (axis_D s) /\ c_C c = vdot F (axis_C s) /\ c_L c = vdot F (axis_L s) /\
  F = vadd (vadd (vscale (c_D c) (axis_D s)) (vscale (c_C c) (axis_C s))) (vscale (c_L c) (axis_L s)) /\
  c_D c * c_D c + c_C c * c_C c + c_L c * c_L c = vdot F F /\
  (forall k, F = vscale k (wind s) -> c_D c = k * f_airspeed s /\ c_C c = 0 /\ c_L c = 0).
Proof.
  cbv zeta. unfold vlm_coeffs. cbn [c_D c_C c_L]. rewrite !deg2rad_rad.
  assert (D1 : forall D C L, D = vdot F (axis_D s) -> C = vdot F (axis_C s) -> L = vdot F (axis_L s) ->
    D = vdot F (axis_D s) /\ C = vdot F (axis_C s) /\ L = vdot F (axis_L s) /\
    F = vadd (vadd (vscale D (axis_D s)) (vscale C (axis_C s))) (vscale L (axis_L s)) /\
    D * D + C * C + L * L = vdot F F /\
    (forall k, F = vscale k (wind s) -> D = k * f_airspeed s /\ C = 0 /\ L = 0)).
  { intros D C L -> -> ->. repeat (split; [reflexivity|]).
    destruct (wind_axes s) as (N1 & N2 & N3 & O1 & O2 & O3 & X & W).
    assert (E : F = vadd (vadd (vscale (vdot F (axis_D s)) (axis_D s)) (vscale (vdot F (axis_C s)) (axis_C s)))
                         (vscale (vdot F (axis_L s)) (axis_L s))).
    { unfold axis_D, axis_C, axis_L, vdot. set (a := rad (f_alpha s)). set (b := rad (f_beta s)).
      pose proof (sc2 a) as A. pose proof (sc2 b) as B. vsimp.
      set (sa := sin a) in *. set (ca := cos a) in *. set (sb := sin b) in *. set (cb := cos b) in *. clearbody sa ca sb cb.
      assert (CA : ca * ca = 1 - sa * sa) by lra. assert (CB : cb * cb = 1 - sb * sb) by lra.
      apply vec_eq; vsimp.
      - transitivity (vx F * ((sb * sb + cb * cb) * (ca * ca) + sa * sa) + vz F * sa * ca * (sb * sb + cb * cb - 1)); [rewrite B; replace (1 * (ca * ca) + sa * sa) with 1 by lra; ring|ring].
      - transitivity (vy F * (sb * sb + cb * cb)); [rewrite B; ring|ring].
      - transitivity (vz F * ((sb * sb + cb * cb) * (sa * sa) + ca * ca) + vx F * sa * ca * (sb * sb + cb * cb - 1)); [rewrite B; replace (1 * (sa * sa) + ca * ca) with 1 by lra; ring|ring]. }
    split; [exact E|]. split.
    - rewrite E at 7 8. set (D := vdot F (axis_D s)). set (C := vdot F (axis_C s)). set (L := vdot F (axis_L s)).
      transitivity (D * D * vdot (axis_D s) (axis_D s) + C * C * vdot (axis_C s) (axis_C s) + L * L * vdot (axis_L s) (axis_L s)
        + 2 * D * C * vdot (axis_D s) (axis_C s) + 2 * D * L * vdot (axis_D s) (axis_L s) + 2 * C * L * vdot (axis_C s) (axis_L s)).
      + rewrite N1, N2, N3, O1, O2, O3. ring.
      + unfold vdot. vsimp. ring.
    - intros k ->. rewrite W. rewrite !vdot_scale_l, N1, O1, O2. split; [ring|]. split; ring. }
  apply D1; unfold axis_D, axis_C, axis_L, vdot; vsimp; ring.
Qed.

(** ** C25 *)
Lemma coefficients s r F M : dyn_pressure s <> 0 -> r_area r <> 0 -> r_span r <> 0 -> r_chord r <> 0 ->
  let c := vlm_coeffs s r F M in let q := f_rho s * (f_airspeed s * f_airspeed s) / 2 in
  is (c_Cx c) (vx F / (q * r_area r)) /\ is (c_Cy c) (vy F / (q * r_area r)) /\ is (c_Cz c) (vz F / (q * r_area r)) /\
  is (c_CD c) (c_D c / (q * r_area r)) /\ is (c_CC c) (c_C c / (q * r_area r)) /\ is (c_CL c) (c_L c / (q * r_area r)) /\
  is (c_Cl c) (vx M / (q * r_area r * r_span r)) /\ is (c_Cm c) (vy M / (q * r_area r * r_chord r)) /\
  is (c_Cn c) (vz M / (q * r_area r * r_span r)).
Proof.
  intros Q A S C. cbv zeta. unfold vlm_coeffs. cbn [c_Cx c_Cy c_Cz c_CD c_CC c_CL c_Cl c_Cm c_Cn c_D c_C c_L].
  assert (E : dyn_pressure s = f_rho s * (f_airspeed s * f_airspeed s) / 2) by (unfold dyn_pressure; lra).
  destruct (Req_EM_T (dyn_pressure s) 0) as [H|_]; [contradiction|]. rewrite <- E. unfold is.
  clear E. generalize dependent (dyn_pressure s). intros q Q.
  repeat split; apply cdiv_some; repeat apply Rmult_integral_contrapositive_currified; assumption.
Qed.

(** With zero dynamic pressure the coefficients are finite (division by the area only)... *)
Lemma coefficients_q0 s r F M : dyn_pressure s = 0 -> r_area r <> 0 -> r_span r <> 0 -> r_chord r <> 0 ->
  let c := vlm_coeffs s r F M in
  is (c_Cx c) (vx F / r_area r) /\ is (c_Cy c) (vy F / r_area r) /\ is (c_Cz c) (vz F / r_area r) /\
  is (c_CD c) (c_D c / r_area r) /\ is (c_CC c) (c_C c / r_area r) /\ is (c_CL c) (c_L c / r_area r) /\
  is (c_Cl c) (vx M / (r_area r * r_span r)) /\ is (c_Cm c) (vy M / (r_area r * r_chord r)) /\
  is (c_Cn c) (vz M / (r_area r * r_span r)).
Proof.
  intros Q A S C. cbv zeta. unfold vlm_coeffs. cbn [c_Cx c_Cy c_Cz c_CD c_CC c_CL c_Cl c_Cm c_Cn c_D c_C c_L].
  destruct (Req_EM_T (dyn_pressure s) 0) as [_|H]; [|contradiction]. unfold is. rewrite !Rmult_1_l.
  repeat split; apply cdiv_some; repeat apply Rmult_integral_contrapositive_currified; assumption.
Qed.

(** ... but every panel pressure coefficient is not. *)
Lemma cp_q0 eps lat s r gamma o : vlm_results eps lat s r gamma = Some o -> dyn_pressure s = 0 ->
  forall p, In p (o_panels o) -> o_cp p = None.
Proof.
  intros H Q p I. apply vlm_results_inv in H. destruct H as (-> & _). unfold results_val in I. cbn [o_panels] in I.
  apply in_map_iff in I. destruct I as (x & <- & _). unfold loads_val. cbn [fst o_cp]. rewrite Q, Rmult_0_l. apply cdiv_zero.
Qed.

(** ** Panels of the result *)

Lemma nth_combine {A B} (l : list A) (m : list B) n x y : nth_error l n = Some x -> nth_error m n = Some y ->
  nth_error (combine l m) n = Some (x, y).
Proof.
  revert m n. induction l as [|a l IH]; intros [|b m] [|n] X Y; simpl in *; try discriminate; [congruence|]. apply IH; assumption.
Qed.

Lemma is_induced_ok eps lat g p : length g = length lat ->
  (forall x, In x (combine lat g) -> horseshoe eps p (fst x) = Some (hs eps p (fst x))) ->
  is_induced eps lat g p (induced eps p (combine lat g)).
Proof.
  intros L H. exists (map (hs eps p) lat). split.
  - revert g L H. induction lat as [|j lat IH]; intros [|x g] L H; simpl in *; try discriminate; constructor.
    + exact (H (j, x) (or_introl eq_refl)).
    + apply (IH g); [lia|]. intros y I. apply H. right. exact I.
  - unfold induced. f_equal. clear H. revert g L. induction lat as [|j lat IH]; intros [|x g] L; simpl in *; try discriminate; [reflexivity|].
    f_equal. apply IH. lia.
Qed.

Lemma panel_results eps lat s r gamma o : vlm_results eps lat s r gamma = Some o -> length gamma = length lat ->
  length (o_panels o) = length lat /\
  forall n i g, nth_error lat n = Some i -> nth_error gamma n = Some g ->
  exists p, nth_error (o_panels o) n = Some p /\
    is_induced eps lat gamma (pB i) (o_iw p) /\
    let vel := vadd (o_iw p) (onset s (r_CG r) (pB i)) in
    let L := vsub (pV3 i) (pV2 i) in
    o_f p = vscale (f_rho s * g) (vcross vel L) /\
    vdot (o_f p) vel = 0 /\ vdot (o_f p) L = 0 /\
    (g = 0 -> o_f p = vzero) /\
    (dyn_pressure s <> 0 -> pA i <> 0 ->
       is (o_cp p) (vdot (o_f p) (pN i) / (f_rho s * (f_airspeed s * f_airspeed s) / 2 * pA i))).
Proof.
  intros H L. apply vlm_results_inv in H. destruct H as (-> & F). unfold results_val. cbn [o_panels].
  split; [rewrite map_length, combine_length; lia|].
  intros n i g I G. pose proof (nth_combine _ _ _ _ _ I G) as C.
  exists (fst (loads_val eps lat gamma s r i g)). split; [rewrite nth_error_map, C; reflexivity|].
  unfold loads_val. cbn [fst o_iw o_f o_cp]. split.
  { apply is_induced_ok; [exact L|]. intros x X. destruct (F i g x (nth_error_In _ _ C) X) as (v & E). unfold hs. rewrite E. reflexivity. }
  cbv zeta. unfold kj_force, local_vel. set (w := vadd _ _). set (l := vsub _ _). clearbody w l.
  split; [reflexivity|].
  split; [rewrite vdot_scale_l, vcross_perp_l; ring|]. split; [rewrite vdot_scale_l, vcross_perp_r; ring|].
  split; [intros ->; apply vec_eq; vsimp; ring|].
  intros Q A. unfold is. rewrite cdiv_some by (apply Rmult_integral_contrapositive_currified; assumption).
  f_equal. f_equal. unfold dyn_pressure. lra.
Qed.

(** ** C19 *)
Lemma vsum_map_ext {A} (f g : A -> vec) l : (forall x, In x l -> f x = g x) -> vsum (map f l) = vsum (map g l).
Proof. intro H. f_equal. apply map_ext_in. exact H. Qed.

Lemma combine_map_fst {A B C} (h : A * B -> C) (l : list A) (m : list B) : length m = length l ->
  combine l (map h (combine l m)) = map (fun x => (fst x, h x)) (combine l m).
Proof.
  revert m. induction l as [|a l IH]; intros [|b m] L; simpl in *; try discriminate; [reflexivity|]. f_equal. apply IH. lia.
Qed.

Lemma total_loads eps lat s r gamma o : vlm_results eps lat s r gamma = Some o -> length gamma = length lat ->
  o_F o = vsum (map o_f (o_panels o)) /\
  o_M o = vsum (map (fun x => vcross (vsub (pB (fst x)) (r_RP r)) (o_f (snd x))) (combine lat (o_panels o))).
Proof.
  intros H L. apply vlm_results_inv in H. destruct H as (-> & _). unfold results_val. cbn [o_F o_M o_panels]. split.
  - rewrite map_map. reflexivity.
  - rewrite combine_map_fst by exact L. rewrite map_map. reflexivity.
Qed.


Lemma vsum_cross d (fs : list vec) : vcross d (vsum fs) = vsum (map (vcross d) fs).
Proof.
  induction fs as [|f fs IH]; simpl; [apply vec_eq; vsimp; ring|]. rewrite <- IH. apply vec_eq; vsimp; ring.
Qed.

Lemma vsum_sub {A} (f g : A -> vec) l : vsum (map (fun x => vsub (f x) (g x)) l) = vsub (vsum (map f l)) (vsum (map g l)).
Proof.
  induction l as [|x l IH]; simpl; [apply vec_eq; vsimp; ring|]. rewrite IH. apply vec_eq; vsimp; ring.
Qed.

Lemma moment_transfer eps lat s r gamma o d : vlm_results eps lat s r gamma = Some o ->
  exists o', vlm_results eps lat s (with_RP r (vadd (r_RP r) d)) gamma = Some o' /\
    o_panels o' = o_panels o /\ o_F o' = o_F o /\ o_M o' = vsub (o_M o) (vcross d (o_F o)).
Proof.
  intro H. apply vlm_results_inv in H. destruct H as (-> & F). eexists. split; [apply vlm_results_ok; exact F|].
  unfold results_val. cbn [o_panels o_F o_M]. split; [reflexivity|]. split; [reflexivity|].
  change (fun x => kj_force eps lat gamma s (with_RP r (vadd (r_RP r) d)) (fst x) (snd x))
    with (fun x => kj_force eps lat gamma s r (fst x) (snd x)).
  rewrite vsum_cross, map_map, <- vsum_sub. apply vsum_map_ext. intros x _. cbn [with_RP r_RP].
  change (kj_force eps lat gamma s (with_RP r (vadd (r_RP r) d)) (fst x) (snd x)) with (kj_force eps lat gamma s r (fst x) (snd x)).
  apply vec_eq; vsimp; ring.
Qed.

(** ** C22 *)
Lemma vdot_vsum n l : vdot (vsum l) n = rsum (map (fun v => vdot v n) l).
Proof. induction l as [|v l IH]; simpl; [unfold vdot; simpl; ring|]. rewrite <- IH. unfold vdot. simpl. ring. Qed.

Lemma induced_dot eps p n l : vdot (induced eps p l) n = rsum (map (fun x => vdot (hs eps p (fst x)) n * snd x) l).
Proof.
  unfold induced. rewrite vdot_vsum, map_map. f_equal. apply map_ext. intro x. rewrite vdot_scale_l. ring.
Qed.

Lemma no_flow_through eps lat s r m g : downwash eps lat = Some m ->
  (solves m (boundary lat s r) g <->
   length g = length lat /\ forall i, In i lat -> exists w, is_induced eps lat g (pC i) w /\ vdot (vadd w (onset s (r_CG r) (pC i))) (pN i) = 0).
Proof.
  intro D. rewrite (solves_iff eps lat s r g m D). destruct (downwash_inv _ _ _ D) as (_ & R).
  assert (K : forall i, In i lat -> tangent eps lat s r g i <-> vdot (vadd (induced eps (pC i) (combine lat g)) (onset s (r_CG r) (pC i))) (pN i) = 0).
  { intros i I. unfold tangent. rewrite <- induced_dot, vel_onset. set (w := induced _ _ _). unfold vdot. vsimp. split; lra. }
  assert (U : forall i, In i lat -> length g = length lat -> is_induced eps lat g (pC i) (induced eps (pC i) (combine lat g))).
  { intros i I L. apply is_induced_ok; [exact L|]. intros [j x] X. apply in_combine_l in X. apply R; assumption. }
  split; intros (L & H); (split; [exact L|]); intros i I.
  - eexists. split; [apply U; assumption|]. apply K; auto.
  - apply K; [exact I|]. destruct (H i I) as (w & W & E).
    replace (induced eps (pC i) (combine lat g)) with w; [exact E|].
    destruct W as (us & F & ->). clear - F L R I. unfold induced. f_equal.
    assert (R' : forall j, In j lat -> horseshoe eps (pC i) j = Some (hs eps (pC i) j)) by (intros j J; apply R; assumption). clear R.
    revert R' g L. set (p := pC i) in *. clearbody p. clear I i. induction F as [|j u lat us E F IH]; intros R [|x g] L; simpl in *; try discriminate; [reflexivity|].
    f_equal.
    + f_equal. rewrite (R j (or_introl eq_refl)) in E. congruence.
    + apply IH; [intros j' J'; apply R; right; exact J'|lia].
Qed.


Lemma comb_length a b g1 g2 : length g1 = length g2 -> length (comb a b g1 g2) = length g1.
Proof. intro L. unfold comb. rewrite map_length, combine_length. lia. Qed.

Lemma dot_comb a b row g1 g2 : length g1 = length row -> length g2 = length row ->
  dot row (comb a b g1 g2) = a * dot row g1 + b * dot row g2.
Proof.
  revert g1 g2. induction row as [|x row IH]; intros [|y g1] [|z g2] L1 L2; simpl in *; try discriminate.
  - unfold dot. simpl. ring.
  - unfold dot, comb in *. simpl. rewrite (IH g1 g2) by lia. ring.
Qed.

Definition square (m : list (list R)) : Prop := forall row, In row m -> length row = length m.

Lemma downwash_square eps lat m : downwash eps lat = Some m -> square m /\ length m = length lat.
Proof.
  intro D. destruct (downwash_inv _ _ _ D) as (-> & _). split; [|apply map_length].
  intros row I. apply in_map_iff in I. destruct I as (i & <- & _). rewrite !map_length. reflexivity.
Qed.


Lemma boundary_blend a b lat s1 s2 r : f_alpha s1 = f_alpha s2 -> f_beta s1 = f_beta s2 ->
  boundary lat (blend a b s1 s2) r = comb a b (boundary lat s1 r) (boundary lat s2 r).
Proof.
  intros A B. unfold boundary, comb. induction lat as [|i lat IH]; [reflexivity|]. simpl. f_equal; [|exact IH].
  unfold vel_wind, vel_rot, blend, freestream_direction, vdot. cbn [f_airspeed f_alpha f_beta f_P f_Q f_R]. rewrite <- A, <- B. vsimp. ring.
Qed.

Lemma solves_comb a b m rhs1 rhs2 g1 g2 : square m -> solves m rhs1 g1 -> solves m rhs2 g2 ->
  solves m (comb a b rhs1 rhs2) (comb a b g1 g2).
Proof.
  intros S (L1 & E1) (L2 & E2). split; [rewrite comb_length; lia|].
  assert (Q : forall row, In row m -> dot row (comb a b g1 g2) = a * dot row g1 + b * dot row g2).
  { intros row I. apply dot_comb; rewrite (S row I); assumption. }
  subst. clear S. induction m as [|row m IH] in Q, g1, g2, L1, L2 |- *; [reflexivity|].
  unfold comb at 2. simpl. f_equal; [apply Q; left; reflexivity|].
  assert (G : map (fun row => dot row (comb a b g1 g2)) m = map (fun row => a * dot row g1 + b * dot row g2) m).
  { apply map_ext_in. intros x I. apply Q. right. exact I. }
  rewrite G. clear. induction m as [|x m IH]; simpl; [reflexivity|]. f_equal. exact IH.
Qed.

Lemma superposition eps lat m a b s1 s2 r g1 g2 : downwash eps lat = Some m ->
  f_alpha s1 = f_alpha s2 -> f_beta s1 = f_beta s2 ->
  solves m (boundary lat s1 r) g1 -> solves m (boundary lat s2 r) g2 ->
  solves m (boundary lat (blend a b s1 s2) r) (comb a b g1 g2).
Proof.
  intros D A B S1 S2. rewrite boundary_blend by assumption. apply solves_comb; [|exact S1|exact S2].
  apply (downwash_square eps lat). exact D.
Qed.



Lemma cdiv_same k a b : k <> 0 -> cdiv (k * a) (k * b) = cdiv a b.
Proof.
  intro K. rewrite cdiv_scale by exact K. destruct (cdiv a b); [|reflexivity]. cbn [option_map]. f_equal. field. exact K.
Qed.

Lemma vsum_scale k l : vsum (map (vscale k) l) = vscale k (vsum l).
Proof. induction l as [|v l IH]; simpl; [apply vec_eq; vsimp; ring|]. rewrite IH. apply vec_eq; vsimp; ring. Qed.

Lemma combine_map_r {A B C} (h : B -> C) (l : list A) (m : list B) : combine l (map h m) = map (fun x => (fst x, h (snd x))) (combine l m).
Proof. revert m. induction l as [|a l IH]; intros [|b m]; simpl; try reflexivity. f_equal. apply IH. Qed.

Lemma coeffs_scaled s s' r r' F M k fs fl : k <> 0 -> fs <> 0 -> fl <> 0 ->
  f_alpha s' = f_alpha s -> f_beta s' = f_beta s -> dyn_pressure s <> 0 ->
  dyn_pressure s' = k * dyn_pressure s ->
  r_area r' = fs * r_area r -> r_span r' = fl * r_span r -> r_chord r' = fl * r_chord r ->
  same_coeffs (vlm_coeffs s r F M) (vlm_coeffs s' r' (vscale (k * fs) F) (vscale (k * fs * fl) M)).
Proof.
  intros K FS FL A B Q0 Q RA RS RC.
  assert (KF : k * fs <> 0) by (apply Rmult_integral_contrapositive_currified; assumption).
  assert (KL : k * fs * fl <> 0) by (apply Rmult_integral_contrapositive_currified; assumption).
  unfold same_coeffs, vlm_coeffs. cbn [c_Cx c_Cy c_Cz c_CD c_CC c_CL c_Cl c_Cm c_Cn]. rewrite A, B, Q, RA, RS, RC.
  destruct (Req_EM_T (dyn_pressure s) 0) as [|_]; [contradiction|].
  destruct (Req_EM_T (k * dyn_pressure s) 0) as [H|_].
  { apply Rmult_integral in H. destruct H; contradiction. }
  clear - KF KL. generalize (dyn_pressure s). intro q. vsimp.
  repeat split;
  match goal with
       | |- cdiv ?x ?y = cdiv ?u (q * r_area r) => replace y with (k * fs * (q * r_area r)) by ring;
            replace x with (k * fs * u) by ring; apply cdiv_same; exact KF
       | |- cdiv ?x ?y = cdiv ?u ?z => replace y with (k * fs * fl * z) by ring;
            replace x with (k * fs * fl * u) by ring; apply cdiv_same; exact KL
       end.
Qed.

Lemma faster_boundary k c lat s r : f_P s = 0 -> f_Q s = 0 -> f_R s = 0 ->
  boundary lat (faster k c s) r = map (Rmult k) (boundary lat s r).
Proof.
  intros P Q R. unfold boundary. rewrite map_map. apply map_ext. intro i.
  unfold vel_wind, vel_rot, faster, vdot. cbn [f_airspeed f_alpha f_beta f_P f_Q f_R]. rewrite P, Q, R. vsimp. ring.
Qed.

Lemma dot_scale k row g : dot row (map (Rmult k) g) = k * dot row g.
Proof.
  unfold dot. rewrite combine_map_r, map_map. cbn [fst snd].
  induction (combine row g) as [|x l IH]; cbn [map rsum fold_right]; [ring|]. unfold rsum in IH. rewrite IH. ring.
Qed.

Lemma solves_scale k m rhs g : solves m rhs g -> solves m (map (Rmult k) rhs) (map (Rmult k) g).
Proof.
  intros (L & E). split; [rewrite map_length; exact L|]. subst. rewrite map_map. apply map_ext. intro row. apply dot_scale.
Qed.

Lemma map_Rmult_inv k g : k <> 0 -> map (Rmult (/ k)) (map (Rmult k) g) = g.
Proof.
  intro K. rewrite map_map. rewrite <- (map_id g) at 2. apply map_ext. intro x. field. exact K.
Qed.

Lemma unique_scale k m rhs : k <> 0 -> unique_solution m rhs -> unique_solution m (map (Rmult k) rhs).
Proof.
  intros K U g g' S S'.
  apply (solves_scale (/ k)) in S, S'. rewrite map_Rmult_inv in S, S' by exact K.
  pose proof (U _ _ S S') as E. apply (f_equal (map (Rmult k))) in E.
  assert (I : k = / / k) by (field; exact K).
  rewrite I in E at 1 3. rewrite !map_Rmult_inv in E by (apply Rinv_neq_0_compat; exact K). exact E.
Qed.

Lemma induced_scale eps p lat k g : induced eps p (combine lat (map (Rmult k) g)) = vscale k (induced eps p (combine lat g)).
Proof.
  unfold induced. rewrite combine_map_r, map_map, <- vsum_scale, map_map. apply vsum_map_ext. intros x _. cbn [fst snd].
  apply vec_eq; vsimp; ring.
Qed.

Lemma speed_scaling eps lat m k c s r g o :
  downwash eps lat = Some m -> f_P s = 0 -> f_Q s = 0 -> f_R s = 0 -> 0 < f_airspeed s -> 0 < f_rho s -> 0 < k -> 0 < c ->
  unique_solution m (boundary lat s r) ->
  solves m (boundary lat s r) g -> vlm_results eps lat s r g = Some o ->
  (forall g', solves m (boundary lat (faster k c s) r) g' <-> g' = map (Rmult k) g) /\
  exists o', vlm_results eps lat (faster k c s) r (map (Rmult k) g) = Some o' /\
    o_F o' = vscale (c * (k * k)) (o_F o) /\ o_M o' = vscale (c * (k * k)) (o_M o) /\
    same_coeffs (o_co o) (o_co o') /\
    map o_cp (o_panels o') = map o_cp (o_panels o).
Proof.
  intros D HP HQ HR V RH K C U S H. rewrite faster_boundary by assumption. split.
  { intro g'. split; [|intros ->; apply solves_scale; exact S]. intro S'.
    apply (unique_scale k m _ ltac:(lra) U); [exact S'|apply solves_scale; exact S]. }
  apply vlm_results_inv in H. destruct H as (-> & F).
  eexists. split.
  { apply vlm_results_ok. intros i x y I Y. rewrite combine_map_r in I, Y. apply in_map_iff in I, Y.
    destruct I as ([i' x'] & E1 & I'). destruct Y as ([j y'] & <- & Y'). injection E1 as <- _. exact (F i' x' _ I' Y'). }
  set (s' := faster k c s).
  assert (LV : forall i, local_vel eps lat (map (Rmult k) g) s' r i = vscale k (local_vel eps lat g s r i)).
  { intro i. unfold local_vel. rewrite induced_scale. unfold onset, wind, rates, s', faster.
    cbn [f_airspeed f_alpha f_beta f_P f_Q f_R]. rewrite HP, HQ, HR. apply vec_eq; vsimp; ring. }
  assert (KJ : forall i x, kj_force eps lat (map (Rmult k) g) s' r i (k * x) = vscale (c * (k * k)) (kj_force eps lat g s r i x)).
  { intros i x. unfold kj_force. rewrite LV. unfold s', faster. cbn [f_rho]. apply vec_eq; vsimp; ring. }
  assert (DP : dyn_pressure s' = c * (k * k) * dyn_pressure s).
  { unfold dyn_pressure, s', faster. cbn [f_rho f_airspeed]. ring. }
  assert (DN : dyn_pressure s <> 0).
  { unfold dyn_pressure. assert (0 < f_airspeed s * f_airspeed s) by nra. nra. }
  unfold results_val. rewrite combine_map_r. rewrite !map_map. cbn [fst snd o_F o_M o_co o_panels].
  assert (EF : vsum (map (fun x : panel * R => kj_force eps lat (map (Rmult k) g) s' r (fst x) (k * snd x)) (combine lat g)) =
    vscale (c * (k * k)) (vsum (map (fun x => kj_force eps lat g s r (fst x) (snd x)) (combine lat g)))).
  { rewrite <- vsum_scale, map_map. apply vsum_map_ext. intros x _. apply KJ. }
  assert (EM : vsum (map (fun x : panel * R => vcross (vsub (pB (fst x)) (r_RP r)) (kj_force eps lat (map (Rmult k) g) s' r (fst x) (k * snd x))) (combine lat g)) =
    vscale (c * (k * k)) (vsum (map (fun x => vcross (vsub (pB (fst x)) (r_RP r)) (kj_force eps lat g s r (fst x) (snd x))) (combine lat g)))).
  { rewrite <- vsum_scale, map_map. apply vsum_map_ext. intros x _. rewrite KJ. apply vec_eq; vsimp; ring. }
  assert (CK : 0 < c * (k * k)) by (apply Rmult_lt_0_compat; [exact C|nra]).
  rewrite EF, EM. split; [reflexivity|]. split; [reflexivity|]. split.
  - set (FF := vsum _). set (MM := vsum _).
    replace (c * (k * k)) with (c * (k * k) * 1) at 1 by ring. replace (c * (k * k)) with (c * (k * k) * 1 * 1) at 2 by ring.
    apply coeffs_scaled; try lra; try reflexivity; try exact DN; try exact DP.
  - rewrite !map_map. apply map_ext. intro x. unfold loads_val. cbn [fst o_cp]. rewrite KJ, DP, vdot_scale_l. rewrite (Rmult_assoc (c * (k * k))). apply cdiv_same. lra.
Qed.
