(** C52: the induced velocity of a leg is the Biot-Savart integral over the leg. *)
From Coq Require Import Reals List Lra Psatz.
From Verif Require Import Vec PanelModel GeomSpec GeomProofs VlmModel VlmSpec VlmProofs.
Open Scope R_scope.




Section Antiderivative.
  Variables A B C : R.
  Hypothesis D : 0 < A * C - B * B.
  Hypothesis A0 : 0 < A.

  Let q t := C - 2 * B * t + A * (t * t).
  Let F t := (A * t - B) / (sqrt (q t) * (A * C - B * B)).

  Lemma q_pos t : 0 < q t.
  Proof.
    unfold q. assert (E : A * (C - 2 * B * t + A * (t * t)) = (A * t - B) * (A * t - B) + (A * C - B * B)) by ring.
    assert (0 < A * (C - 2 * B * t + A * (t * t))) by (rewrite E; pose proof (sq_nonneg (A * t - B)); lra).
    apply (Rmult_lt_reg_l A); [exact A0|]. lra.
  Qed.

  Lemma q_deriv t : derivable_pt_lim q t (2 * (A * t - B)).
  Proof.
    unfold q. replace (2 * (A * t - B)) with (0 - 2 * B * 1 + A * (1 * t + t * 1)) by ring.
    apply (derivable_pt_lim_plus (fun t => C - 2 * B * t) (fun t => A * (t * t))).
    - apply (derivable_pt_lim_minus (fun _ => C) (fun t => 2 * B * t)); [apply derivable_pt_lim_const|].
      apply (derivable_pt_lim_scal (fun t => t)). apply derivable_pt_lim_id.
    - apply (derivable_pt_lim_scal (fun t => t * t)). apply (derivable_pt_lim_mult (fun t => t) (fun t => t)); apply derivable_pt_lim_id.
  Qed.

  Lemma s_deriv t : derivable_pt_lim (fun t => sqrt (q t)) t ((A * t - B) / sqrt (q t)).
  Proof.
    replace ((A * t - B) / sqrt (q t)) with (/ (2 * sqrt (q t)) * (2 * (A * t - B))).
    - apply (derivable_pt_lim_comp q sqrt); [apply q_deriv|]. apply derivable_pt_lim_sqrt, q_pos.
    - field. apply Rgt_not_eq, sqrt_lt_R0, q_pos.
  Qed.

  Lemma F_deriv t : derivable_pt_lim F t (/ (sqrt (q t) * sqrt (q t) * sqrt (q t))).
  Proof.
    assert (S : 0 < sqrt (q t)) by apply sqrt_lt_R0, q_pos.
    assert (SS : sqrt (q t) * sqrt (q t) = q t) by (apply sqrt_sqrt; pose proof (q_pos t); lra).
    pose proof (derivable_pt_lim_div (fun t => A * t - B) (fun t => sqrt (q t) * (A * C - B * B)) t (A * 1 - 0)
      ((A * t - B) / sqrt (q t) * (A * C - B * B) + sqrt (q t) * 0)) as H.
    assert (E : ((A * 1 - 0) * (sqrt (q t) * (A * C - B * B)) - ((A * t - B) / sqrt (q t) * (A * C - B * B) + sqrt (q t) * 0) * (A * t - B))
       / Rsqr (sqrt (q t) * (A * C - B * B)) = / (sqrt (q t) * sqrt (q t) * sqrt (q t))).
    { unfold Rsqr. set (d := A * C - B * B) in *. set (s := sqrt (q t)) in *.
      assert (K : A * (s * s) - (A * t - B) * (A * t - B) = d) by (rewrite SS; unfold q, d; ring).
      transitivity ((A * (s * s) - (A * t - B) * (A * t - B)) / (s * s * s * d)); [field; lra|]. rewrite K. field. lra. }
    unfold F. rewrite <- E.
    refine (H _ _ _).
    - apply (derivable_pt_lim_minus (fun t => A * t) (fun _ => B)); [|apply derivable_pt_lim_const].
      apply (derivable_pt_lim_scal (fun t => t)), derivable_pt_lim_id.
    - apply (derivable_pt_lim_mult (fun t => sqrt (q t)) (fun _ => A * C - B * B)); [apply s_deriv|apply derivable_pt_lim_const].
    - apply Rmult_integral_contrapositive_currified; lra.
  Qed.

  Lemma F_derivable : derivable F.
  Proof. intro t. exists (/ (sqrt (q t) * sqrt (q t) * sqrt (q t))). apply F_deriv. Defined.

  Lemma kernel_cont : continuity (fun t => / (sqrt (q t) * sqrt (q t) * sqrt (q t))).
  Proof.
    intro t. apply (continuity_pt_inv (fun t => sqrt (q t) * sqrt (q t) * sqrt (q t))).
    - assert (c : continuity_pt (fun t => sqrt (q t)) t) by (apply derivable_continuous_pt; eexists; apply s_deriv).
      apply (continuity_pt_mult (fun t => sqrt (q t) * sqrt (q t)) (fun t => sqrt (q t))); [|exact c].
      apply (continuity_pt_mult (fun t => sqrt (q t)) (fun t => sqrt (q t))); exact c.
    - assert (S : 0 < sqrt (q t)) by apply sqrt_lt_R0, q_pos. assert (0 < sqrt (q t) * sqrt (q t)) by nra. nra.
  Qed.

  Lemma kernel_integral k (g : R -> R) : (forall t, g t = k * / (sqrt (q t) * sqrt (q t) * sqrt (q t))) ->
    integral g (k * (F 1 - F 0)).
  Proof.
    intro G.
    assert (DF : derivable (fun t => k * F t)) by (intro t; exists (k * / (sqrt (q t) * sqrt (q t) * sqrt (q t))); apply (derivable_pt_lim_scal F), F_deriv).
    assert (DE : forall t, derive (fun t => k * F t) DF t = g t).
    { intro t. unfold derive. rewrite G. apply derive_pt_eq_0. apply (derivable_pt_lim_scal F), F_deriv. }
    assert (CG : continuity g).
    { intro t. apply (continuity_pt_locally_ext (fun t => k * / (sqrt (q t) * sqrt (q t) * sqrt (q t))) g 1 t); [lra|intros; symmetry; apply G|].
      apply (continuity_pt_scal (fun t => / (sqrt (q t) * sqrt (q t) * sqrt (q t)))), kernel_cont. }
    assert (CD : continuity (derive (fun t => k * F t) DF)).
    { intro t. apply (continuity_pt_locally_ext g (derive (fun t => k * F t) DF) 1 t); [lra|intros; symmetry; apply DE|]. apply CG. }
    assert (pr : Riemann_integrable g 0 1) by (apply continuity_implies_RiemannInt; [lra|intros; apply CG]).
    assert (pr' : Riemann_integrable (derive (fun t => k * F t) DF) 0 1) by (apply continuity_implies_RiemannInt; [lra|intros; apply CD]).
    exists pr. rewrite (RiemannInt_P18 pr pr'); [|lra|intros; symmetry; apply DE].
    pose proof (FTC_Riemann (mkC1 CD) pr') as E. cbn [c1] in E. etransitivity; [exact E|]. ring.
  Qed.
End Antiderivative.

Lemma vsub_point p a b t :
  let L := vsub b a in
  vnorm (vsub p (vadd a (vscale t L))) = sqrt (vdot (vsub p a) (vsub p a) - 2 * vdot (vsub p a) L * t + vdot L L * (t * t)).
Proof. cbv zeta. unfold vnorm, vdot. f_equal. vsimp. ring. Qed.

Lemma integral_ext f g x : (forall t, f t = g t) -> integral f x -> integral g x.
Proof.
  intros E (pr & H). assert (pr' : Riemann_integrable g 0 1).
  { intro e. destruct (pr e) as (phi & psi & P & Q). exists phi, psi. split; [|exact Q]. intros t T. rewrite <- E. apply P. exact T. }
  exists pr'. rewrite <- H. apply RiemannInt_P18; [lra|]. intros t _. symmetry. apply E.
Qed.


Lemma off_line_facts p a b : off_line p a b ->
  vsub p a <> vzero /\ vsub p b <> vzero /\ - (vnorm (vsub p a) * vnorm (vsub p b)) < vdot (vsub p a) (vsub p b) < vnorm (vsub p a) * vnorm (vsub p b).
Proof.
  unfold off_line. intro H. set (u := vsub p a) in *. set (v := vsub p b) in *.
  assert (U : u <> vzero) by (intro E; apply H; rewrite E; apply vec_eq; vsimp; ring).
  assert (V : v <> vzero) by (intro E; apply H; rewrite E; apply vec_eq; vsimp; ring).
  split; [exact U|]. split; [exact V|].
  pose proof (lagrange u v) as L. rewrite <- !vnorm_sq in L.
  assert (0 < vnorm (vcross u v)) by (apply vnorm_pos, H). rewrite !vnorm_sq in L. rewrite <- (vnorm_sq (vcross u v)), <- (vnorm_sq u), <- (vnorm_sq v) in L.
  assert (0 < vnorm (vcross u v) * vnorm (vcross u v)) by nra.
  pose proof (vnorm_pos u U). pose proof (vnorm_pos v V). assert (0 < vnorm u * vnorm v) by nra.
  set (n := vnorm u * vnorm v) in *. set (d := vdot u v) in *.
  assert (d * d < n * n) by (unfold n; nra). split; nra.
Qed.

Lemma leg_biot_savart eps p a b u : 0 <= eps -> off_line p a b -> leg_velocity eps p a b = Some u ->
  exists u0, biot_savart p a b u0 /\ u = vscale (damping eps p a b) u0.
Proof.
  intros E O H. destruct (off_line_facts p a b O) as (U & V & DL & DU).
  set (r1 := vsub p a) in *. set (r2 := vsub p b) in *.
  pose proof (vnorm_pos _ U) as N1. pose proof (vnorm_pos _ V) as N2.
  assert (N12 : 0 < vnorm r1 * vnorm r2) by nra.
  set (L := vsub b a).
  assert (LE : L = vsub r1 r2) by (unfold L, r1, r2; apply vec_eq; vsimp; ring).
  set (A := vdot L L). set (B := vdot r1 L). set (C := vdot r1 r1).
  assert (QD : A * C - B * B = vdot r1 r1 * vdot r2 r2 - vdot r1 r2 * vdot r1 r2).
  { unfold A, B, C. rewrite LE. unfold vdot. vsimp. ring. }
  rewrite <- (vnorm_sq r1), <- (vnorm_sq r2) in QD.
  set (n1 := vnorm r1) in *. set (n2 := vnorm r2) in *. set (d := vdot r1 r2) in *.
  assert (DP : 0 < A * C - B * B) by (rewrite QD; nra).
  assert (AP : 0 < A).
  { pose proof (vdot_self_nonneg L) as X. fold A in X. destruct (Rle_lt_or_eq_dec _ _ X) as [K|K]; [exact K|]. exfalso. rewrite <- K in DP. pose proof (sq_nonneg B). lra. }
  set (kk := (n1 + n2) / (n1 * n2 * (n1 * n2 + d))).
  set (u0 := vscale (/ (4 * PI) * kk) (vcross r1 r2)).
  exists u0. assert (PI0 := PI_RGT_0).
  set (q := fun t => C - 2 * B * t + A * (t * t)).
  assert (VAL : (A * 1 - B) / (sqrt (q 1) * (A * C - B * B)) - (A * 0 - B) / (sqrt (q 0) * (A * C - B * B)) = kk).
  { assert (S0 : sqrt (q 0) = n1).
    { unfold q, n1, vnorm, C, vdot. f_equal. ring. }
    assert (S1 : sqrt (q 1) = n2).
    { unfold q, n2, vnorm, C, A, B. rewrite LE. unfold vdot. f_equal. vsimp. ring. }
    assert (EB : B = n1 * n1 - d) by (unfold B, n1, d; rewrite vnorm_sq, LE; unfold vdot; vsimp; ring).
    assert (EA : A = n1 * n1 + n2 * n2 - 2 * d) by (unfold A, n1, n2, d; rewrite !vnorm_sq, LE; unfold vdot; vsimp; ring).
    rewrite S0, S1, QD, EB, EA. unfold kk.
    replace (n1 * n1 * (n2 * n2) - d * d) with ((n1 * n2 - d) * (n1 * n2 + d)) by ring. field. repeat split; lra. }
  assert (CRS : forall t, vcross L (vsub p (vadd a (vscale t L))) = vcross r1 r2).
  { intro t. unfold r1, r2, L. apply vec_eq; vsimp; ring. }
  assert (DEN : forall t, density p a b t = vscale (/ (4 * PI) * / (sqrt (q t) * sqrt (q t) * sqrt (q t))) (vcross r1 r2)).
  { intro t. unfold density. cbv zeta. rewrite vsub_point. fold L. rewrite CRS. fold r1. fold A B C. fold (q t). f_equal.
    rewrite Rinv_mult. reflexivity. }
  split.
  - assert (G : forall c, integral (fun t => / (4 * PI) * / (sqrt (q t) * sqrt (q t) * sqrt (q t)) * c) (/ (4 * PI) * kk * c)).
    { intro c. pose proof (kernel_integral A B C DP AP (/ (4 * PI) * c) (fun t => / (4 * PI) * / (sqrt (q t) * sqrt (q t) * sqrt (q t)) * c)) as K.
      replace (/ (4 * PI) * kk * c) with (/ (4 * PI) * c * kk) by ring. rewrite <- VAL. apply K. intro t. unfold q. ring. }
    unfold biot_savart, u0. cbn [vx vy vz vscale].
    repeat split; (eapply integral_ext; [|apply G]); intro t; rewrite DEN; reflexivity.
  - unfold leg_velocity in H. fold r1 r2 in H. fold n1 n2 d in H.
    assert (0 < d + n1 * n2 * (1 + eps)) by nra.
    rewrite !cdiv_some in H by lra. injection H as <-.
    unfold u0, damping. fold r1 r2. fold n1 n2 d. unfold kk.
    assert (n1 * n2 * (1 + eps) + d <> 0) by lra.
    assert (X : forall k k' v, k = k' -> vscale k v = vscale k' v) by (intros; subst; reflexivity).
    transitivity (vscale ((n1 * n2 + d) / (n1 * n2 * (1 + eps) + d) * (/ (4 * PI) * ((n1 + n2) / (n1 * n2 * (n1 * n2 + d))))) (vcross r1 r2)).
    + apply X. field. repeat split; lra.
    + apply vec_eq; vsimp; ring.
Qed.

Lemma damping_range eps p a b : 0 <= eps -> off_line p a b ->
  0 < damping eps p a b <= 1 /\ (eps = 0 -> damping eps p a b = 1) /\
  1 - damping eps p a b <= eps * (vnorm (vsub p a) * vnorm (vsub p b)) / (vnorm (vsub p a) * vnorm (vsub p b) + vdot (vsub p a) (vsub p b)).
Proof.
  intros E O. destruct (off_line_facts p a b O) as (U & V & DL & DU). pose proof (vnorm_pos _ U). pose proof (vnorm_pos _ V).
  unfold damping. set (n1 := vnorm (vsub p a)) in *. set (n2 := vnorm (vsub p b)) in *. set (d := vdot _ _) in *.
  assert (N : 0 < n1 * n2) by nra. assert (X : 0 < n1 * n2 + d) by lra.
  assert (Y : 0 <= eps * (n1 * n2)) by nra.
  replace (n1 * n2 * (1 + eps) + d) with (n1 * n2 + d + eps * (n1 * n2)) by ring.
  set (x := n1 * n2 + d) in *. set (y := eps * (n1 * n2)) in *.
  split; [split|split].
  - apply Rdiv_lt_0_compat; lra.
  - apply (Rmult_le_reg_r (x + y)); [lra|]. unfold Rdiv. rewrite Rmult_assoc, Rinv_l by lra. lra.
  - intros ->. unfold y. field. lra.
  - replace (1 - x / (x + y)) with (y / (x + y)) by (field; lra).
    apply Rmult_le_compat_l; [exact Y|]. apply Rinv_le_contravar; lra.
Qed.

Lemma exact_leg p a b : off_line p a b -> exists u, leg_velocity 0 p a b = Some u /\ biot_savart p a b u.
Proof.
  intro O. destruct (off_line_facts p a b O) as (U & V & DL & DU). pose proof (vnorm_pos _ U). pose proof (vnorm_pos _ V).
  assert (D0 : vdot (vsub p a) (vsub p b) + vnorm (vsub p a) * vnorm (vsub p b) * (1 + 0) <> 0) by lra.
  destruct (leg_velocity 0 p a b) as [u|] eqn:E.
  - destruct (leg_biot_savart 0 p a b u (Rle_refl 0) O E) as (u0 & B & ->). exists u0. split; [|exact B].
    destruct (damping_range 0 p a b (Rle_refl 0) O) as (_ & K & _). rewrite (K eq_refl). f_equal. apply vec_eq; vsimp; ring.
  - unfold leg_velocity in E. rewrite !cdiv_some in E by lra. discriminate.
Qed.
