(** Proofs about the linear system in floating-point arithmetic (C117). *)
From Coq Require Import Reals ZArith Lra Lia Psatz List Arith.
From Flocq Require Import Core.
From Verif Require Import Vec PanelModel VlmModel VlmSpec GeomProofs VlmProofs FloatModel FloatSolveModel FloatSpec FloatSolveSpec FloatProofs FloatLatProofs.
Import ListNotations.
Open Scope R_scope.

Section P.
Variable u : R.
Variable rnd : R -> R.
Variables fsin fcos : R -> R.
Variable PIc : R.
Hypothesis RND : rounding u rnd.
Notation ap := (approx u).

(** ** When velocities are finite *)
Lemma rnd_zero x : rnd x = 0 <-> x = 0.
Proof. assert (R := rel_rnd u rnd RND 0 x x (rel_exact u x)). exact (rel_zero u rnd RND 1 _ _ R). Qed.
Lemma fvsub_zero p q : fvsub rnd p q = vzero <-> p = q.
Proof.
  split.
  - intro H. pose proof (f_equal vx H) as X. pose proof (f_equal vy H) as Y. pose proof (f_equal vz H) as Z. cbn [fvsub vzero vx vy vz] in X, Y, Z.
    unfold fsub in X, Y, Z. apply (proj1 (rnd_zero _)) in X, Y, Z. apply vec_eq; lra.
  - intros ->. unfold fvsub, fsub, vzero. rewrite !Rminus_diag_eq by reflexivity. rewrite (proj2 (rnd_zero 0) eq_refl). reflexivity.
Qed.
Lemma fnorm_zero v : fnorm rnd v = 0 <-> v = vzero.
Proof. rewrite <- vnorm_zero. exact (rel_zero u rnd RND 3 _ _ (rel_norm u rnd RND v)). Qed.
Lemma abs_products a b : Rabs (vx a * vx b) + Rabs (vy a * vy b) + Rabs (vz a * vz b) <= vnorm a * vnorm b.
Proof.
  assert (C := cauchy_abs (vabs a) (vabs b)).
  assert (N : forall v, vnorm (vabs v) = vnorm v).
  { intro v. unfold vnorm, vabs. cbn [vx vy vz]. f_equal. rewrite <- !Rabs_mult, !Rabs_right by nra. reflexivity. }
  rewrite !N in C. eapply Rle_trans; [|exact C]. unfold vdot, vabs. cbn [vx vy vz]. rewrite <- !Rabs_mult. apply Rle_abs.
Qed.
Lemma fdenominator eps a b : survives u eps -> -1 <= eps -> a <> vzero -> b <> vzero ->
  fadd rnd (fdot rnd a b) (fmul rnd (fmul rnd (fnorm rnd a) (fnorm rnd b)) (fadd rnd 1 eps)) <> 0.
Proof.
  intros S E A B Z. unfold fadd at 1 in Z. apply (proj1 (rnd_zero _)) in Z. apply vnorm_pos in A, B.
  assert (P : rel u 9 (fmul rnd (fmul rnd (fnorm rnd a) (fnorm rnd b)) (fadd rnd 1 eps)) (vnorm a * vnorm b * (1 + eps))).
  { apply (rel_fmul u rnd RND 7 1); [apply (rel_fmul u rnd RND 3 3); apply rel_norm; exact RND|]. apply (rel_rnd u rnd RND 0). apply rel_exact. }
  destruct P as (t & T & T1 & T2). rewrite T in Z.
  assert (D := ap_dot u rnd RND 0 0 a a (vabs a) b b (vabs b) (vap_exact u a) (vap_exact u b)). cbn [Nat.add] in D.
  apply ap_size in D. cbn [vabs vx vy vz] in D. rewrite <- !Rabs_mult in D. pose proof (abs_products a b) as Q.
  set (rho := vnorm a * vnorm b) in *. assert (R0 : 0 < rho) by (apply Rmult_lt_0_compat; assumption). unfold survives in S.
  pose proof (pw1 u rnd RND 3) as P3. pose proof (pw0 u rnd RND 9) as P9.
  assert (L : rho * ((1 + eps) * (1 - u) ^ 9) <= rho * (1 + eps) * t) by (rewrite Rmult_assoc; apply Rmult_le_compat_l; [lra|]; apply Rmult_le_compat_l; lra).
  assert (U : Rabs (fdot rnd a b) <= (1 + u) ^ 3 * rho) by (eapply Rle_trans; [exact D|]; apply Rmult_le_compat_l; lra).
  assert (V : - fdot rnd a b <= Rabs (fdot rnd a b)) by (rewrite <- Rabs_Ropp; apply Rle_abs).
  assert (rho * (1 + u) ^ 3 < rho * ((1 + eps) * (1 - u) ^ 9)) by (apply Rmult_lt_compat_l; lra). lra.
Qed.
Lemma fdiv_none x y : fdiv rnd x y = None <-> y = 0.
Proof. unfold fdiv. destruct (Req_EM_T y 0); split; intro; try discriminate; try contradiction; auto. Qed.
Lemma survives_eps eps : survives u eps -> -1 <= eps.
Proof.
  unfold survives. intro S. pose proof (pw1 u rnd RND 3). pose proof (pw0 u rnd RND 9). nra.
Qed.
Lemma leg_finite eps p a b : survives u eps -> PIc <> 0 -> (exists v, fleg_velocity rnd PIc eps p a b = Some v) <-> p <> a /\ p <> b.
Proof.
  intros S N. assert (NE := survives_eps eps S). unfold fleg_velocity. split.
  - intros [v H]. destruct (fdiv rnd 1 (fmul rnd 4 PIc)); [|discriminate]. destruct (fdiv rnd 1 (fadd _ _ _)); [|discriminate].
    destruct (fdiv rnd 1 (fnorm rnd (fvsub rnd p a))) eqn:E1; [|discriminate]. destruct (fdiv rnd 1 (fnorm rnd (fvsub rnd p b))) eqn:E2; [|discriminate].
    split; intro E; apply fvsub_zero in E; apply fnorm_zero in E; [rewrite (proj2 (fdiv_none 1 _) E) in E1|rewrite (proj2 (fdiv_none 1 _) E) in E2]; discriminate.
  - intros [A B]. assert (A' : fvsub rnd p a <> vzero) by (rewrite fvsub_zero; exact A). assert (B' : fvsub rnd p b <> vzero) by (rewrite fvsub_zero; exact B).
    destruct (fdiv rnd 1 (fmul rnd 4 PIc)) eqn:K; [|apply fdiv_none in K; unfold fmul in K; apply (proj1 (rnd_zero _)) in K; lra].
    destruct (fdiv rnd 1 (fadd _ _ _)) eqn:D; [|apply fdiv_none in D; exfalso; revert D; apply fdenominator; assumption].
    destruct (fdiv rnd 1 (fnorm rnd (fvsub rnd p a))) eqn:E1; [|apply fdiv_none, fnorm_zero in E1; contradiction].
    destruct (fdiv rnd 1 (fnorm rnd (fvsub rnd p b))) eqn:E2; [|apply fdiv_none, fnorm_zero in E2; contradiction]. eauto.
Qed.
Lemma horse_finite eps p j dw : survives u eps -> PIc <> 0 -> off_ends p j -> exists v, fleg_loop rnd PIc eps p (legs j) dw = Some v.
Proof.
  intros S N (A & B & C & D). unfold legs. cbn [fleg_loop].
  destruct (proj2 (leg_finite eps p (pV1 j) (pV2 j) S N) (conj A B)) as [v1 ->].
  destruct (proj2 (leg_finite eps p (pV2 j) (pV3 j) S N) (conj B C)) as [v2 ->].
  destruct (proj2 (leg_finite eps p (pV3 j) (pV4 j) S N) (conj C D)) as [v3 ->]. eauto.
Qed.
Lemma matrix_finite eps lat : survives u eps -> PIc <> 0 -> (forall i j, In i lat -> In j lat -> off_ends (pC i) j) ->
  exists m, fdownwash rnd PIc eps lat = Some m.
Proof.
  intros S N H. unfold fdownwash.
  assert (G : forall (A B : Type) (f : A -> option B) l, (forall x, In x l -> exists y, f x = Some y) -> exists r, all_some f l = Some r).
  { intros A B f l. induction l as [|x l IH]; intro Q; [exists []; reflexivity|]. cbn [all_some]. destruct (Q x (or_introl eq_refl)) as [y ->].
    destruct IH as [r ->]; [intros z Z; apply Q; right; exact Z|]. eauto. }
  apply G. intros i I. apply G. intros j J. destruct (horse_finite eps (pC i) j vzero S N (H i j I J)) as [v ->]. eauto.
Qed.
Lemma induced_finite eps p : survives u eps -> PIc <> 0 -> forall l iw, (forall x, In x l -> off_ends p (fst x)) -> exists v, finduced_loop rnd PIc eps p l iw = Some v.
Proof.
  intros S N. induction l as [|[j g] l IH]; intros iw H; cbn [finduced_loop]; [eauto|].
  destruct (horse_finite eps p j vzero S N (H (j, g) (or_introl eq_refl))) as [v ->]. apply IH. intros x X. apply H. right. exact X.
Qed.
Lemma results_finite eps lat s r gamma : survives u eps -> PIc <> 0 -> (forall i j, In i lat -> In j lat -> off_ends (pB i) j) ->
  exists o, fvlm_results rnd fsin fcos PIc eps lat s r gamma = Some o.
Proof.
  intros S N H. unfold fvlm_results.
  assert (G : forall l ft mt, (forall x, In x l -> In (fst x) lat) -> exists o, fresults_loop rnd fsin fcos PIc eps lat gamma s r l ft mt = Some o).
  { induction l as [|[i g] l IH]; intros ft mt Q; cbn [fresults_loop]; [eauto|]. unfold fpanel_loads.
    destruct (induced_finite eps (pB i) S N (combine lat gamma) vzero) as [v ->].
    - intros [j h] J. apply H; [exact (Q (i, g) (or_introl eq_refl))|]. cbn [fst]. eapply in_combine_l. exact J.
    - edestruct IH as [[[os F] M] ->]; [intros x X; apply Q; right; exact X|]. eauto. }
  destruct (G (combine lat gamma) vzero vzero) as [[[os F] M] ->]; [|eauto]. intros [i g] I. cbn [fst]. eapply in_combine_l. exact I.
Qed.

(** ** Accuracy: factors between [g] and [1/g] *)
Definition fac (g d D : R) : Prop := exists t, d = D * t /\ g <= t <= / g.
Lemma inv_swap a b : 0 < a -> 0 < b -> a <= / b -> b <= / a.
Proof. intros A B H. apply (Rmult_le_reg_r a); [exact A|]. rewrite Rinv_l by lra. apply (Rmult_le_compat_r b) in H; [|lra]. rewrite Rinv_l in H by lra. lra. Qed.
Lemma fac_mul g h a A b B : 0 < g -> 0 < h -> fac g a A -> fac h b B -> fac (g * h) (a * b) (A * B).
Proof.
  intros G H (s & -> & S1 & S2) (t & -> & T1 & T2). exists (s * t). split; [ring|]. rewrite Rinv_mult. split; apply Rmult_le_compat; lra.
Qed.
Lemma fac_inv g a A : 0 < g -> A <> 0 -> fac g a A -> fac g (1 / a) (1 / A).
Proof.
  intros G N (s & -> & S1 & S2). exists (/ s). split; [field; lra|]. split; [|apply Rinv_le_contravar; lra].
  apply inv_swap; lra.
Qed.
Lemma fac_mono g h a A : 0 < h <= g -> fac g a A -> fac h a A.
Proof. intros [H L] (s & -> & S1 & S2). exists s. split; [reflexivity|]. split; [lra|]. eapply Rle_trans; [exact S2|]. apply Rinv_le_contravar; lra. Qed.
Lemma fac_rel l a A : rel u l a A -> fac ((1 - u) ^ l) a A.
Proof.
  intros (t & -> & T1 & T2). exists t. split; [reflexivity|]. split; [exact T1|]. eapply Rle_trans; [exact T2|]. pose proof (proj1 RND) as U. pose proof (pw0 u rnd RND l).
  apply inv_swap; [lra|pose proof (pw1 u rnd RND l); lra|]. apply (Rmult_le_reg_r ((1 + u) ^ l)); [pose proof (pw1 u rnd RND l); lra|]. rewrite Rinv_l by (pose proof (pw1 u rnd RND l); lra).
  rewrite <- Rpow_mult_distr. apply Rle_trans with (1 ^ l); [apply pow_incr; split; nra|rewrite pow1; lra].
Qed.
Lemma fac_rnd g a A : 0 < g -> fac g a A -> fac (g * (1 - u)) (rnd a) A.
Proof.
  intros G (s & -> & S1 & S2). pose proof (proj1 RND) as U.
  destruct (fac_rel 1 _ _ (rel_rnd u rnd RND 0 (A * s) (A * s) (rel_exact u _))) as (t & T & T1 & T2). cbn [pow] in T1, T2. rewrite Rmult_1_r in T1, T2.
  exists (s * t). split; [rewrite T; ring|]. rewrite Rinv_mult. split; apply Rmult_le_compat; lra.
Qed.
Lemma fac_add g a A b B : 0 < g -> 0 < A -> 0 < B -> fac g a A -> fac g b B -> fac g (a + b) (A + B).
Proof.
  intros G PA PB (s & -> & S1 & S2) (t & -> & T1 & T2). exists ((A * s + B * t) / (A + B)). split; [field; lra|].
  split; apply (Rmult_le_reg_r (A + B)); try lra; unfold Rdiv; rewrite Rmult_assoc, Rinv_l, Rmult_1_r by lra.
  - assert (A * g <= A * s) by (apply Rmult_le_compat_l; lra). assert (B * g <= B * t) by (apply Rmult_le_compat_l; lra). lra.
  - assert (A * s <= A * / g) by (apply Rmult_le_compat_l; lra). assert (B * t <= B * / g) by (apply Rmult_le_compat_l; lra). lra.
Qed.
Lemma fac_norm p a : rel u 4 (fnorm rnd (fvsub rnd p a)) (vnorm (vsub p a)).
Proof.
  destruct (rel_norm u rnd RND (fvsub rnd p a)) as (t & T & T1 & T2). pose proof (proj1 RND) as U. pose proof (pw0 u rnd RND 3) as P3.
  assert (C : forall x, exists k, rnd x = x * k /\ 1 - u <= k <= 1 + u).
  { intro x. destruct (rel_rnd u rnd RND 0 x x (rel_exact u x)) as (k & K & K1 & K2). cbn [pow] in K1, K2. exists k. split; [exact K|lra]. }
  assert (B := between_scale (1 - u) (1 + u) (vsub p a) (fvsub rnd p a) ltac:(lra) (C _) (C _) (C _)).
  rewrite T. clear T. destruct (Req_dec (vnorm (vsub p a)) 0) as [Z|Z].
  - rewrite Z in *. assert (vnorm (fvsub rnd p a) = 0) by lra. rewrite H. exists 1. split; [ring|]. pose proof (pwl u rnd RND 4). pose proof (pw1 u rnd RND 4). lra.
  - pose proof (vnorm_nonneg (vsub p a)). exists (vnorm (fvsub rnd p a) / vnorm (vsub p a) * t). split; [field; exact Z|].
    assert (Q : 1 - u <= vnorm (fvsub rnd p a) / vnorm (vsub p a) <= 1 + u).
    { split; apply (Rmult_le_reg_r (vnorm (vsub p a))); try lra; unfold Rdiv; rewrite Rmult_assoc, Rinv_l by exact Z; lra. }
    cbn [pow] in *. split; apply Rmult_le_compat; lra.
Qed.
Lemma fac_denominator eps p a b : 0 < eps -> p <> a -> p <> b -> amplified u eps < 1 ->
  let r1 := fvsub rnd p a in let r2 := fvsub rnd p b in let R1 := vsub p a in let R2 := vsub p b in
  fac ((1 - amplified u eps) * (1 - u)) (fadd rnd (fdot rnd r1 r2) (fmul rnd (fmul rnd (fnorm rnd r1) (fnorm rnd r2)) (fadd rnd 1 eps)))
    (vdot R1 R2 + vnorm R1 * vnorm R2 * (1 + eps)).
Proof.
  intros E A B W r1 r2 R1 R2. apply fac_rnd; [lra|].
  assert (A' : R1 <> vzero) by (intro H; apply A, vsub_eq, H). assert (B' : R2 <> vzero) by (intro H; apply B, vsub_eq, H).
  assert (DP := leg_den_pos eps R1 R2 E A' B'). set (D := vdot R1 R2 + vnorm R1 * vnorm R2 * (1 + eps)) in *.
  pose proof (vnorm_pos _ A') as NA. pose proof (vnorm_pos _ B') as NB. set (rho := vnorm R1 * vnorm R2) in *.
  assert (R0 : 0 < rho) by (apply Rmult_lt_0_compat; assumption).
  assert (CS := cauchy_abs R1 R2). fold rho in CS.
  assert (DL : eps * rho <= D) by (unfold D; pose proof (Rle_abs (- vdot R1 R2)) as Q; rewrite Rabs_Ropp in Q; lra).
  assert (DOT := ap_dot u rnd RND 1 1 r1 R1 (vabs R1) r2 R2 (vabs R2) (vap_diff u rnd RND p a) (vap_diff u rnd RND p b)). cbn [Nat.add] in DOT.
  assert (SZ : vx (vabs R1) * vx (vabs R2) + vy (vabs R1) * vy (vabs R2) + vz (vabs R1) * vz (vabs R2) <= rho).
  { eapply Rle_trans; [|apply abs_products]. unfold vabs. cbn [vx vy vz]. rewrite !Rabs_mult. lra. }
  apply (ap_size_mono u rnd RND _ _ _ _ _ SZ) in DOT. apply (ap_mono u rnd RND 5 11) in DOT; [|lia].
  assert (PR : rel u 11 (fmul rnd (fmul rnd (fnorm rnd r1) (fnorm rnd r2)) (fadd rnd 1 eps)) (rho * (1 + eps))).
  { apply (rel_fmul u rnd RND 9 1); [apply (rel_fmul u rnd RND 4 4); apply fac_norm|]. apply (rel_rnd u rnd RND 0). apply rel_exact. }
  set (x := fdot rnd r1 r2) in *. set (y := fmul rnd _ _) in *.
  assert (Y : Rabs (y - rho * (1 + eps)) <= ((1 + u) ^ 11 - 1) * (rho * (1 + eps))).
  { destruct PR as (t & -> & T1 & T2). replace (rho * (1 + eps) * t - rho * (1 + eps)) with ((t - 1) * (rho * (1 + eps))) by ring.
    rewrite Rabs_mult, (Rabs_right (rho * (1 + eps))) by nra. apply Rmult_le_compat_r; [nra|]. apply Rabs_le. pose proof (pw2 u rnd RND 11). lra. }
  assert (T : Rabs (x + y - D) <= amplified u eps * D).
  { replace (x + y - D) with ((x - vdot R1 R2) + (y - rho * (1 + eps))) by (unfold D; ring). eapply Rle_trans; [apply Rabs_triang|].
    apply Rle_trans with (((1 + u) ^ 11 - 1) * (rho * (2 + eps))); [destruct DOT as [X _]; lra|].
    unfold amplified. replace (((1 + u) ^ 11 - 1) * (2 + eps) / eps * D) with (((1 + u) ^ 11 - 1) * ((2 + eps) * (D / eps))) by (field; lra).
    pose proof (pw1 u rnd RND 11). apply Rmult_le_compat_l; [lra|]. rewrite Rmult_comm. apply Rmult_le_compat_l; [lra|].
    apply (Rmult_le_reg_r eps); [lra|]. unfold Rdiv. rewrite Rmult_assoc, Rinv_l by lra. lra. }
  set (w := amplified u eps) in *.
  assert (W0 : 0 <= w).
  { unfold w, amplified. pose proof (pw1 u rnd RND 11). apply Rmult_le_pos; [apply Rmult_le_pos; lra|]. left. apply Rinv_0_lt_compat. exact E. }
  exists ((x + y) / D). split; [field; lra|].
  apply Rabs_le_inv in T.
  assert (Q : 1 - w <= (x + y) / D <= 1 + w) by (split; apply (Rmult_le_reg_r D); try exact DP; unfold Rdiv; rewrite Rmult_assoc, Rinv_l by lra; lra).
  split; [lra|]. apply Rle_trans with (1 + w); [lra|]. apply inv_swap; [lra|lra|]. apply (Rmult_le_reg_r (1 + w)); [lra|]. rewrite Rinv_l by lra. nra.
Qed.
Lemma amplified_pos eps : 0 < eps -> 0 <= amplified u eps.
Proof. intro E. unfold amplified. pose proof (pw1 u rnd RND 11). apply Rmult_le_pos; [apply Rmult_le_pos; lra|]. left. apply Rinv_0_lt_compat. exact E. Qed.

(** Sizes with a factor [G]. *)
Definition ae (G x X m : R) : Prop := Rabs (x - X) <= (G - 1) * m /\ Rabs X <= m.
Lemma ae_rnd G x X m : 1 <= G -> ae G x X m -> ae (G * (1 + u)) (rnd x) X m.
Proof.
  intros HG [A B]. split; [|exact B]. pose proof (proj1 RND). pose proof (proj2 RND x).
  assert (S : Rabs x <= G * m) by (replace x with ((x - X) + X) by ring; pose proof (Rabs_triang (x - X) X); lra).
  replace (rnd x - X) with ((rnd x - x) + (x - X)) by ring. pose proof (Rabs_triang (rnd x - x) (x - X)).
  assert (u * Rabs x <= u * (G * m)) by (apply Rmult_le_compat_l; lra). lra.
Qed.
Lemma ae_add G x X m y Y n : ae G x X m -> ae G y Y n -> ae G (x + y) (X + Y) (m + n).
Proof.
  intros [A B] [C D]. split; [|pose proof (Rabs_triang X Y); lra].
  replace (x + y - (X + Y)) with ((x - X) + (y - Y)) by ring. pose proof (Rabs_triang (x - X) (y - Y)). lra.
Qed.
Lemma ae_mono G H x X m : G <= H -> ae G x X m -> ae H x X m.
Proof. intros L [A B]. split; [|exact B]. pose proof (Rabs_pos X). assert ((G - 1) * m <= (H - 1) * m) by (apply Rmult_le_compat_r; lra). lra. Qed.
Lemma ae_mul G x X m y : ae G x X m -> ae G (x * y) (X * y) (m * Rabs y).
Proof.
  intros [A B]. split; [|rewrite Rabs_mult; apply Rmult_le_compat_r; [apply Rabs_pos|exact B]].
  replace (x * y - X * y) with ((x - X) * y) by ring. rewrite Rabs_mult, <- Rmult_assoc. apply Rmult_le_compat_r; [apply Rabs_pos|exact A].
Qed.
Lemma ae_fac g k c C x X m : 0 < g <= 1 -> 0 <= C -> fac g c C -> ap k x X m -> ae ((1 + u) ^ k / g) (c * x) (C * X) (C * m).
Proof.
  intros [G G1] C0 (t & -> & T1 & T2) H. assert (M := ap_pos u _ _ _ _ H). destruct H as [A B]. split.
  - replace (C * t * x - C * X) with (C * (t * (x - X) + (t - 1) * X)) by ring. rewrite Rabs_mult, (Rabs_right C) by lra.
    replace (((1 + u) ^ k / g - 1) * (C * m)) with (C * (((1 + u) ^ k / g - 1) * m)) by ring. apply Rmult_le_compat_l; [exact C0|].
    eapply Rle_trans; [apply Rabs_triang|]. rewrite !Rabs_mult, (Rabs_right t) by lra. pose proof (pw1 u rnd RND k) as K.
    assert (IG : 1 <= / g) by (rewrite <- Rinv_1; apply Rinv_le_contravar; lra).
    assert (Q1 : t * Rabs (x - X) <= / g * (((1 + u) ^ k - 1) * m)) by (apply Rmult_le_compat; [lra|apply Rabs_pos|lra|exact A]).
    assert (Q2 : Rabs (t - 1) * Rabs X <= (/ g - 1) * m).
    { apply Rmult_le_compat; [apply Rabs_pos|apply Rabs_pos| |exact B]. apply Rabs_le. split; [|lra].
      assert (g * / g = 1) by (apply Rinv_r; lra). assert (1 - g <= / g - 1); [|lra]. nra. }
    unfold Rdiv. lra.
  - rewrite Rabs_mult, (Rabs_right C) by lra. apply Rmult_le_compat_l; assumption.
Qed.

Definition vae (G : R) (v V m : vec) : Prop := ae G (vx v) (vx V) (vx m) /\ ae G (vy v) (vy V) (vy m) /\ ae G (vz v) (vz V) (vz m).
Definition gain (eps : R) : R := (1 - u) ^ 13 * (1 - amplified u eps).
Lemma gain_pos eps : 0 < eps -> amplified u eps < 1 -> 0 < gain eps <= 1.
Proof.
  intros E W. pose proof (amplified_pos eps E). pose proof (pw0 u rnd RND 13). pose proof (pwl u rnd RND 13). unfold gain. split; [apply Rmult_lt_0_compat; lra|].
  apply Rle_trans with (1 * 1); [apply Rmult_le_compat; lra|lra].
Qed.
Lemma gain_k eps k : 0 < eps -> amplified u eps < 1 -> 1 <= (1 + u) ^ k / gain eps.
Proof.
  intros E W. destruct (gain_pos eps E W) as [G G1]. pose proof (pw1 u rnd RND k). unfold Rdiv.
  assert (1 <= / gain eps) by (rewrite <- Rinv_1; apply Rinv_le_contravar; lra). apply Rle_trans with (1 * 1); [lra|]. apply Rmult_le_compat; lra.
Qed.
Lemma strength_pos eps p a b : 0 < eps -> p <> a -> p <> b -> 0 < strength eps p a b.
Proof.
  intros E A B. assert (A' : vsub p a <> vzero) by (intro H; apply A, vsub_eq, H). assert (B' : vsub p b <> vzero) by (intro H; apply B, vsub_eq, H).
  pose proof (leg_den_pos eps _ _ E A' B'). pose proof (vnorm_pos _ A'). pose proof (vnorm_pos _ B'). pose proof PI_RGT_0. unfold strength, Rdiv. rewrite !Rmult_1_l.
  apply Rmult_lt_0_compat; [apply Rmult_lt_0_compat|apply Rplus_lt_0_compat]; apply Rinv_0_lt_compat; lra.
Qed.
Lemma leg_accurate eps p a b v : pi_rounded u PIc -> 0 < eps -> p <> a -> p <> b -> amplified u eps < 1 ->
  fleg_velocity rnd PIc eps p a b = Some v -> vae ((1 + u) ^ 5 / gain eps) v (leg_val eps p a b) (leg_size eps p a b).
Proof.
  intros HP E A B W H. pose proof (proj1 RND) as U. pose proof (amplified_pos eps E) as W0. pose proof PI_RGT_0 as PP.
  assert (A' : vsub p a <> vzero) by (intro Z; apply A, vsub_eq, Z). assert (B' : vsub p b <> vzero) by (intro Z; apply B, vsub_eq, Z).
  pose proof (vnorm_pos _ A') as NA. pose proof (vnorm_pos _ B') as NB. assert (DP := leg_den_pos eps _ _ E A' B').
  unfold fleg_velocity in H.
  destruct (fdiv rnd 1 (fmul rnd 4 PIc)) as [k|] eqn:EK; [|discriminate]. destruct (fdiv rnd 1 (fadd _ _ _)) as [d|] eqn:ED; [|discriminate].
  destruct (fdiv rnd 1 (fnorm rnd (fvsub rnd p a))) as [m1|] eqn:E1; [|discriminate]. destruct (fdiv rnd 1 (fnorm rnd (fvsub rnd p b))) as [m2|] eqn:E2; [|discriminate].
  injection H as <-. unfold fdiv in EK, ED, E1, E2.
  destruct (Req_EM_T _ _); [discriminate|]. destruct (Req_EM_T _ _); [discriminate|]. destruct (Req_EM_T _ _); [discriminate|]. destruct (Req_EM_T _ _); [discriminate|].
  injection EK as <-. injection ED as <-. injection E1 as <-. injection E2 as <-.
  set (h := 1 - u) in *. assert (H0 : 0 < h <= 1) by (unfold h; lra).
  assert (FP : fac h PIc PI).
  { exists (PIc / PI). split; [field; lra|]. unfold pi_rounded in HP. apply Rabs_le_inv in HP.
    assert (Q : 1 - u <= PIc / PI <= 1 + u) by (split; apply (Rmult_le_reg_r PI); try exact PP; unfold Rdiv; rewrite Rmult_assoc, Rinv_l by lra; lra).
    split; [exact (proj1 Q)|]. apply Rle_trans with (1 + u); [lra|]. apply inv_swap; unfold h; [lra|lra|]. apply (Rmult_le_reg_r (1 + u)); [lra|]. rewrite Rinv_l by lra. nra. }
  assert (FK : fac (1 * h * h * h) (rnd (1 / fmul rnd 4 PIc)) (1 / (4 * PI))).
  { apply fac_rnd; [nra|]. apply fac_inv; [nra|lra|]. apply fac_rnd; [lra|]. apply fac_mul; [lra|lra| |exact FP]. exists 1. split; [ring|]. rewrite Rinv_1. lra. }
  assert (FD : fac ((1 - amplified u eps) * h * h) (rnd (1 / fadd rnd (fdot rnd (fvsub rnd p a) (fvsub rnd p b)) (fmul rnd (fmul rnd (fnorm rnd (fvsub rnd p a)) (fnorm rnd (fvsub rnd p b))) (fadd rnd 1 eps))))
    (1 / (vdot (vsub p a) (vsub p b) + vnorm (vsub p a) * vnorm (vsub p b) * (1 + eps)))).
  { assert (0 < (1 - amplified u eps) * h) by (apply Rmult_lt_0_compat; lra).
    apply fac_rnd; [assumption|]. apply fac_inv; [assumption|lra|]. exact (fac_denominator eps p a b E A B W). }
  assert (P4 := pw0 u rnd RND 4). fold h in P4.
  assert (FM : forall q, vsub p q <> vzero -> fac (h ^ 4 * h) (rnd (1 / fnorm rnd (fvsub rnd p q))) (1 / vnorm (vsub p q))).
  { intros q Q. pose proof (vnorm_pos _ Q). apply fac_rnd; [exact P4|]. apply fac_inv; [exact P4|lra|]. apply fac_rel. apply fac_norm. }
  assert (P5 : 0 < h ^ 4 * h) by (apply Rmult_lt_0_compat; lra).
  assert (I1 : 0 < 1 / vnorm (vsub p a)) by (unfold Rdiv; rewrite Rmult_1_l; apply Rinv_0_lt_compat; exact NA).
  assert (I2 : 0 < 1 / vnorm (vsub p b)) by (unfold Rdiv; rewrite Rmult_1_l; apply Rinv_0_lt_compat; exact NB).
  assert (FB : fac (h ^ 4 * h * h) (fadd rnd (rnd (1 / fnorm rnd (fvsub rnd p a))) (rnd (1 / fnorm rnd (fvsub rnd p b)))) (1 / vnorm (vsub p a) + 1 / vnorm (vsub p b))).
  { apply fac_rnd; [exact P5|]. apply fac_add; auto. }
  assert (G1 : 0 < 1 * h * h * h) by nra. assert (G2 : 0 < (1 - amplified u eps) * h * h) by (repeat apply Rmult_lt_0_compat; lra).
  assert (G3 : 0 < h ^ 4 * h * h) by (apply Rmult_lt_0_compat; lra).
  assert (G12 : 0 < 1 * h * h * h * ((1 - amplified u eps) * h * h)) by (apply Rmult_lt_0_compat; assumption).
  assert (FV := fac_mul _ _ _ _ _ _ G1 G2 FK FD). apply fac_rnd in FV; [|exact G12]. fold h in FV.
  assert (G12' : 0 < 1 * h * h * h * ((1 - amplified u eps) * h * h) * h) by (apply Rmult_lt_0_compat; lra).
  assert (FC := fac_mul _ _ _ _ _ _ G12' G3 FV FB). apply fac_rnd in FC; [|apply Rmult_lt_0_compat; assumption]. fold h in FC.
  replace (1 * h * h * h * ((1 - amplified u eps) * h * h) * h * (h ^ 4 * h * h) * h) with (gain eps) in FC by (unfold gain; fold h; ring).
  fold (strength eps p a b) in FC. assert (SP := strength_pos eps p a b E A B).
  assert (CR := vap_cross u rnd RND 1 1 _ _ _ _ _ _ (vap_diff u rnd RND p a) (vap_diff u rnd RND p b)). cbn [Nat.add] in CR.
  destruct CR as (C1 & C2 & C3). assert (GP := gain_pos eps E W). assert (GK := gain_k eps 4 E W).
  assert (F : forall c C m, ap 4 c C m -> ae ((1 + u) ^ 5 / gain eps) (fmul rnd (fmul rnd (fmul rnd (rnd (1 / fmul rnd 4 PIc))
     (rnd (1 / fadd rnd (fdot rnd (fvsub rnd p a) (fvsub rnd p b)) (fmul rnd (fmul rnd (fnorm rnd (fvsub rnd p a)) (fnorm rnd (fvsub rnd p b))) (fadd rnd 1 eps)))))
     (fadd rnd (rnd (1 / fnorm rnd (fvsub rnd p a))) (rnd (1 / fnorm rnd (fvsub rnd p b))))) c) (strength eps p a b * C) (strength eps p a b * m)).
  { intros c C m HC. replace ((1 + u) ^ 5 / gain eps) with ((1 + u) ^ 4 / gain eps * (1 + u)) by (unfold Rdiv; cbn [pow]; ring).
    apply ae_rnd; [exact GK|]. apply ae_fac; [exact GP|lra|exact FC|exact HC]. }
  unfold vae. cbn [vx vy vz]. split; [exact (F _ _ _ C1)|]. split; [exact (F _ _ _ C2)|exact (F _ _ _ C3)].
Qed.

(** ** Consequences *)
Lemma amplified_survives eps : 0 < eps -> amplified u eps < 1 -> survives u eps.
Proof.
  intros E W. unfold amplified in W. unfold survives.
  assert (Q : ((1 + u) ^ 11 - 1) * (2 + eps) < eps).
  { apply (Rmult_lt_compat_r eps) in W; [|exact E]. unfold Rdiv in W. rewrite Rmult_assoc, Rinv_l in W by lra. lra. }
  pose proof (pw2 u rnd RND 9) as P9. pose proof (pwm u rnd RND 9 11 ltac:(lia)) as M9. pose proof (pwm u rnd RND 3 11 ltac:(lia)) as M3.
  assert ((1 + eps) * (2 - (1 + u) ^ 11) <= (1 + eps) * (1 - u) ^ 9) by (apply Rmult_le_compat_l; lra). lra.
Qed.
Lemma vae_near G v V m : vae G v V m -> vnear (G - 1) v V m.
Proof. intros ((A & _) & (B & _) & (C & _)). exact (conj A (conj B C)). Qed.
Lemma velocity_near eps p a b v : pi_rounded u PIc -> 0 < eps -> amplified u eps < 1 -> fleg_velocity rnd PIc eps p a b = Some v ->
  exists V, leg_velocity eps p a b = Some V /\ vnear (velocity_error u eps 5) v V (leg_size eps p a b).
Proof.
  intros HP E W H. assert (N : PIc <> 0).
  { intros ->. unfold pi_rounded in HP. pose proof PI_RGT_0. pose proof (proj1 RND). rewrite Rminus_0_l, Rabs_Ropp, Rabs_right in HP by lra. nra. }
  destruct (proj1 (leg_finite eps p a b (amplified_survives eps E W) N) (ex_intro _ v H)) as [A B].
  exists (leg_val eps p a b). split; [apply leg_regular; assumption|]. exact (vae_near _ _ _ _ (leg_accurate eps p a b v HP E A B W H)).
Qed.
Lemma vae_fadd G v V m w W n : 1 <= G -> vae G v V m -> vae G w W n -> vae (G * (1 + u)) (fvadd rnd v w) (vadd V W) (vadd m n).
Proof. intros HG (A & B & C) (D & E & F). split; [|split]; cbn [fvadd vadd vx vy vz]; apply ae_rnd; try exact HG; apply ae_add; assumption. Qed.
Lemma vae_mono G H v V m : G <= H -> vae G v V m -> vae H v V m.
Proof. intros L (A & B & C). split; [|split]; eapply ae_mono; eassumption. Qed.
Lemma vae_zero G : vae G vzero vzero vzero.
Proof. assert (Z : ae G 0 0 0) by (split; [rewrite Rminus_0_r, Rabs_R0; lra|rewrite Rabs_R0; lra]). exact (conj Z (conj Z Z)). Qed.
Lemma ae_dot G v V m N : 1 <= G -> vae G v V m -> ae (G * (1 + u) * (1 + u) * (1 + u)) (fdot rnd v N) (vdot V N) (vdot m (vabs N)).
Proof.
  intros HG (A & B & C). pose proof (proj1 RND) as U. assert (G1 : 1 <= G * (1 + u)) by nra. assert (G2 : 1 <= G * (1 + u) * (1 + u)) by nra.
  assert (M : forall x X k y, ae G x X k -> ae (G * (1 + u)) (fmul rnd x y) (X * y) (k * Rabs y)) by (intros; apply ae_rnd; [exact HG|]; apply ae_mul; assumption).
  unfold fdot, vdot, vabs. cbn [vx vy vz]. apply ae_rnd; [exact G2|]. apply ae_add; [|apply (ae_mono (G * (1 + u))); [nra|]; apply M; exact C].
  apply ae_rnd; [exact G1|]. apply ae_add; apply M; assumption.
Qed.
Lemma entry_near eps i j dw : pi_rounded u PIc -> 0 < eps -> amplified u eps < 1 -> off_ends (pC i) j -> fleg_loop rnd PIc eps (pC i) (legs j) vzero = Some dw ->
  exists V, VlmModel.horseshoe eps (pC i) j = Some V /\ Rabs (fdot rnd dw (pN i) - vdot V (pN i)) <= velocity_error u eps 11 * entry_size eps i j.
Proof.
  intros HP E W (O1 & O2 & O3 & O4) H. pose proof (proj1 RND) as U.
  unfold legs in H. cbn [fleg_loop] in H.
  destruct (fleg_velocity rnd PIc eps (pC i) (pV1 j) (pV2 j)) as [v1|] eqn:E1; [|discriminate].
  destruct (fleg_velocity rnd PIc eps (pC i) (pV2 j) (pV3 j)) as [v2|] eqn:E2; [|discriminate].
  destruct (fleg_velocity rnd PIc eps (pC i) (pV3 j) (pV4 j)) as [v3|] eqn:E3; [|discriminate]. injection H as <-.
  apply (leg_accurate eps) in E1; try assumption. apply (leg_accurate eps) in E2; try assumption. apply (leg_accurate eps) in E3; try assumption.
  set (G := (1 + u) ^ 5 / gain eps) in *. assert (G1 : 1 <= G) by exact (gain_k eps 5 E W).
  assert (G2 : 1 <= G * (1 + u)) by nra. assert (G3 : 1 <= G * (1 + u) * (1 + u)) by nra. assert (G4 : 1 <= G * (1 + u) * (1 + u) * (1 + u)) by nra.
  assert (S1 := vae_fadd G _ _ _ _ _ _ G1 (vae_zero G) E1).
  assert (S2 := vae_fadd _ _ _ _ _ _ _ G2 S1 (vae_mono G (G * (1 + u)) _ _ _ ltac:(nra) E2)).
  assert (S3 := vae_fadd _ _ _ _ _ _ _ G3 S2 (vae_mono G (G * (1 + u) * (1 + u)) _ _ _ ltac:(nra) E3)).
  assert (D := ae_dot _ _ _ _ (pN i) G4 S3).
  eexists. split; [rewrite horseshoe_eq, !leg_regular by assumption; reflexivity|].
  destruct D as [D _]. rewrite vadd_zero_l in D. eapply Rle_trans; [exact D|]. apply Req_le. unfold velocity_error, entry_size. fold (gain eps).
  unfold legs. cbn [map rsum fold_right fst snd]. unfold rsum, vdot, vadd, vzero. cbn [fold_right vx vy vz].
  replace (G * (1 + u) * (1 + u) * (1 + u) * (1 + u) * (1 + u) * (1 + u)) with ((1 + u) ^ 11 / gain eps) by (unfold G, Rdiv; ring). ring.
Qed.
Lemma all_some_nth {A B} (f : A -> option B) l r : all_some f l = Some r -> forall n x, nth_error l n = Some x -> exists y, nth_error r n = Some y /\ f x = Some y.
Proof.
  intro H. apply all_some_spec in H. induction H as [|x y l r F R IH]; intros n z N; destruct n; cbn in *; try discriminate; eauto.
  injection N as <-. eauto.
Qed.
Lemma matrix_near eps lat : pi_rounded u PIc -> 0 < eps -> amplified u eps < 1 -> (forall i j, In i lat -> In j lat -> off_ends (pC i) j) ->
  exists m M, fdownwash rnd PIc eps lat = Some m /\ downwash eps lat = Some M /\
    forall i j pi pj, nth_error lat i = Some pi -> nth_error lat j = Some pj ->
      exists x X, entry m i j = Some x /\ entry M i j = Some X /\ Rabs (x - X) <= velocity_error u eps 11 * entry_size eps pi pj.
Proof.
  intros HP E W O. assert (N : PIc <> 0).
  { intros ->. unfold pi_rounded in HP. pose proof PI_RGT_0. pose proof (proj1 RND). rewrite Rminus_0_l, Rabs_Ropp, Rabs_right in HP by lra. nra. }
  destruct (matrix_finite eps lat (amplified_survives eps E W) N O) as [m Hm].
  assert (HM := downwash_ok eps lat (fun i j I J => horseshoe_regular eps (pC i) j E (O i j I J))). eexists m, _. split; [exact Hm|]. split; [exact HM|].
  set (M := map _ lat) in *. clearbody M. intros i j pi pj I J.
  unfold fdownwash in Hm. destruct (all_some_nth _ _ _ Hm i pi I) as (row & R1 & R2). destruct (all_some_nth _ _ _ R2 j pj J) as (x & X1 & X2).
  unfold downwash in HM. destruct (all_some_nth _ _ _ HM i pi I) as (Row & Q1 & Q2). destruct (all_some_nth _ _ _ Q2 j pj J) as (Y & Y1 & Y2).
  exists x, Y. unfold entry. rewrite R1, Q1. split; [exact X1|]. split; [exact Y1|].
  destruct (fleg_loop rnd PIc eps (pC pi) (legs pj) vzero) as [dw|] eqn:D; [|discriminate]. injection X2 as <-.
  destruct (entry_near eps pi pj dw HP E W (O pi pj (nth_error_In _ _ I) (nth_error_In _ _ J)) D) as (V & HV & B). rewrite HV in Y2. injection Y2 as <-. exact B.
Qed.

Lemma boundary_near lat s r : let a := fdeg2rad rnd PIc (f_alpha s) in let b := fdeg2rad rnd PIc (f_beta s) in
  let w := stream (f_airspeed s) (fsin a) (fcos a) (fsin b) (fcos b) in
  Forall2 (fun i x => close u 7 x (onset_normal w s r i) (onset_size w s r i)) lat (fboundary rnd fsin fcos PIc lat s r).
Proof.
  intros a b w. unfold fboundary. induction lat as [|i lat IH]; cbn [map]; constructor; [|exact IH].
  assert (V := vap_add u rnd RND 2 3 _ _ _ _ _ _ (wind_ap u rnd fsin fcos PIc RND s) (rot_ap u rnd RND s r (pC i))). cbn [Nat.max] in V.
  assert (D := ap_dot u rnd RND 4 0 _ _ _ _ _ _ V (vap_exact u (pN i))). cbn [Nat.add] in D. apply ap_close in D.
  fold a b in D. fold w in D. unfold close in *. eapply Rle_trans; [|eapply Rle_trans; [exact D|]].
  - apply Req_le. f_equal. f_equal. unfold onset_normal, vdot, vadd, vsub, vscale. cbn [vx vy vz]. ring.
  - apply Req_le. reflexivity.
Qed.
End P.

(** ** Without rounding *)
Lemma downwash_exact eps lat : fdownwash (fun x => x) PI eps lat = downwash eps lat.
Proof.
  unfold fdownwash, downwash. assert (G : forall (A B : Type) (f g : A -> option B) l, (forall x, f x = g x) -> all_some f l = all_some g l).
  { intros A B f g l H. induction l as [|x l IH]; cbn [all_some]; [reflexivity|]. rewrite H, IH. reflexivity. }
  apply G. intro i. apply G. intro j. unfold VlmModel.horseshoe. rewrite legs_exact. reflexivity.
Qed.
Lemma boundary_exact lat s r : fboundary (fun x => x) sin cos PI lat s r = boundary lat s r.
Proof. reflexivity. Qed.

(** ** Doubles *)
Lemma u53_small : 0 < u53 <= 12 / 100000000000000000.
Proof.
  unfold u53. replace (2 ^ 53) with (IZR (2 ^ 53)) by (rewrite pow_IZR; reflexivity). change (2 ^ 53)%Z with 9007199254740992%Z. lra.
Qed.
Lemma double_pi : pi_rounded u53 (double PI).
Proof. unfold pi_rounded. pose proof PI_RGT_0. rewrite <- (Rabs_right PI) at 3 by lra. exact (proj2 double_rounding PI). Qed.
Lemma pow_small n : (n <= 100)%nat -> (1 + u53) ^ n - 1 <= 2 * INR n * u53.
Proof.
  intro L. apply (bound u53 double double_rounding). apply le_INR in L. replace (INR 100) with 100 in L by (cbn; lra). pose proof (pos_INR n). pose proof u53_small. nra.
Qed.
Lemma amplified_double eps : 1 / 1000000 <= eps < 1 -> amplified u53 eps <= 8 / 1000000000.
Proof.
  intros [A B]. unfold amplified. assert (P := pow_small 11 ltac:(lia)). replace (INR 11) with 11 in P by (cbn; lra). pose proof u53_small.
  apply (Rmult_le_reg_r eps); [lra|]. unfold Rdiv. rewrite (Rmult_assoc _ (/ eps)), Rinv_l by lra. rewrite Rmult_1_r.
  apply Rle_trans with (2 * 11 * u53 * (2 + eps)); [apply Rmult_le_compat_r; lra|]. nra.
Qed.
Lemma error_double eps : 1 / 1000000 <= eps < 1 -> velocity_error u53 eps 11 <= 1 / 100000000.
Proof.
  intro E. assert (W := amplified_double eps E). pose proof u53_small as U.
  assert (P11 := pow_small 11 ltac:(lia)). replace (INR 11) with 11 in P11 by (cbn; lra). assert (P13 := pow_small 13 ltac:(lia)). replace (INR 13) with 13 in P13 by (cbn; lra).
  assert (Q13 := pw2 u53 double double_rounding 13). unfold velocity_error.
  set (a := (1 + u53) ^ 11) in *. set (b := (1 - u53) ^ 13) in *. set (w := amplified u53 eps) in *.
  assert (B : 1 - 26 * u53 <= b) by lra. assert (D : 0 < b * (1 - w)) by (apply Rmult_lt_0_compat; lra).
  assert (D' : (1 - 26 * u53) * (1 - 8 / 1000000000) <= b * (1 - w)) by (apply Rmult_le_compat; lra).
  enough (a / (b * (1 - w)) <= 1 + 1 / 100000000) by lra.
  apply (Rmult_le_reg_r (b * (1 - w))); [exact D|]. unfold Rdiv. rewrite Rmult_assoc, Rinv_l by lra. rewrite Rmult_1_r.
  apply Rle_trans with ((1 + 1 / 100000000) * ((1 - 26 * u53) * (1 - 8 / 1000000000))); [|apply Rmult_le_compat_l; lra]. lra.
Qed.
Lemma double_plus_tiny : double (1 + tiny) = 1.
Proof.
  pose proof tiny_pos. rewrite (double_eval (1 + tiny) 1 4503599627370496).
  - change (bpow radix2 (1 - 53)) with (/ IZR 4503599627370496). field.
  - rewrite Rabs_right by lra. change (bpow radix2 (1 - 1)) with 1. change (bpow radix2 1) with 2. lra.
  - change (bpow radix2 (53 - 1)) with (IZR 4503599627370496). unfold tiny. apply Rabs_def1; lra.
Qed.
Lemma lost_epsilon PIc : fleg_velocity double PIc tiny vzero (mkV (-1) 0 0) (mkV 1 0 0) = None.
Proof.
  assert (I : forall z, (Z.abs z <= 1000)%Z -> double (IZR z) = IZR z) by exact double_int.
  assert (R1 : fvsub double vzero (mkV (-1) 0 0) = mkV 1 0 0).
  { unfold fvsub, fsub, vzero. cbn [vx vy vz]. rewrite <- !minus_IZR. rewrite !I by lia. f_equal. }
  assert (R2 : fvsub double vzero (mkV 1 0 0) = mkV (-1) 0 0).
  { unfold fvsub, fsub, vzero. cbn [vx vy vz]. rewrite <- !minus_IZR. rewrite !I by lia. f_equal. }
  unfold fleg_velocity. rewrite R1, R2. destruct (fdiv double 1 (fmul double 4 PIc)); [|reflexivity].
  assert (D : forall a b : Z, (Z.abs (a * b) <= 1000)%Z -> fdot double (mkV (IZR a) 0 0) (mkV (IZR b) 0 0) = IZR (a * b)).
  { intros a b H. unfold fdot, fadd, fmul. cbn [vx vy vz]. rewrite !Rmult_0_r, (I 0%Z) by lia. rewrite <- mult_IZR, !Rplus_0_r, !I by exact H. reflexivity. }
  assert (N1 : fnorm double (mkV 1 0 0) = 1) by (unfold fnorm, fsqrt; rewrite (D 1 1)%Z by lia; change (IZR (1 * 1)) with 1; rewrite sqrt_1; apply (I 1%Z); lia).
  assert (N2 : fnorm double (mkV (-1) 0 0) = 1) by (unfold fnorm, fsqrt; rewrite (D (-1) (-1))%Z by lia; change (IZR (-1 * -1)) with 1; rewrite sqrt_1; apply (I 1%Z); lia).
  rewrite N1, N2, (D 1 (-1))%Z by lia. unfold fadd, fmul. rewrite double_plus_tiny. rewrite !Rmult_1_r, !(I 1%Z) by lia.
  change (IZR (1 * -1)) with (-1). replace (-1 + 1) with 0 by ring. rewrite (I 0%Z) by lia. rewrite (proj2 (fdiv_none double 1 0) eq_refl). reflexivity.
Qed.
Lemma lost_epsilon_ends : vzero <> mkV (-1) 0 0 /\ vzero <> mkV 1 0 0.
Proof. split; intro H; apply (f_equal vx) in H; cbn [vx vzero] in H; lra. Qed.
Lemma tiny_accepted : 0 < tiny < 1. Proof. pose proof tiny_pos. lra. Qed.
Lemma small_amplified eps : 1 / 1000000 <= eps < 1 -> amplified u53 eps < 1.
Proof. intro E. pose proof (amplified_double eps E). lra. Qed.
Lemma default_epsilon : 1 / 1000000 <= 1 / 1000000 < 1. Proof. lra. Qed.
