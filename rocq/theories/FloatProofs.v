(** Proofs about results in floating-point arithmetic (C113). *)
From Coq Require Import Reals ZArith Lra Lia Psatz List Arith.
From Flocq Require Import Core Relative.
From Verif Require Import Vec PanelModel VlmModel FloatModel FloatSpec.
Import ListNotations.
Open Scope R_scope.

Section P.
Variable u : R.
Variable rnd : R -> R.
Variables fsin fcos : R -> R.
Variable PIc : R.
Hypothesis RND : rounding u rnd.

Lemma u0 : 0 <= u < 1. Proof. apply RND. Qed.
Lemma pw1 k : 1 <= (1 + u) ^ k. Proof. apply pow_R1_Rle. pose proof u0. lra. Qed.
Lemma pwm k l : (k <= l)%nat -> (1 + u) ^ k <= (1 + u) ^ l. Proof. apply Rle_pow. pose proof u0. lra. Qed.
Lemma pw0 k : 0 < (1 - u) ^ k. Proof. apply pow_lt. pose proof u0. lra. Qed.
Lemma pwl k : (1 - u) ^ k <= 1.
Proof. induction k; cbn; [lra|]. pose proof u0. pose proof (pw0 k). nra. Qed.
Lemma pw2 k : 2 <= (1 - u) ^ k + (1 + u) ^ k.
Proof.
  induction k; cbn [pow]; [lra|]. pose proof u0. pose proof (pw1 k). pose proof (pwl k). pose proof (pw0 k). nra.
Qed.

(** ** Relative errors *)
Definition approx (k : nat) (x X m : R) : Prop := Rabs (x - X) <= ((1 + u) ^ k - 1) * m /\ Rabs X <= m.

Lemma ap_exact x : approx 0 x x (Rabs x).
Proof. split; [|lra]. rewrite Rminus_diag_eq by reflexivity. rewrite Rabs_R0. cbn. lra. Qed.
Lemma ap_pos k x X m : approx k x X m -> 0 <= m. Proof. intros [_ B]. pose proof (Rabs_pos X). lra. Qed.
Lemma ap_size k x X m : approx k x X m -> Rabs x <= (1 + u) ^ k * m.
Proof. intros [A B]. replace x with ((x - X) + X) by ring. pose proof (Rabs_triang (x - X) X). lra. Qed.
Lemma ap_mono k l x X m : (k <= l)%nat -> approx k x X m -> approx l x X m.
Proof. intros L H. pose proof (ap_pos _ _ _ _ H). destruct H as [A B]. split; [|exact B]. pose proof (pwm k l L). nra. Qed.
Lemma ap_size_mono k x X m m' : m <= m' -> approx k x X m -> approx k x X m'.
Proof. intros L [A B]. split; [|lra]. pose proof (pw1 k). nra. Qed.
Lemma ap_rnd k x X m : approx k x X m -> approx (S k) (rnd x) X m.
Proof.
  intro H. assert (Z := ap_size _ _ _ _ H). destruct H as [A B]. split; [|exact B]. replace (rnd x - X) with ((rnd x - x) + (x - X)) by ring.
  pose proof (Rabs_triang (rnd x - x) (x - X)). pose proof (proj2 RND x). pose proof u0. cbn [pow]. nra.
Qed.
Lemma ap_add k x X m y Y n : approx k x X m -> approx k y Y n -> approx k (x + y) (X + Y) (m + n).
Proof.
  intros [A B] [C D]. split.
  - replace (x + y - (X + Y)) with ((x - X) + (y - Y)) by ring. pose proof (Rabs_triang (x - X) (y - Y)). lra.
  - pose proof (Rabs_triang X Y). lra.
Qed.
Lemma ap_opp k x X m : approx k x X m -> approx k (- x) (- X) m.
Proof. intros [A B]. split; [|rewrite Rabs_Ropp; exact B]. replace (- x - - X) with (- (x - X)) by ring. rewrite Rabs_Ropp. exact A. Qed.
Lemma ap_sub k x X m y Y n : approx k x X m -> approx k y Y n -> approx k (x - y) (X - Y) (m + n).
Proof. intros A B. unfold Rminus. apply ap_add; [exact A|]. apply ap_opp. exact B. Qed.
Lemma ap_mul k l x X m y Y n : approx k x X m -> approx l y Y n -> approx (k + l) (x * y) (X * Y) (m * n).
Proof.
  intros H1 H2. assert (Z := ap_size _ _ _ _ H1). assert (M := ap_pos _ _ _ _ H1). assert (N := ap_pos _ _ _ _ H2).
  destruct H1 as [A B], H2 as [C D]. split.
  - replace (x * y - X * Y) with (x * (y - Y) + (x - X) * Y) by ring. eapply Rle_trans; [apply Rabs_triang|]. rewrite !Rabs_mult, pow_add.
    assert (E1 : Rabs x * Rabs (y - Y) <= ((1 + u) ^ k * m) * (((1 + u) ^ l - 1) * n)) by (apply Rmult_le_compat; auto using Rabs_pos).
    assert (E2 : Rabs (x - X) * Rabs Y <= (((1 + u) ^ k - 1) * m) * n) by (apply Rmult_le_compat; auto using Rabs_pos).
    lra.
  - rewrite Rabs_mult. apply Rmult_le_compat; auto using Rabs_pos.
Qed.
Lemma ap_close k x X m : approx k x X m -> close u k x X m. Proof. intros [A _]. exact A. Qed.

(** Operations; both sides are raised to a common number of roundings. *)
Lemma ap_fadd k l x X m y Y n : approx k x X m -> approx l y Y n -> approx (S (max k l)) (fadd rnd x y) (X + Y) (m + n).
Proof. intros A B. apply ap_rnd, ap_add; [apply (ap_mono k)|apply (ap_mono l)]; auto; lia. Qed.
Lemma ap_fsub k l x X m y Y n : approx k x X m -> approx l y Y n -> approx (S (max k l)) (fsub rnd x y) (X - Y) (m + n).
Proof. intros A B. apply ap_rnd, ap_sub; [apply (ap_mono k)|apply (ap_mono l)]; auto; lia. Qed.
Lemma ap_fmul k l x X m y Y n : approx k x X m -> approx l y Y n -> approx (S (k + l)) (fmul rnd x y) (X * Y) (m * n).
Proof. intros A B. apply ap_rnd, ap_mul; auto. Qed.

(** ** Factors *)
Definition rel (l : nat) (d D : R) : Prop := exists t, d = D * t /\ (1 - u) ^ l <= t <= (1 + u) ^ l.
Lemma rel_exact x : rel 0 x x. Proof. exists 1. cbn. split; lra. Qed.
Lemma rel_rnd l d D : rel l d D -> rel (S l) (rnd d) D.
Proof.
  intros (t & -> & A & B). assert (T : 0 < t) by (pose proof (pw0 l); lra). pose proof (proj2 RND (D * t)) as E. pose proof u0.
  destruct (Req_dec D 0) as [->|N].
  - exists t. rewrite Rmult_0_l in *. split.
    + rewrite Rabs_R0 in E. rewrite Rminus_0_r in E. assert (Rabs (rnd 0) = 0) by (pose proof (Rabs_pos (rnd 0)); lra).
      destruct (Req_dec (rnd 0) 0) as [Z|Z]; [exact Z|]. apply Rabs_pos_lt in Z. lra.
    + cbn [pow]. pose proof (pw0 l). pose proof (pw1 l). split; nra.
  - exists (rnd (D * t) / D). split; [field; exact N|].
    assert (F : Rabs (rnd (D * t) / D - t) <= u * t).
    { replace (rnd (D * t) / D - t) with ((rnd (D * t) - D * t) / D) by (field; exact N). unfold Rdiv. rewrite Rabs_mult, Rabs_inv.
      rewrite (Rabs_mult D t), (Rabs_right t) in E by lra. assert (P : 0 < Rabs D) by (apply Rabs_pos_lt; exact N).
      apply (Rmult_le_reg_r (Rabs D)); [exact P|]. rewrite Rmult_assoc, Rinv_l by lra. lra. }
    assert (F1 := Rle_trans _ _ _ (Rle_abs _) F). rewrite Rabs_minus_sym in F. assert (F2 := Rle_trans _ _ _ (Rle_abs _) F).
    cbn [pow]. split; nra.
Qed.
Lemma rel_mul k l a A b B : rel k a A -> rel l b B -> rel (k + l) (a * b) (A * B).
Proof.
  intros (s & -> & S1 & S2) (t & -> & T1 & T2). exists (s * t). split; [ring|]. rewrite !pow_add. pose proof (pw0 k). pose proof (pw0 l).
  split; apply Rmult_le_compat; lra.
Qed.
Lemma rel_fmul k l a A b B : rel k a A -> rel l b B -> rel (S (k + l)) (fmul rnd a b) (A * B).
Proof. intros. apply rel_rnd, rel_mul; assumption. Qed.
Lemma rel_mono k l d D : (k <= l)%nat -> rel k d D -> rel l d D.
Proof.
  intros L (t & -> & A & B). exists t. split; [reflexivity|]. split; [|pose proof (pwm k l L); lra].
  assert (X : (1 - u) ^ l <= (1 - u) ^ k); [|lra]. replace l with (k + (l - k))%nat by lia. rewrite pow_add. pose proof (pw0 k). pose proof (pwl (l - k)). nra.
Qed.
Lemma rel_add l a A b B : 0 <= A -> 0 <= B -> rel l a A -> rel l b B -> rel l (a + b) (A + B).
Proof.
  intros PA PB (s & -> & S1 & S2) (t & -> & T1 & T2). destruct (Req_dec (A + B) 0) as [Z|Z].
  - exists s. assert (A = 0) by lra. assert (B = 0) by lra. subst. split; [ring|lra].
  - exists ((A * s + B * t) / (A + B)). split; [field; exact Z|]. assert (P : 0 < A + B) by lra.
    split; apply (Rmult_le_reg_r (A + B)); try exact P; unfold Rdiv; rewrite ?Rmult_assoc, ?Rinv_l, ?Rmult_1_r by lra; nra.
Qed.
Lemma rel_zero l d D : rel l d D -> d = 0 <-> D = 0.
Proof.
  intros (t & -> & A & _). assert (P := pw0 l). split; [|intros ->; ring]. intro H. apply Rmult_integral in H as [H|H]; lra.
Qed.

Lemma quotient k l x X m d D : approx k x X m -> rel l d D -> d <> 0 -> closeq u (S k) l (rnd (x / d)) (X / D) (m / Rabs D).
Proof.
  intros H (t & -> & T1 & T2) N. assert (ND : D <> 0) by (intros ->; apply N; ring). assert (M := ap_pos _ _ _ _ H).
  assert (Tp : 0 < t) by (pose proof (pw0 l); lra). assert (W := pw0 l). assert (Z := ap_size _ _ _ _ H). destruct H as [A B]. unfold closeq.
  assert (PD : 0 < Rabs D) by (apply Rabs_pos_lt; exact ND). pose proof u0. pose proof (pw1 k) as K1. pose proof (pw1 l) as L1.
  assert (I1 : / t <= / (1 - u) ^ l) by (apply Rinv_le_contravar; lra).
  assert (I2 : / (1 + u) ^ l <= / t) by (apply Rinv_le_contravar; lra).
  assert (I0 : 0 < / t) by (apply Rinv_0_lt_compat; lra).
  assert (I3 : Rabs (/ t - 1) <= / (1 - u) ^ l - 1).
  { apply Rabs_le. split; [|lra]. assert (P := pw2 l). set (a := (1 - u) ^ l) in *. set (b := (1 + u) ^ l) in *.
    assert (IA : a * / a = 1) by (apply Rinv_r; lra). assert (IB : b * / b = 1) by (apply Rinv_r; lra).
    assert (JA : 0 < / a) by (apply Rinv_0_lt_compat; lra). assert (JB : 0 < / b) by (apply Rinv_0_lt_compat; lra).
    assert (2 <= / a + / b); [|lra].
    (* a*b <= 1 and a + b >= 2 *)
    assert (AB : / a + / b = (a + b) * (/ a * / b)) by (field; split; lra). rewrite AB.
    assert (LE : a * b <= 1).
    { unfold a, b. rewrite <- Rpow_mult_distr. replace ((1 - u) * (1 + u)) with (1 - u * u) by ring.
      apply Rle_trans with (1 ^ l); [apply pow_incr; split; nra|rewrite pow1; lra]. }
    assert (1 <= / a * / b); [|nra]. rewrite <- Rinv_mult. apply Rle_trans with (/ 1); [lra|]. apply Rinv_le_contravar; nra. }
  assert (Q : Rabs (x / (D * t) - X / D) <= ((1 + u) ^ k / (1 - u) ^ l - 1) * (m / Rabs D)).
  { replace (x / (D * t) - X / D) with (((x - X) * / t + X * (/ t - 1)) * / D) by (field; split; lra).
    rewrite Rabs_mult, Rabs_inv. unfold Rdiv at 2. rewrite <- Rmult_assoc. apply Rmult_le_compat_r; [apply Rlt_le, Rinv_0_lt_compat; exact PD|].
    eapply Rle_trans; [apply Rabs_triang|]. rewrite !Rabs_mult, (Rabs_right (/ t)) by lra.
    assert (E1 : Rabs (x - X) * / t <= (((1 + u) ^ k - 1) * m) * / (1 - u) ^ l) by (apply Rmult_le_compat; auto using Rabs_pos; lra).
    assert (E2 : Rabs X * Rabs (/ t - 1) <= m * (/ (1 - u) ^ l - 1)) by (apply Rmult_le_compat; auto using Rabs_pos).
    unfold Rdiv. lra. }
  assert (QX : Rabs (x / (D * t)) <= (1 + u) ^ k / (1 - u) ^ l * (m / Rabs D)).
  { unfold Rdiv. rewrite Rabs_mult, Rabs_inv, Rabs_mult, (Rabs_right t), Rinv_mult by lra.
    replace ((1 + u) ^ k * / (1 - u) ^ l * (m * / Rabs D)) with (((1 + u) ^ k * m) * (/ Rabs D * / (1 - u) ^ l)) by ring.
    assert (JD : 0 < / Rabs D) by (apply Rinv_0_lt_compat; exact PD).
    apply Rmult_le_compat; [apply Rabs_pos|nra|exact Z|]. apply Rmult_le_compat_l; lra. }
  pose proof (proj2 RND (x / (D * t))) as E.
  replace (rnd (x / (D * t)) - X / D) with ((rnd (x / (D * t)) - x / (D * t)) + (x / (D * t) - X / D)) by ring.
  eapply Rle_trans; [apply Rabs_triang|].
  replace ((1 + u) ^ S k / (1 - u) ^ l) with ((1 + u) * ((1 + u) ^ k / (1 - u) ^ l)) by (cbn [pow]; unfold Rdiv; ring). nra.
Qed.

(** ** Vectors *)
Definition vapprox (k : nat) (v V m : vec) : Prop :=
  approx k (vx v) (vx V) (vx m) /\ approx k (vy v) (vy V) (vy m) /\ approx k (vz v) (vz V) (vz m).
Lemma vap_exact v : vapprox 0 v v (vabs v). Proof. repeat split; cbn [vabs vx vy vz]; try apply ap_exact; lra. Qed.
Lemma vap_mono k l v V m : (k <= l)%nat -> vapprox k v V m -> vapprox l v V m.
Proof. intros L (A & B & C). split; [|split]; eapply ap_mono; eassumption. Qed.
Lemma vap_add k l v V m w W n : vapprox k v V m -> vapprox l w W n -> vapprox (S (max k l)) (fvadd rnd v w) (vadd V W) (vadd m n).
Proof. intros (A & B & C) (D & E & F). split; [|split]; cbn [fvadd vadd vx vy vz]; apply ap_fadd; assumption. Qed.
Lemma vap_sub k l v V m w W n : vapprox k v V m -> vapprox l w W n -> vapprox (S (max k l)) (fvsub rnd v w) (vsub V W) (vadd m n).
Proof. intros (A & B & C) (D & E & F). split; [|split]; cbn [fvsub vsub vadd vx vy vz]; apply ap_fsub; assumption. Qed.
Definition cross_size (m n : vec) : vec := mkV (vy m * vz n + vz m * vy n) (vz m * vx n + vx m * vz n) (vx m * vy n + vy m * vx n).
Lemma vap_cross k l v V m w W n : vapprox k v V m -> vapprox l w W n -> vapprox (S (S (k + l))) (fcross rnd v w) (vcross V W) (cross_size m n).
Proof.
  intros (A & B & C) (D & E & F). assert (X := ap_fsub (S (k + l)) (S (k + l))). rewrite Nat.max_id in X.
  split; [|split]; cbn [fcross vcross cross_size vx vy vz]; apply X; apply ap_fmul; assumption.
Qed.
Lemma ap_dot k l v V m w W n : vapprox k v V m -> vapprox l w W n ->
  approx (k + l + 3) (fdot rnd v w) (vdot V W) (vx m * vx n + vy m * vy n + vz m * vz n).
Proof.
  intros (A & B & C) (D & E & F). unfold fdot, vdot.
  apply (ap_mono (S (max (S (max (S (k + l)) (S (k + l)))) (S (k + l))))); [lia|].
  apply ap_fadd; [apply ap_fadd|]; apply ap_fmul; assumption.
Qed.
Lemma vabs_size k v V m : vapprox k v V m -> 0 <= vx m /\ 0 <= vy m /\ 0 <= vz m.
Proof. intros (A & B & C). split; [|split]; eapply ap_pos; eassumption. Qed.

(** ** Magnitudes *)
Lemma rel_dot v : rel 3 (fdot rnd v v) (vdot v v).
Proof.
  unfold fdot, vdot. assert (Q : forall x, rel 1 (fmul rnd x x) (x * x)) by (intro x; apply (rel_fmul 0 0); apply rel_exact).
  apply rel_rnd, rel_add; [nra|nra| |apply (rel_mono 1); [lia|apply Q]]. apply rel_rnd, rel_add; try nra; apply Q.
Qed.
Lemma magnitude v : magnitude_ok u v (fnorm rnd v).
Proof.
  unfold magnitude_ok, close, fnorm, fsqrt. destruct (rel_dot v) as (t & E & T1 & T2).
  assert (N : sqrt (fdot rnd v v) = vnorm v * sqrt t).
  { rewrite E. rewrite sqrt_mult; [reflexivity| |pose proof (pw0 3); lra]. apply vdot_self_nonneg. }
  rewrite N. pose proof (vnorm_nonneg v) as V0. pose proof u0. pose proof (pw0 3).
  assert (S1 : (1 - u) ^ 2 <= sqrt t).
  { apply Rle_trans with (sqrt (((1 - u) ^ 2) * ((1 - u) ^ 2))); [rewrite sqrt_square by (apply Rlt_le, pw0); lra|]. apply sqrt_le_1_alt.
    apply Rle_trans with ((1 - u) ^ 3); [|lra]. cbn [pow]. pose proof (pw0 2). cbn [pow] in *. nra. }
  assert (S2 : sqrt t <= (1 + u) ^ 2).
  { apply Rle_trans with (sqrt (((1 + u) ^ 2) * ((1 + u) ^ 2))); [|rewrite sqrt_square by (pose proof (pw1 2); lra); lra]. apply sqrt_le_1_alt.
    apply Rle_trans with ((1 + u) ^ 3); [lra|]. cbn [pow]. assert (0 <= (1+u)*((1+u)*((1+u)*1)) * u) by (apply Rmult_le_pos; [|lra]; repeat apply Rmult_le_pos; lra). nra. }
  assert (A : approx 2 (vnorm v * sqrt t) (vnorm v) (vnorm v)).
  { split; [|rewrite Rabs_right by lra; lra]. replace (vnorm v * sqrt t - vnorm v) with (vnorm v * (sqrt t - 1)) by ring.
    rewrite Rabs_mult, (Rabs_right (vnorm v)) by lra. rewrite Rmult_comm. apply Rmult_le_compat_r; [exact V0|]. apply Rabs_le. pose proof (pw2 2). lra. }
  exact (proj1 (ap_rnd _ _ _ _ A)).
Qed.

(** ** Loads *)
Lemma rel_q s : rel 3 (fdyn_pressure rnd s) (dyn_pressure s).
Proof. unfold fdyn_pressure, dyn_pressure. apply (rel_fmul 1 1); apply (rel_fmul 0 0); apply rel_exact. Qed.

Notation sa s := (fsin (fdeg2rad rnd PIc (f_alpha s))).
Notation ca s := (fcos (fdeg2rad rnd PIc (f_alpha s))).
Notation sb s := (fsin (fdeg2rad rnd PIc (f_beta s))).
Notation cb s := (fcos (fdeg2rad rnd PIc (f_beta s))).
Notation loads := (fpanel_loads rnd fsin fcos PIc).

Lemma wind_ap s : vapprox 2 (fvel_wind rnd fsin fcos PIc s) (vscale (-1) (stream (f_airspeed s) (sa s) (ca s) (sb s) (cb s)))
  (vabs (stream (f_airspeed s) (sa s) (ca s) (sb s) (cb s))).
Proof.
  assert (O : approx 0 (- f_airspeed s) (- f_airspeed s) (Rabs (f_airspeed s))) by (rewrite <- (Rabs_Ropp (f_airspeed s)); apply ap_exact).
  unfold fvel_wind, stream. split; [|split]; cbn [vx vy vz vscale vabs].
  - rewrite !Rabs_mult. replace (-1 * (f_airspeed s * (ca s * cb s))) with (- f_airspeed s * (ca s * cb s)) by ring.
    apply (ap_fmul 0 1); [exact O|]. apply (ap_fmul 0 0); apply ap_exact.
  - rewrite Rabs_Ropp, Rabs_mult, <- (Rabs_Ropp (sb s)). replace (-1 * - (f_airspeed s * sb s)) with (- f_airspeed s * - sb s) by ring.
    apply (ap_mono 1); [lia|]. apply (ap_fmul 0 0); [exact O|]. apply ap_exact.
  - rewrite !Rabs_mult. replace (-1 * (f_airspeed s * (sa s * cb s))) with (- f_airspeed s * (sa s * cb s)) by ring.
    apply (ap_fmul 0 1); [exact O|]. apply (ap_fmul 0 0); apply ap_exact.
Qed.
(** The difference of two given points is rounded once, relative to itself. *)
Lemma vap_diff p q : vapprox 1 (fvsub rnd p q) (vsub p q) (vabs (vsub p q)).
Proof. split; [|split]; cbn [fvsub vsub vabs vx vy vz]; apply ap_rnd, ap_exact. Qed.
Lemma rot_ap s r p : vapprox 3 (fvel_rot rnd s r p) (vcross (omega s) (vsub p (r_CG r))) (across (omega s) (vsub p (r_CG r))).
Proof. exact (vap_cross 0 1 _ _ _ _ _ _ (vap_exact (omega s)) (vap_diff p (r_CG r))). Qed.

Lemma panel_kj eps lat gamma s r i g o m : loads eps lat gamma s r i g = Some (o, m) ->
  kutta_joukowski u (stream (f_airspeed s) (sa s) (ca s) (sb s) (cb s)) s r i g o.
Proof.
  unfold fpanel_loads. destruct (finduced_loop _ _ _ _ _ _) as [iw|]; [|discriminate]. intro H. injection H as <- _.
  unfold kutta_joukowski, velocity, velocity_size. cbn [p_iw p_f]. set (w := stream (f_airspeed s) (sa s) (ca s) (sb s) (cb s)).
  assert (V : vapprox 5 (fvsub rnd iw (fvadd rnd (fvel_wind rnd fsin fcos PIc s) (fvel_rot rnd s r (pB i))))
    (vsub (vadd iw w) (vcross (omega s) (vsub (pB i) (r_CG r))))
    (vadd (vadd (vabs iw) (vabs w)) (across (omega s) (vsub (pB i) (r_CG r))))).
  { assert (X := vap_sub 0 4 _ _ _ _ _ _ (vap_exact iw) (vap_add 2 3 _ _ _ _ _ _ (wind_ap s) (rot_ap s r (pB i)))). cbn [max] in X. fold w in X.
    destruct X as (X1 & X2 & X3). cbn [vsub vadd vscale vx vy vz] in *.
    split; [|split]; cbn [vsub vadd vscale vx vy vz].
    - match type of X1 with approx _ _ ?a ?b => match goal with |- approx _ _ ?c ?d => replace c with a by ring; replace d with b by ring end end. exact X1.
    - match type of X2 with approx _ _ ?a ?b => match goal with |- approx _ _ ?c ?d => replace c with a by ring; replace d with b by ring end end. exact X2.
    - match type of X3 with approx _ _ ?a ?b => match goal with |- approx _ _ ?c ?d => replace c with a by ring; replace d with b by ring end end. exact X3. }
  assert (C := vap_cross 5 1 _ _ _ _ _ _ V (vap_diff (pV3 i) (pV2 i))). cbn [Nat.add] in C. clear V.
  destruct C as (C1 & C2 & C3).
  assert (F : forall x X n, approx 8 x X n -> approx 10 (fmul rnd (fmul rnd (f_rho s) x) g) (f_rho s * g * X) (Rabs (f_rho s * g) * n)).
  { intros x X n H. rewrite Rabs_mult. replace (f_rho s * g * X) with (f_rho s * X * g) by ring. replace (Rabs (f_rho s) * Rabs g * n) with (Rabs (f_rho s) * n * Rabs g) by ring.
    apply (ap_fmul 9 0); [|apply ap_exact]. apply (ap_fmul 0 8); [apply ap_exact|exact H]. }
  assert (VA : forall a b, vabs (vadd (vadd (vabs a) (vabs b)) (across (omega s) (vsub (pB i) (r_CG r)))) = vadd (vadd (vabs a) (vabs b)) (across (omega s) (vsub (pB i) (r_CG r)))).
  { intros a b. unfold vabs, vadd, across. cbn [vx vy vz]. f_equal; apply Rabs_right; apply Rle_ge;
      repeat first [apply Rplus_le_le_0_compat | apply Rmult_le_pos | apply Rabs_pos]. }
  split; [|split]; apply ap_close; cbn [vscale vx vy vz].
  - apply F. unfold across at 1. rewrite VA. exact C1.
  - apply F. unfold across at 1. rewrite VA. exact C2.
  - apply F. unfold across at 1. rewrite VA. exact C3.
Qed.

Lemma panel_other eps lat gamma s r i g o m : loads eps lat gamma s r i g = Some (o, m) ->
  magnitude_ok u (p_iw o) (p_iwmag o) /\ magnitude_ok u (p_f o) (p_fmag o) /\ pressure_ok u s i o /\
  vapprox 3 m (moment (r_RP r) (i, o)) (moment_size (r_RP r) (i, o)).
Proof.
  unfold fpanel_loads. destruct (finduced_loop _ _ _ _ _ _) as [iw|]; [|discriminate]. intro H. injection H as <- <-. cbn [p_iw p_f p_iwmag p_fmag].
  split; [apply magnitude|]. split; [apply magnitude|]. split.
  - unfold pressure_ok. cbn [p_cp p_f]. assert (RQ := rel_fmul 3 0 _ _ _ _ (rel_q s) (rel_exact (pA i))). unfold fdiv. destruct (Req_EM_T _ 0) as [N|N].
    { apply (rel_zero _ _ _ RQ). exact N. }
    split; [intro Z; apply N, (rel_zero _ _ _ RQ), Z|].
    assert (A := ap_dot 0 0 _ _ _ _ _ _ (vap_exact (mkV (fmul rnd (fmul rnd (f_rho s) (vx (fcross rnd (fvsub rnd iw (fvadd rnd (fvel_wind rnd fsin fcos PIc s) (fvel_rot rnd s r (pB i)))) (fvsub rnd (pV3 i) (pV2 i))))) g)
      (fmul rnd (fmul rnd (f_rho s) (vy (fcross rnd (fvsub rnd iw (fvadd rnd (fvel_wind rnd fsin fcos PIc s) (fvel_rot rnd s r (pB i)))) (fvsub rnd (pV3 i) (pV2 i))))) g)
      (fmul rnd (fmul rnd (f_rho s) (vz (fcross rnd (fvsub rnd iw (fvadd rnd (fvel_wind rnd fsin fcos PIc s) (fvel_rot rnd s r (pB i)))) (fvsub rnd (pV3 i) (pV2 i))))) g)))
      (vap_exact (pN i))).
    cbn [Nat.add] in A. cbn [vabs vx vy vz] in A.
    assert (Q := quotient 3 4 _ _ _ _ _ A RQ N). rewrite !Rabs_mult in *. cbn [vx vy vz]. exact Q.
  - exact (vap_cross 1 0 _ _ _ _ _ _ (vap_diff (pB i) (r_RP r)) (vap_exact _)).
Qed.

Lemma loop_ap eps lat gamma s r : forall l ft mt os F M, fresults_loop rnd fsin fcos PIc eps lat gamma s r l ft mt = Some (os, F, M) ->
  forall k k' FT FS MT MS, vapprox k ft FT FS -> (3 <= k')%nat -> vapprox k' mt MT MS ->
  let ps := combine (map fst l) os in
  List.length os = List.length l /\
  vapprox (List.length l + k) F (vadd FT (vsum (map p_f os))) (vadd FS (vsum (map (fun o => vabs (p_f o)) os))) /\
  vapprox (List.length l + k') M (vadd MT (vsum (map (moment (r_RP r)) ps))) (vadd MS (vsum (map (moment_size (r_RP r)) ps))).
Proof.
  assert (AS : forall a b c, vadd (vadd a b) c = vadd a (vadd b c)) by (intros; vec_eq; ring).
  assert (AZ : forall a, vadd a vzero = a) by (intros []; unfold vadd, vzero; cbn; f_equal; ring).
  induction l as [|[i g] l IH]; intros ft mt os F M H k k' FT FS MT MS A K B.
  - cbn [fresults_loop] in H. injection H as <- <- <-. cbn [List.length map fst combine vsum fold_right]. rewrite !AZ. auto.
  - cbn [fresults_loop] in H. destruct (loads eps lat gamma s r i g) as [[o m]|] eqn:E; [|discriminate].
    destruct (fresults_loop rnd fsin fcos PIc eps lat gamma s r l _ _) as [[[os' F'] M']|] eqn:E'; [|discriminate]. injection H as <- <- <-.
    destruct (panel_other _ _ _ _ _ _ _ _ _ E) as (_ & _ & _ & Bm).
    assert (A' := vap_add k 0 _ _ _ _ _ _ A (vap_exact (p_f o))). rewrite Nat.max_0_r in A'.
    assert (B' := vap_add k' 3 _ _ _ _ _ _ B Bm). replace (max k' 3) with k' in B' by lia.
    destruct (IH _ _ _ _ _ E' _ _ _ _ _ _ A' (le_S _ _ K) B') as (LN & X & Y). rewrite !AS in X, Y.
    cbn [List.length map fst combine vsum fold_right].
    replace (S (List.length l) + k)%nat with (List.length l + S k)%nat by lia. replace (S (List.length l) + k')%nat with (List.length l + S k')%nat by lia.
    split; [congruence|]. split; [exact X|exact Y].
Qed.
Lemma loop_panels eps lat gamma s r : forall l ft mt os F M, fresults_loop rnd fsin fcos PIc eps lat gamma s r l ft mt = Some (os, F, M) ->
  Forall2 (fun ig o => exists m, loads eps lat gamma s r (fst ig) (snd ig) = Some (o, m)) l os.
Proof.
  induction l as [|[i g] l IH]; intros ft mt os F M H; cbn [fresults_loop] in H.
  - injection H as <- _ _. constructor.
  - destruct (loads eps lat gamma s r i g) as [[o m]|] eqn:E; [|discriminate].
    destruct (fresults_loop rnd fsin fcos PIc eps lat gamma s r l _ _) as [[[os' F'] M']|] eqn:E'; [|discriminate]. injection H as <- _ _.
    constructor; [exists m; exact E|]. eapply IH. exact E'.
Qed.
Lemma vsum_x {A} (f : A -> vec) l : vx (vsum (map f l)) = rsum (map (fun x => vx (f x)) l). Proof. induction l; cbn; [reflexivity|]. f_equal. exact IHl. Qed.
Lemma vsum_y {A} (f : A -> vec) l : vy (vsum (map f l)) = rsum (map (fun x => vy (f x)) l). Proof. induction l; cbn; [reflexivity|]. f_equal. exact IHl. Qed.
Lemma vsum_z {A} (f : A -> vec) l : vz (vsum (map f l)) = rsum (map (fun x => vz (f x)) l). Proof. induction l; cbn; [reflexivity|]. f_equal. exact IHl. Qed.

Lemma zero_ap k : vapprox k vzero vzero vzero.
Proof. repeat split; cbn [vzero vx vy vz]; rewrite ?Rminus_0_r, ?Rabs_R0; lra. Qed.

Notation run := (fvlm_results rnd fsin fcos PIc).
Lemma run_inv eps lat s r gamma o : run eps lat s r gamma = Some o ->
  fresults_loop rnd fsin fcos PIc eps lat gamma s r (combine lat gamma) vzero vzero = Some (fo_panels o, fo_F o, fo_M o) /\
  fo_co o = fvlm_coeffs rnd fsin fcos PIc s r (fo_F o) (fo_M o).
Proof.
  unfold fvlm_results. destruct (fresults_loop _ _ _ _ _ _ _ _ _ _ _ _) as [[[os F] M]|]; [|discriminate]. intro H. injection H as <-. cbn. auto.
Qed.
Lemma map_fst_combine {A B} : forall (l : list A) (l' : list B), List.length l' = List.length l -> map fst (combine l l') = l.
Proof. induction l; intros [|b l'] H; cbn in *; try discriminate; [reflexivity|]. f_equal. apply IHl. congruence. Qed.
Lemma add_zero v : vadd vzero v = v. Proof. destruct v. unfold vadd, vzero. cbn. f_equal; ring. Qed.

Lemma loads_sum eps lat s r gamma o : run eps lat s r gamma = Some o -> List.length gamma = List.length lat ->
  List.length (fo_panels o) = List.length lat /\ forces_sum u (fo_panels o) (fo_F o) /\ moments_sum u (r_RP r) (combine lat (fo_panels o)) (fo_M o).
Proof.
  intros H LN. destruct (run_inv _ _ _ _ _ _ H) as [E _].
  destruct (loop_ap _ _ _ _ _ _ _ _ _ _ _ E 0%nat 3%nat vzero vzero vzero vzero (zero_ap 0) (le_n 3) (zero_ap 3)) as (L & X & Y).
  rewrite map_fst_combine in Y by exact LN. rewrite combine_length, LN, Nat.min_id in *. rewrite !add_zero in X, Y. rewrite Nat.add_0_r in X.
  split; [exact L|]. unfold forces_sum, moments_sum. rewrite combine_length, L, Nat.min_id. unfold total, size. rewrite <- !vsum_x, <- !vsum_y, <- !vsum_z.
  destruct X as (X1 & X2 & X3), Y as (Y1 & Y2 & Y3). rewrite vsum_x in X1. rewrite vsum_y in X2. rewrite vsum_z in X3.
  rewrite (vsum_x (fun o => vabs (p_f o))) in X1. rewrite (vsum_y (fun o => vabs (p_f o))) in X2. rewrite (vsum_z (fun o => vabs (p_f o))) in X3.
  rewrite vsum_x, vsum_y, vsum_z. cbn [vabs vx vy vz] in *.
  split; split; [|split| |split]; apply ap_close; assumption.
Qed.

Lemma panels_ok eps lat s r gamma o : run eps lat s r gamma = Some o ->
  Forall2 (fun ig p => exists m, loads eps lat gamma s r (fst ig) (snd ig) = Some (p, m)) (combine lat gamma) (fo_panels o).
Proof. intro H. destruct (run_inv _ _ _ _ _ _ H) as [E _]. eapply loop_panels. exact E. Qed.

Lemma Forall2_impl' {A B} (P Q : A -> B -> Prop) l l' : (forall a b, P a b -> Q a b) -> Forall2 P l l' -> Forall2 Q l l'.
Proof. intros H F. induction F; constructor; auto. Qed.
Lemma panels_spec eps lat s r gamma o : run eps lat s r gamma = Some o ->
  Forall2 (fun ig p =>
    kutta_joukowski u (stream (f_airspeed s) (sa s) (ca s) (sb s) (cb s)) s r (fst ig) (snd ig) p /\
    magnitude_ok u (p_iw p) (p_iwmag p) /\ magnitude_ok u (p_f p) (p_fmag p) /\ pressure_ok u s (fst ig) p) (combine lat gamma) (fo_panels o).
Proof.
  intro H. eapply Forall2_impl'; [|exact (panels_ok _ _ _ _ _ _ H)]. intros [i g] p [m E]. cbn [fst snd] in *.
  split; [eapply panel_kj; exact E|]. destruct (panel_other _ _ _ _ _ _ _ _ _ E) as (A & B & C & _). auto.
Qed.

Lemma axes s r F M : wind_axes u (sa s) (ca s) (sb s) (cb s) F (fvlm_coeffs rnd fsin fcos PIc s r F M).
Proof.
  unfold wind_axes, fvlm_coeffs. cbn [c_D c_C c_L]. set (a := sa s). set (b := ca s). set (c := sb s). set (d := cb s).
  assert (W : forall x X m y Y n z Z k, approx 1 x X m -> approx 1 y Y n -> approx 1 z Z k ->
    approx 4 (fdot rnd (mkV x y z) F) (X * vx F + Y * vy F + Z * vz F) (m * Rabs (vx F) + n * Rabs (vy F) + k * Rabs (vz F))).
  { intros. unfold fdot. cbn [vx vy vz]. apply (ap_fadd 3 2); [apply (ap_fadd 2 2)|]; apply (ap_fmul 1 0); auto using ap_exact. }
  assert (O : forall x, approx 1 x x (Rabs x)) by (intro; apply (ap_mono 0); [lia|apply ap_exact]).
  assert (P : forall x y, approx 1 (fmul rnd x y) (x * y) (Rabs x * Rabs y)) by (intros; apply (ap_fmul 0 0); apply ap_exact).
  split; [|split]; apply ap_close.
  - rewrite !Rabs_mult. replace (d * b * vx F - c * vy F + d * a * vz F) with (d * b * vx F + - c * vy F + d * a * vz F) by ring.
    rewrite <- (Rabs_Ropp c). apply W; auto.
  - rewrite !Rabs_mult. apply W; auto.
  - rewrite !Rabs_mult. replace (b * vz F - a * vx F) with (- a * vx F + 0 * vy F + b * vz F) by ring.
    replace (Rabs a * Rabs (vx F) + Rabs b * Rabs (vz F)) with (Rabs (- a) * Rabs (vx F) + Rabs 0 * Rabs (vy F) + Rabs b * Rabs (vz F)) by (rewrite Rabs_Ropp, Rabs_R0; ring).
    apply W; auto.
Qed.

Lemma closeq_mono k l l' x X m : 0 <= m -> (l <= l')%nat -> closeq u k l x X m -> closeq u k l' x X m.
Proof.
  unfold closeq. intros M L H. eapply Rle_trans; [exact H|]. apply Rmult_le_compat_r; [exact M|].
  assert (D : (1 - u) ^ l' <= (1 - u) ^ l).
  { replace l' with (l + (l' - l))%nat by lia. rewrite pow_add. pose proof (pw0 l). pose proof (pwl (l' - l)). nra. }
  assert (I : / (1 - u) ^ l <= / (1 - u) ^ l') by (apply Rinv_le_contravar; [apply pw0|exact D]). pose proof (pw1 k). unfold Rdiv. nra.
Qed.
Lemma Rabs_quot a b : Rabs (a / b) = Rabs a / Rabs b.
Proof. unfold Rdiv. rewrite Rabs_mult, Rabs_inv. reflexivity. Qed.
Lemma coefs s r F M : dyn_pressure s <> 0 -> coefficients u s r F M (fvlm_coeffs rnd fsin fcos PIc s r F M).
Proof.
  intro N. unfold coefficients, fvlm_coeffs. cbn [c_Cx c_Cy c_Cz c_CD c_CC c_CL c_Cl c_Cm c_Cn c_D c_C c_L].
  destruct (Req_EM_T (fdyn_pressure rnd s) 0) as [Z|_]; [apply (rel_zero _ _ _ (rel_q s)) in Z; contradiction|].
  assert (Q := rel_fmul 3 0 _ _ _ _ (rel_q s) (rel_exact (r_area r))). cbn [Nat.add] in Q.
  assert (A : forall load, normalised u s r (fdiv rnd load (fmul rnd (fdyn_pressure rnd s) (r_area r))) load 1).
  { intro load. unfold normalised, fdiv. rewrite Rmult_1_r. destruct (Req_EM_T _ 0) as [NZ|NZ]; [apply (rel_zero _ _ _ Q); exact NZ|].
    split; [intro Z; apply NZ, (rel_zero _ _ _ Q), Z|].
    assert (X := quotient 0 4 _ _ _ _ _ (ap_exact load) Q NZ). cbv zeta. rewrite Rabs_quot. apply (closeq_mono _ 4); [|lia|exact X].
    rewrite <- Rabs_quot. apply Rabs_pos. }
  assert (B : forall load len, normalised u s r (fdiv rnd load (fmul rnd (fmul rnd (fdyn_pressure rnd s) (r_area r)) len)) load len).
  { intros load len. assert (Q' := rel_fmul 4 0 _ _ _ _ Q (rel_exact len)). unfold normalised, fdiv.
    destruct (Req_EM_T _ 0) as [NZ|NZ]; [apply (rel_zero _ _ _ Q'); exact NZ|]. split; [intro Z; apply NZ, (rel_zero _ _ _ Q'), Z|].
    assert (X := quotient 0 5 _ _ _ _ _ (ap_exact load) Q' NZ). cbv zeta. rewrite Rabs_quot. exact X. }
  repeat (split; [apply A || apply B|]). apply B.
Qed.

(** The bound for small numbers of roundings. *)
Lemma bound : forall n, INR n * u <= 1 / 2 -> (1 + u) ^ n - 1 <= 2 * INR n * u.
Proof.
  pose proof u0 as U.
  assert (G : forall n, INR n * u < 1 -> (1 + u) ^ n * (1 - INR n * u) <= 1).
  { induction n as [|n IH]; intro H; [cbn; lra|]. rewrite S_INR in *. cbn [pow]. assert (H' : INR n * u < 1) by (pose proof (pos_INR n); nra).
    specialize (IH H'). assert (P := pw1 n).
    assert ((1 + u) * (1 - (INR n + 1) * u) <= 1 - INR n * u) by (pose proof (pos_INR n); nra). nra. }
  intros n H. assert (B := G n ltac:(lra)). assert (P := pw1 n). pose proof (pos_INR n). nra.
Qed.
End P.

(** ** Without rounding the model is the exact one *)
Section Exact.
Let id := fun x : R => x.
Definition exact_panel (p : fpanel) : panel_result := mkPR (p_iw p) (p_f p) (p_cp p).
Definition exact_results (o : fresults) : results := mkRes (map exact_panel (fo_panels o)) (fo_F o) (fo_M o) (fo_co o).

Lemma leg_exact eps p v1 v2 : fleg_velocity id PI eps p v1 v2 = leg_velocity eps p v1 v2.
Proof.
  unfold fleg_velocity, leg_velocity, fdiv, cdiv, fmul, fadd, fnorm, fsqrt, fdot, id. fold (vdot (fvsub id p v1) (fvsub id p v2)).
  change (fvsub (fun x => x) p v1) with (vsub p v1). change (fvsub (fun x => x) p v2) with (vsub p v2).
  destruct (Req_EM_T (4 * PI) 0) as [Z|_]; [pose proof PI_RGT_0; lra|]. reflexivity.
Qed.
Lemma legs_exact eps p : forall l dw, fleg_loop id PI eps p l dw = leg_loop eps p l dw.
Proof.
  induction l as [|[v1 v2] l IH]; intro dw; cbn [fleg_loop leg_loop]; [reflexivity|]. rewrite leg_exact.
  destruct (leg_velocity eps p v1 v2) as [v|]; [|reflexivity]. apply IH.
Qed.
Lemma induced_exact eps p : forall l iw, finduced_loop id PI eps p l iw = induced_loop eps p l iw.
Proof.
  induction l as [|[j g] l IH]; intro iw; cbn [finduced_loop induced_loop]; [reflexivity|]. unfold horseshoe. rewrite legs_exact.
  destruct (leg_loop eps p (legs j) vzero) as [dw|]; [|reflexivity]. apply IH.
Qed.
Lemma panel_exact eps lat gamma s r i g :
  match fpanel_loads id sin cos PI eps lat gamma s r i g with Some (o, m) => Some (exact_panel o, m) | None => None end = panel_loads eps lat gamma s r i g.
Proof.
  unfold fpanel_loads, panel_loads. rewrite induced_exact. destruct (induced_loop _ _ _ _) as [iw|]; [|reflexivity]. reflexivity.
Qed.
Lemma loop_exact eps lat gamma s r : forall l ft mt,
  match fresults_loop id sin cos PI eps lat gamma s r l ft mt with Some (os, F, M) => Some (map exact_panel os, F, M) | None => None end =
  results_loop eps lat gamma s r l ft mt.
Proof.
  induction l as [|[i g] l IH]; intros ft mt; cbn [fresults_loop results_loop]; [reflexivity|].
  rewrite <- panel_exact. destruct (fpanel_loads id sin cos PI eps lat gamma s r i g) as [[o m]|]; [|reflexivity].
  rewrite <- IH. cbn [exact_panel o_f]. change (fvadd id ft (p_f o)) with (vadd ft (p_f o)). change (fvadd id mt m) with (vadd mt m).
  destruct (fresults_loop id sin cos PI eps lat gamma s r l _ _) as [[[os F] M]|]; reflexivity.
Qed.
Lemma run_exact eps lat s r gamma :
  option_map exact_results (fvlm_results id sin cos PI eps lat s r gamma) = vlm_results eps lat s r gamma.
Proof.
  unfold fvlm_results, vlm_results. rewrite <- loop_exact. destruct (fresults_loop _ _ _ _ _ _ _ _ _ _ _ _) as [[[os F] M]|]; reflexivity.
Qed.
End Exact.

(** ** Doubles *)
Lemma double_rounding : rounding u53 double.
Proof.
  split.
  - assert (1 < 2 ^ 53) by (apply Rlt_pow_R1; [lra|lia]). unfold u53. split; [left; apply Rinv_0_lt_compat; lra|]. rewrite <- Rinv_1. apply Rinv_lt_contravar; lra.
  - intro x. assert (E := relative_error_N_FLX radix2 53 eq_refl (fun x => negb (Z.even x)) x).
    change (round radix2 (FLX_exp 53) (Znearest (fun x0 : Z => negb (Z.even x0))) x) with (double x) in E.
    assert (U : /2 * bpow radix2 (- (53) + 1) = u53).
    { unfold u53. change (bpow radix2 (- (53) + 1)) with (/ IZR (2 ^ 52)). rewrite pow_IZR.
      rewrite <- Rinv_mult, <- mult_IZR. reflexivity. }
    rewrite U in E. exact E.
Qed.
Lemma double_format m e : (Z.abs m < 2 ^ 53)%Z -> double (IZR m * bpow radix2 e) = IZR m * bpow radix2 e.
Proof.
  intro H. apply round_generic; [apply valid_rnd_N|]. apply generic_format_FLX. exists (Float radix2 m e); [reflexivity|exact H].
Qed.
Lemma double_int z : (Z.abs z <= 1000)%Z -> double (IZR z) = IZR z.
Proof. intro H. assert (E := double_format z 0). cbn [bpow] in E. rewrite Rmult_1_r in E. apply E. lia. Qed.
Lemma double_eps : double (/ 1048576) = / 1048576.
Proof. assert (E := double_format 1 (-20) eq_refl). change (bpow radix2 (-20)) with (/ 1048576) in E. rewrite Rmult_1_l in E. exact E. Qed.
Lemma double_1eps : double (1 + / 1048576) = 1 + / 1048576.
Proof.
  assert (E := double_format 1048577 (-20) eq_refl). change (bpow radix2 (-20)) with (/ 1048576) in E.
  replace (1048577 * / 1048576) with (1 + / 1048576) in E by field. exact E.
Qed.

(** ** An example *)
Section Ex.
Variables (u : R) (rnd : R -> R) (PIc : R).
Hypothesis RND : rounding u rnd.
Hypothesis RI : forall z, (Z.abs z <= 1000)%Z -> rnd (IZR z) = IZR z.
Let eps := / 1048576.
Hypothesis RE : rnd (1 + eps) = 1 + eps.
Hypothesis RE' : rnd eps = eps.
Hypothesis PIp : 0 < PIc.
Variables fsin fcos : R -> R.
Hypothesis FS : fsin 0 = 0.
Hypothesis FC : fcos 0 = 1.

Definition wing_panel : panel :=
  mkPanel (mkV (-1) (-1) 0) (mkV (-1) 1 0) (mkV 3 1 0) (mkV 3 (-1) 0) (mkV 4 (-1) 0) (mkV 0 (-1) 0) (mkV 0 1 0) (mkV 4 1 0)
    (mkV 2 0 0) (mkV 0 0 0) (mkV 0 0 1) 8.
Definition straight : flow := mkFlow 10 2 0 0 0 0 0.
Definition one : refs := mkRefs 2 1 1 vzero vzero.

Ltac ints := repeat match goal with
  | |- context [rnd (IZR ?a + IZR ?b)] => let n := eval compute in (a + b)%Z in replace (rnd (IZR a + IZR b)) with (IZR n) by (rewrite <- plus_IZR; symmetry; apply RI; lia)
  | |- context [rnd (IZR ?a - IZR ?b)] => let n := eval compute in (a - b)%Z in replace (rnd (IZR a - IZR b)) with (IZR n) by (rewrite <- minus_IZR; symmetry; apply RI; lia)
  | |- context [rnd (IZR ?a * IZR ?b)] => let n := eval compute in (a * b)%Z in replace (rnd (IZR a * IZR b)) with (IZR n) by (rewrite <- mult_IZR; symmetry; apply RI; lia)
  | |- context [rnd (?x * 0)] => rewrite (Rmult_0_r x)
  | |- context [rnd (0 * ?x)] => rewrite (Rmult_0_l x)
  | |- context [rnd 0] => rewrite (RI 0) by lia
  end.
Lemma rnd_pos x : 0 < x -> 0 < rnd x.
Proof. intro H. destruct (rel_rnd u rnd RND 0 x x (rel_exact u x)) as (t & -> & T & _). pose proof (pw0 u rnd RND 1). apply Rmult_lt_0_compat; lra. Qed.
Lemma leg_side v1 v2 : v1 = mkV 4 (-1) 0 /\ v2 = mkV 0 (-1) 0 \/ v1 = mkV 0 1 0 /\ v2 = mkV 4 1 0 \/ v1 = mkV 0 (-1) 0 /\ v2 = mkV 0 1 0 ->
  exists z, fleg_velocity rnd PIc eps (mkV 0 0 0) v1 v2 = Some (mkV 0 0 z).
Proof.
  assert (S1 : rnd (sqrt 1) = 1) by (rewrite sqrt_1; apply RI; lia).
  assert (S17 : 0 < rnd (sqrt 17)) by (apply rnd_pos, sqrt_lt_R0; lra).
  assert (E0 : 0 < eps) by (unfold eps; lra).
  assert (K : 0 < rnd (4 * PIc)) by (apply rnd_pos; lra).
  intros [[-> ->]|[[-> ->]|[-> ->]]]; unfold fleg_velocity, fnorm, fsqrt, fvsub, fdot, fcross, fsub, fadd, fmul, fdiv; cbn [vx vy vz]; ints;
    rewrite ?S1, ?RE; ints.
  - destruct (Req_EM_T (rnd (4 * PIc)) 0) as [Z|_]; [lra|]. destruct (Req_EM_T (rnd (1 + _)) 0) as [Z|_].
    { exfalso. revert Z. apply Rgt_not_eq, rnd_pos. pose proof (rnd_pos (rnd (rnd (sqrt 17) * 1) * (1 + eps))) as X. pose proof (rnd_pos (rnd (sqrt 17) * 1)) as Y. nra. }
    destruct (Req_EM_T (rnd (sqrt 17)) 0) as [Z|_]; [lra|]. destruct (Req_EM_T 1 0) as [Z|_]; [lra|]. eexists. ints. reflexivity.
  - destruct (Req_EM_T (rnd (4 * PIc)) 0) as [Z|_]; [lra|]. destruct (Req_EM_T (rnd (1 + _)) 0) as [Z|_].
    { exfalso. revert Z. apply Rgt_not_eq, rnd_pos. pose proof (rnd_pos (rnd (1 * rnd (sqrt 17)) * (1 + eps))) as X. pose proof (rnd_pos (1 * rnd (sqrt 17))) as Y. nra. }
    destruct (Req_EM_T (rnd (sqrt 17)) 0) as [Z|_]; [lra|]. destruct (Req_EM_T 1 0) as [Z|_]; [lra|]. eexists. ints. reflexivity.
  - destruct (Req_EM_T (rnd (4 * PIc)) 0) as [Z|_]; [lra|].
    replace (1 * (1 + eps)) with (1 + eps) by ring. rewrite RE. replace (-1 + (1 + eps)) with eps by ring. rewrite RE'.
    destruct (Req_EM_T eps 0) as [Z|_]; [lra|]. destruct (Req_EM_T 1 0) as [Z|_]; [lra|]. eexists. ints. reflexivity.
Qed.

Lemma example_induced : exists z, finduced_loop rnd PIc eps (mkV 0 0 0) [(wing_panel, 3)] vzero = Some (mkV 0 0 z).
Proof.
  destruct (leg_side (mkV 4 (-1) 0) (mkV 0 (-1) 0)) as [z1 E1]; [auto|].
  destruct (leg_side (mkV 0 (-1) 0) (mkV 0 1 0)) as [z2 E2]; [auto|].
  destruct (leg_side (mkV 0 1 0) (mkV 4 1 0)) as [z3 E3]; [auto|].
  cbn [finduced_loop legs wing_panel pV1 pV2 pV3 pV4 fleg_loop]. rewrite E1, E2, E3. eexists.
  unfold fvadd, fadd, fmul, vzero. cbn [vx vy vz]. ints. reflexivity.
Qed.
Lemma example_panel : exists o m fx, fpanel_loads rnd fsin fcos PIc eps [wing_panel] [3] straight one wing_panel 3 = Some (o, m) /\ p_f o = mkV fx 0 120.
Proof.
  destruct example_induced as [z E]. unfold fpanel_loads. cbn [combine]. change (pB wing_panel) with (mkV 0 0 0). rewrite E.
  eexists _, _, _. split; [reflexivity|]. cbn [p_f wing_panel pV2 pV3].
  unfold fvel_wind, fvel_rot, fdeg2rad, fcross, fvadd, fvsub, fadd, fsub, fmul.
  cbn [vx vy vz f_airspeed f_rho f_alpha f_beta f_P f_Q f_R straight one r_CG vzero]. ints. rewrite FS, FC. ints.
  rewrite <- !opp_IZR. cbn [Z.opp]. ints. reflexivity.
Qed.
Lemma example_run : exists o, fvlm_results rnd fsin fcos PIc eps [wing_panel] straight one [3] = Some o /\
  vz (fo_F o) = 120 /\ c_CL (fo_co o) = Some (rnd (120 / 200)).
Proof.
  unfold fvlm_results. cbn [combine fresults_loop]. destruct example_panel as (o & m & fx & E & F). rewrite E, F.
  eexists. split; [reflexivity|].
  unfold fvlm_coeffs, fdyn_pressure, fdeg2rad, fdot, fvadd, fadd, fsub, fmul, fdiv.
  cbn [fo_F fo_co c_CL vx vy vz f_airspeed f_rho f_alpha f_beta straight one r_area vzero]. ints. rewrite FS, FC.
  rewrite <- !opp_IZR. cbn [Z.opp]. ints. split; [reflexivity|].
  replace (0.5 * 2) with 1 by lra. rewrite (RI 1) by lia. ints. destruct (Req_EM_T 100 0); [lra|]. ints. destruct (Req_EM_T 200 0); [lra|]. reflexivity.
Qed.
End Ex.

Lemma example_double :
  let cosd x := double (cos x) in let sind x := double (sin x) in
  exists o, fvlm_results double sind cosd (double PI) (/ 1048576) [wing_panel] straight one [3] = Some o /\
    vz (fo_F o) = 120 /\ c_CL (fo_co o) = Some (double (120 / 200)).
Proof.
  apply (example_run u53 double (double PI) double_rounding double_int double_1eps double_eps).
  - apply (rnd_pos u53 double double_rounding). apply PI_RGT_0.
  - rewrite sin_0. apply (double_int 0). lia.
  - rewrite cos_0. apply (double_int 1). lia.
Qed.
