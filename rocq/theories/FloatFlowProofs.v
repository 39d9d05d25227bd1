(** Proofs about the flow around the wing computed in floating-point arithmetic (C118). *)
From Coq Require Import Reals ZArith Lra Lia Psatz List Arith.
From Flocq Require Import Core.
From Verif Require Import Vec PanelModel VlmModel VlmSpec GeomProofs VlmProofs VlmLaws VlmExample FloatModel FloatSolveModel FloatSpec FloatSolveSpec FloatFlowSpec FloatProofs FloatLatProofs FloatSolveProofs.
Import ListNotations.
Open Scope R_scope.

Lemma rsum_diff {A} (f h e : A -> R) l : (forall x, In x l -> Rabs (f x - h x) <= e x) ->
  Rabs (rsum (map f l) - rsum (map h l)) <= rsum (map e l).
Proof.
  induction l as [|x l IH]; intro H; cbn [map rsum fold_right].
  - rewrite Rminus_0_r, Rabs_R0. lra.
  - assert (I := IH (fun y Y => H y (or_intror Y))). assert (X := H x (or_introl eq_refl)). unfold rsum in *.
    match goal with |- Rabs (?a + ?b - (?c + ?d)) <= _ => replace (a + b - (c + d)) with ((a - c) + (b - d)) by ring; pose proof (Rabs_triang (a - c) (b - d)) end. lra.
Qed.
Lemma rsum_scale {A} k (f : A -> R) l : rsum (map (fun x => k * f x) l) = k * rsum (map f l).
Proof. induction l as [|x l IH]; cbn [map rsum fold_right]; [ring|]. unfold rsum in *. rewrite IH. ring. Qed.

Section P.
Variable u : R.
Variable rnd : R -> R.
Variables fsin fcos : R -> R.
Variable PIc : R.
Hypothesis RND : rounding u rnd.

Lemma pi_nonzero : pi_rounded u PIc -> PIc <> 0.
Proof. intros HP ->. unfold pi_rounded in HP. pose proof PI_RGT_0. pose proof (proj1 RND). rewrite Rminus_0_l, Rabs_Ropp, Rabs_right in HP by lra. nra. Qed.

(** ** No flow through the panels *)
Lemma row_near eps lat i row : pi_rounded u PIc -> 0 < eps -> amplified u eps < 1 -> (forall j, In j lat -> off_ends (pC i) j) ->
  all_some (fun j => let* dw := fleg_loop rnd PIc eps (pC i) (legs j) vzero in Some (fdot rnd dw (pN i))) lat = Some row ->
  Forall2 (fun j x => Rabs (x - vdot (hs eps (pC i) j) (pN i)) <= velocity_error u eps 11 * entry_size eps i j) lat row.
Proof.
  intros HP E W O H. apply all_some_spec in H. induction H as [|j x l r F R IH]; constructor; [|apply IH; intros; apply O; right; assumption].
  destruct (fleg_loop rnd PIc eps (pC i) (legs j) vzero) as [dw|] eqn:D; [|discriminate]. injection F as <-.
  destruct (entry_near u rnd PIc RND eps i j dw HP E W (O j (or_introl eq_refl)) D) as (V & HV & B). unfold hs. rewrite HV. exact B.
Qed.
Lemma row_sum eps i lat row (e : panel -> R) : Forall2 (fun j x => Rabs (x - vdot (hs eps (pC i) j) (pN i)) <= e j) lat row -> forall g,
  Rabs (rsum (map (fun p => fst p * snd p) (combine row g)) - vdot (induced eps (pC i) (combine lat g)) (pN i)) <= rsum (map (fun x => e (fst x) * Rabs (snd x)) (combine lat g)).
Proof.
  intros F g. rewrite induced_dot. revert g. induction F as [|j x l r H F IH]; intro g; cbn [combine map rsum fold_right].
  - rewrite Rminus_0_r, Rabs_R0. lra.
  - destruct g as [|y g]; cbn [combine map rsum fold_right fst snd]; [rewrite Rminus_0_r, Rabs_R0; lra|].
    assert (I := IH g). unfold rsum in *.
    match goal with |- Rabs (?a + ?b - (?c + ?d)) <= _ => replace (a + b - (c + d)) with ((a - c) + (b - d)) by ring; pose proof (Rabs_triang (a - c) (b - d)) end.
    assert (Rabs (x * y - vdot (hs eps (pC i) j) (pN i) * y) <= e j * Rabs y); [|lra].
    rewrite <- Rmult_minus_distr_r, Rabs_mult. apply Rmult_le_compat_r; [apply Rabs_pos|exact H].
Qed.

Lemma flow_near eps lat s r m g n i e : pi_rounded u PIc -> 0 < eps -> amplified u eps < 1 ->
  (forall i j, In i lat -> In j lat -> off_ends (pC i) j) -> length g = length lat -> fdownwash rnd PIc eps lat = Some m ->
  nth_error lat n = Some i -> residual m (fboundary rnd fsin fcos PIc lat s r) g n e ->
  let a := fdeg2rad rnd PIc (f_alpha s) in let b := fdeg2rad rnd PIc (f_beta s) in
  let w := stream (f_airspeed s) (fsin a) (fcos a) (fsin b) (fcos b) in
  exists v, is_induced eps lat g (pC i) v /\
    Rabs (vdot (vadd v (onset_in w s r (pC i))) (pN i)) <= e + velocity_error u eps 11 * through_size eps lat g i + ((1 + u) ^ 7 - 1) * onset_size w s r i.
Proof.
  intros HP E W O L D I (row & x & R1 & R2 & ->) a b w. assert (II := nth_error_In _ _ I).
  exists (induced eps (pC i) (combine lat g)). split.
  { apply is_induced_ok; [exact L|]. intros [j y] J. apply in_combine_l in J. cbn [fst]. unfold hs.
    destruct (horseshoe_regular eps (pC i) j E (O i j II J)) as [v ->]. reflexivity. }
  unfold fdownwash in D. destruct (all_some_nth _ _ _ D n i I) as (row' & Q1 & Q2). rewrite R1 in Q1. injection Q1 as <-.
  assert (S := row_sum eps i lat row _ (row_near eps lat i row HP E W (fun j J => O i j II J) Q2) g). cbn beta in S.
  assert (B := boundary_near u rnd fsin fcos PIc RND lat s r). cbn zeta in B. fold a b in B. fold w in B.
  assert (BI : close u 7 x (onset_normal w s r i) (onset_size w s r i)).
  { clear - B I R2. revert n I R2. induction B as [|j y l l' C F IH]; intros [|n] I R2; try discriminate; [|exact (IH n I R2)]. injection I as ->. injection R2 as ->. exact C. }
  unfold close, onset_normal in BI. fold (onset_in w s r (pC i)) in BI.
  set (V := induced _ _ _) in *. set (T := rsum (map (fun p => fst p * snd p) _)) in *.
  assert (Q : rsum (map (fun x0 => velocity_error u eps 11 * entry_size eps i (fst x0) * Rabs (snd x0)) (combine lat g)) = velocity_error u eps 11 * through_size eps lat g i).
  { unfold through_size. rewrite <- rsum_scale. f_equal. apply map_ext. intro y. ring. }
  rewrite Q in S. clear Q. set (q := velocity_error u eps 11 * _) in *.
  replace (vdot (vadd V (onset_in w s r (pC i))) (pN i)) with ((T - x) - (T - vdot V (pN i)) + (x - - vdot (onset_in w s r (pC i)) (pN i))) by (unfold vdot, vadd; cbn [vx vy vz]; ring).
  eapply Rle_trans; [apply Rabs_triang|]. apply Rplus_le_compat; [|exact BI]. eapply Rle_trans; [apply Rabs_triang|]. rewrite Rabs_Ropp. lra.
Qed.

(** ** Induced velocities *)
Lemma shoe_near eps p j dw : pi_rounded u PIc -> 0 < eps -> amplified u eps < 1 -> off_ends p j -> fleg_loop rnd PIc eps p (legs j) vzero = Some dw ->
  vae ((1 + u) ^ 8 / gain u eps) dw (hs eps p j) (shoe_size eps p j).
Proof.
  intros HP E W (O1 & O2 & O3 & O4) H. pose proof (proj1 RND) as U.
  unfold legs in H. cbn [fleg_loop] in H.
  destruct (fleg_velocity rnd PIc eps p (pV1 j) (pV2 j)) as [v1|] eqn:E1; [|discriminate].
  destruct (fleg_velocity rnd PIc eps p (pV2 j) (pV3 j)) as [v2|] eqn:E2; [|discriminate].
  destruct (fleg_velocity rnd PIc eps p (pV3 j) (pV4 j)) as [v3|] eqn:E3; [|discriminate]. injection H as <-.
  apply (leg_accurate u rnd PIc RND eps) in E1; try assumption. apply (leg_accurate u rnd PIc RND eps) in E2; try assumption. apply (leg_accurate u rnd PIc RND eps) in E3; try assumption.
  set (G := (1 + u) ^ 5 / gain u eps) in *. assert (G1 : 1 <= G) by exact (gain_k u rnd RND eps 5 E W).
  assert (G2 : 1 <= G * (1 + u)) by nra. assert (G3 : 1 <= G * (1 + u) * (1 + u)) by nra.
  assert (S1 := vae_fadd u rnd RND G _ _ _ _ _ _ G1 (vae_zero G) E1).
  assert (S2 := vae_fadd u rnd RND _ _ _ _ _ _ _ G2 S1 (vae_mono G (G * (1 + u)) _ _ _ ltac:(nra) E2)).
  assert (S3 := vae_fadd u rnd RND _ _ _ _ _ _ _ G3 S2 (vae_mono G (G * (1 + u) * (1 + u)) _ _ _ ltac:(nra) E3)).
  replace ((1 + u) ^ 8 / gain u eps) with (G * (1 + u) * (1 + u) * (1 + u)) by (unfold G, Rdiv; ring).
  replace (hs eps p j) with (vadd (vadd (vadd vzero (leg_val eps p (pV1 j) (pV2 j))) (leg_val eps p (pV2 j) (pV3 j))) (leg_val eps p (pV3 j) (pV4 j)))
    by (unfold hs; rewrite horseshoe_eq, !leg_regular by assumption; rewrite vadd_zero_l; reflexivity).
  replace (shoe_size eps p j) with (vadd (vadd (vadd vzero (leg_size eps p (pV1 j) (pV2 j))) (leg_size eps p (pV2 j) (pV3 j))) (leg_size eps p (pV3 j) (pV4 j))); [exact S3|].
  unfold shoe_size, legs. cbn [map fst snd vsum fold_right]. apply vec_eq; unfold vadd, vzero; cbn [vx vy vz]; ring.
Qed.

Lemma loop_near eps p : pi_rounded u PIc -> 0 < eps -> amplified u eps < 1 -> forall l H iw V m v, (forall x, In x l -> off_ends p (fst x)) ->
  (1 + u) ^ 9 / gain u eps <= H -> vae H iw V m -> finduced_loop rnd PIc eps p l iw = Some v ->
  vae (H * (1 + u) ^ length l) v (vadd V (induced eps p l)) (vadd m (vsum (map (fun x => vscale (Rabs (snd x)) (shoe_size eps p (fst x))) l))).
Proof.
  intros HP E W. pose proof (proj1 RND) as U. induction l as [|[j g] l IH]; intros H iw V m v O GH A F; cbn [finduced_loop] in F.
  - injection F as <-. unfold induced. cbn [map vsum fold_right length pow]. rewrite !vadd_zero_r, Rmult_1_r. exact A.
  - destruct (fleg_loop rnd PIc eps p (legs j) vzero) as [dw|] eqn:D; [|discriminate].
    assert (S := shoe_near eps p j dw HP E W (O (j, g) (or_introl eq_refl)) D). assert (G8 := gain_k u rnd RND eps 8 E W). assert (G9 := gain_k u rnd RND eps 9 E W).
    assert (T : vae H (mkV (fmul rnd (vx dw) g) (fmul rnd (vy dw) g) (fmul rnd (vz dw) g)) (vscale g (hs eps p j)) (vscale (Rabs g) (shoe_size eps p j))).
    { destruct S as (X & Y & Z).
      assert (K : forall x X m, ae ((1 + u) ^ 8 / gain u eps) x X m -> ae H (fmul rnd x g) (g * X) (Rabs g * m)).
      { intros x0 X0 m0 Q. apply (ae_mono ((1 + u) ^ 8 / gain u eps * (1 + u))); [replace ((1 + u) ^ 8 / gain u eps * (1 + u)) with ((1 + u) ^ 9 / gain u eps) by (unfold Rdiv; ring); exact GH|].
        rewrite (Rmult_comm g), (Rmult_comm (Rabs g)). apply (ae_rnd u rnd RND); [exact G8|]. apply ae_mul. exact Q. }
      split; [|split]; cbn [vscale vx vy vz]; apply K; assumption. }
    assert (N := vae_fadd u rnd RND H _ _ _ _ _ _ (Rle_trans _ _ _ G9 GH) A T).
    assert (R := IH (H * (1 + u)) _ _ _ v (fun x X => O x (or_intror X)) ltac:(nra) N F).
    cbn [length pow]. rewrite <- Rmult_assoc. unfold induced. cbn [map vsum fold_right fst snd].
    replace (vadd V (vadd (vscale g (hs eps p j)) (fold_right vadd vzero (map (fun x => vscale (snd x) (hs eps p (fst x))) l)))) with (vadd (vadd V (vscale g (hs eps p j))) (induced eps p l))
      by (unfold induced, vsum; apply vec_eq; unfold vadd; cbn [vx vy vz]; ring).
    match goal with |- vae _ _ _ (vadd m (vadd ?a ?b)) => replace (vadd m (vadd a b)) with (vadd (vadd m a) b) by (apply vec_eq; unfold vadd; cbn [vx vy vz]; ring) end.
    exact R.
Qed.

Lemma induced_near eps lat s r gamma o : pi_rounded u PIc -> 0 < eps -> amplified u eps < 1 ->
  (forall i j, In i lat -> In j lat -> off_ends (pB i) j) -> length gamma = length lat -> fvlm_results rnd fsin fcos PIc eps lat s r gamma = Some o ->
  Forall2 (fun i p => exists v, is_induced eps lat gamma (pB i) v /\ vnear (velocity_error u eps (9 + length lat)) (p_iw p) v (induced_size eps lat gamma (pB i))) lat (fo_panels o).
Proof.
  intros HP E W O L H. assert (P := panels_ok rnd fsin fcos PIc eps lat s r gamma o H).
  assert (F : Forall2 (fun ig p => In (fst ig) lat /\ exists m, fpanel_loads rnd fsin fcos PIc eps lat gamma s r (fst ig) (snd ig) = Some (p, m)) (combine lat gamma) (fo_panels o)).
  { assert (A : forall x, In x (combine lat gamma) -> In (fst x) lat) by (intros [i g] X; exact (in_combine_l _ _ _ _ X)).
    induction P as [|x p l l' Q P IH]; constructor; [split; [apply A; left; reflexivity|exact Q]|]. apply IH. intros y Y. apply A. right. exact Y. }
  clear P H. assert (G : Forall2 (fun ig p => exists v, is_induced eps lat gamma (pB (fst ig)) v /\ vnear (velocity_error u eps (9 + length lat)) (p_iw p) v (induced_size eps lat gamma (pB (fst ig)))) (combine lat gamma) (fo_panels o)).
  { eapply Forall2_impl'; [|exact F]. intros [i g] p (I & m & Q). cbn [fst snd] in *. unfold fpanel_loads in Q.
    destruct (finduced_loop rnd PIc eps (pB i) (combine lat gamma) vzero) as [iw|] eqn:D; [|discriminate]. injection Q as <- _. cbn [p_iw].
    exists (induced eps (pB i) (combine lat gamma)). split.
    - apply is_induced_ok; [exact L|]. intros [j y] J. apply in_combine_l in J. cbn [fst]. unfold hs.
      destruct (horseshoe_regular eps (pB i) j E (O i j I J)) as [v ->]. reflexivity.
    - assert (N := loop_near eps (pB i) HP E W (combine lat gamma) _ vzero vzero vzero iw
        ltac:(intros [j y] J; apply in_combine_l in J; exact (O i j I J)) (Rle_refl _) (vae_zero _) D).
      apply vae_near in N. rewrite !vadd_zero_l in N. rewrite combine_length, L, Nat.min_id in N.
      unfold velocity_error. fold (gain u eps). rewrite pow_add.
      replace ((1 + u) ^ 9 * (1 + u) ^ length lat / gain u eps) with ((1 + u) ^ 9 / gain u eps * (1 + u) ^ length lat) by (unfold Rdiv; ring). exact N. }
  clear F. assert (LL : length lat = length gamma) by (symmetry; exact L). revert G LL. clear L. generalize (fo_panels o) as ps.
  set (Q := fun i p => exists v, is_induced eps lat gamma (pB i) v /\ vnear (velocity_error u eps (9 + length lat)) (p_iw p) v (induced_size eps lat gamma (pB i))).
  change (forall ps, Forall2 (fun ig p => Q (fst ig) p) (combine lat gamma) ps -> length lat = length gamma -> Forall2 Q lat ps).
  clearbody Q. clear. revert gamma. induction lat as [|i lat IH]; intros [|g gamma] ps F L; try discriminate; inversion F; subst; constructor; [assumption|]. eapply IH; [eassumption|]. injection L as L. exact L.
Qed.

(** ** The free stream *)
Lemma sin_lip x y : Rabs (sin x - sin y) <= Rabs (x - y).
Proof.
  destruct (MVT_abs sin cos y x) as (c & H & _); [intros z _; apply derivable_pt_lim_sin|]. rewrite H.
  assert (Rabs (cos c) <= 1) by (pose proof (COS_bound c); apply Rabs_le; lra). pose proof (Rabs_pos (x - y)). nra.
Qed.
Lemma cos_lip x y : Rabs (cos x - cos y) <= Rabs (x - y).
Proof.
  destruct (MVT_abs cos (fun z => - sin z) y x) as (c & H & _); [intros z _; apply derivable_pt_lim_cos|]. rewrite H, Rabs_Ropp.
  assert (Rabs (sin c) <= 1) by (pose proof (SIN_bound c); apply Rabs_le; lra). pose proof (Rabs_pos (x - y)). nra.
Qed.
Lemma deg_near deg : pi_rounded u PIc -> Rabs (fdeg2rad rnd PIc deg - rad deg) <= ((1 + u) ^ 3 - 1) * Rabs (rad deg).
Proof.
  intro HP. pose proof (proj1 RND) as U. pose proof PI_RGT_0.
  assert (A : approx u 1 (PIc / 180) (PI / 180) (PI / 180)).
  { split; [|rewrite Rabs_right by lra; lra]. replace (PIc / 180 - PI / 180) with ((PIc - PI) / 180) by field. unfold Rdiv at 1. rewrite Rabs_mult, (Rabs_right (/ 180)) by lra.
    unfold pi_rounded in HP. cbn [pow]. lra. }
  assert (B := ap_fmul u rnd RND 0 2 _ _ _ _ _ _ (ap_exact u deg) (ap_rnd u rnd RND 1 _ _ _ A)). cbn [Nat.add] in B.
  apply ap_close in B. unfold close in B. unfold fdeg2rad, rad. eapply Rle_trans; [|eapply Rle_trans; [exact B|]].
  - apply Req_le. f_equal. f_equal. field.
  - apply Req_le. f_equal. unfold Rdiv. rewrite Rmult_assoc, Rabs_mult, (Rabs_right (PI * / 180)); lra.
Qed.
Lemma sine_near deg : libm u fsin fcos -> pi_rounded u PIc ->
  Rabs (fsin (fdeg2rad rnd PIc deg) - sin (rad deg)) <= angle_error u deg /\ Rabs (fcos (fdeg2rad rnd PIc deg) - cos (rad deg)) <= angle_error u deg.
Proof.
  intros LM HP. set (x := fdeg2rad rnd PIc deg). assert (D := deg_near deg HP : Rabs (x - rad deg) <= _). clearbody x. destruct (LM x) as [A B]. unfold angle_error. pose proof (proj1 RND).
  assert (S1 : Rabs (sin x) <= 1) by (pose proof (SIN_bound x); apply Rabs_le; lra). assert (C1 : Rabs (cos x) <= 1) by (pose proof (COS_bound x); apply Rabs_le; lra).
  pose proof (sin_lip x (rad deg)). pose proof (cos_lip x (rad deg)). split.
  - replace (fsin x - sin (rad deg)) with ((fsin x - sin x) + (sin x - sin (rad deg))) by ring. eapply Rle_trans; [apply Rabs_triang|]. nra.
  - replace (fcos x - cos (rad deg)) with ((fcos x - cos x) + (cos x - cos (rad deg))) by ring. eapply Rle_trans; [apply Rabs_triang|]. nra.
Qed.
Lemma stream_near s : libm u fsin fcos -> pi_rounded u PIc ->
  let a := fdeg2rad rnd PIc (f_alpha s) in let b := fdeg2rad rnd PIc (f_beta s) in
  let w := stream (f_airspeed s) (fsin a) (fcos a) (fsin b) (fcos b) in
  let ea := angle_error u (f_alpha s) in let eb := angle_error u (f_beta s) in
  vnear (Rabs (f_airspeed s)) w (wind s) (mkV (ea + eb + ea * eb) eb (ea + eb + ea * eb)).
Proof.
  intros LM HP a b w ea eb. destruct (sine_near (f_alpha s) LM HP) as [SA CA]. destruct (sine_near (f_beta s) LM HP) as [SB CB].
  fold a in SA, CA. fold b in SB, CB. fold ea in SA, CA. fold eb in SB, CB.
  assert (M : forall x X y Y, Rabs X <= 1 -> Rabs Y <= 1 -> Rabs (x - X) <= ea -> Rabs (y - Y) <= eb -> Rabs (f_airspeed s * (x * y) - f_airspeed s * (X * Y)) <= Rabs (f_airspeed s) * (ea + eb + ea * eb)).
  { intros x X y Y HX HY DX DY. rewrite <- Rmult_minus_distr_l, Rabs_mult. apply Rmult_le_compat_l; [apply Rabs_pos|].
    replace (x * y - X * Y) with ((x - X) * Y + X * (y - Y) + (x - X) * (y - Y)) by ring.
    eapply Rle_trans; [apply Rabs_triang|]. apply Rplus_le_compat.
    - eapply Rle_trans; [apply Rabs_triang|]. rewrite !Rabs_mult. pose proof (Rabs_pos (x - X)). pose proof (Rabs_pos (y - Y)). pose proof (Rabs_pos X). pose proof (Rabs_pos Y). nra.
    - rewrite Rabs_mult. apply Rmult_le_compat; try apply Rabs_pos; assumption. }
  assert (S1 : forall x, Rabs (sin x) <= 1) by (intro x; pose proof (SIN_bound x); apply Rabs_le; lra). assert (C1 : forall x, Rabs (cos x) <= 1) by (intro x; pose proof (COS_bound x); apply Rabs_le; lra).
  unfold vnear, w, stream, wind, vscale. cbn [vx vy vz]. split; [|split].
  - apply M; auto.
  - replace (- (f_airspeed s * fsin b) - f_airspeed s * - sin (rad (f_beta s))) with (- (f_airspeed s * (fsin b - sin (rad (f_beta s))))) by ring.
    rewrite Rabs_Ropp, Rabs_mult. apply Rmult_le_compat_l; [apply Rabs_pos|exact SB].
  - apply M; auto.
Qed.

(** ** Circulations *)
Lemma vdot_size v V m e N : vnear e v V m -> Rabs (vdot (vsub v V) N) <= e * vdot m (vabs N).
Proof.
  intros (A & B & C). unfold vdot, vsub, vabs. cbn [vx vy vz].
  eapply Rle_trans; [apply Rabs_triang|]. eapply Rle_trans; [apply Rplus_le_compat_r; apply Rabs_triang|]. rewrite !Rabs_mult.
  assert (X : Rabs (vx v - vx V) * Rabs (vx N) <= e * vx m * Rabs (vx N)) by (apply Rmult_le_compat_r; [apply Rabs_pos|exact A]).
  assert (Y : Rabs (vy v - vy V) * Rabs (vy N) <= e * vy m * Rabs (vy N)) by (apply Rmult_le_compat_r; [apply Rabs_pos|exact B]).
  assert (Z : Rabs (vz v - vz V) * Rabs (vz N) <= e * vz m * Rabs (vz N)) by (apply Rmult_le_compat_r; [apply Rabs_pos|exact C]). lra.
Qed.
Lemma induced_diff eps p : forall lat g g' v v', length g = length lat -> length g' = length lat -> is_induced eps lat g p v -> is_induced eps lat g' p v' ->
  is_induced eps lat (map (fun x => fst x - snd x) (combine g g')) p (vsub v v').
Proof.
  intros lat g g' v v' L L' (us & F & ->) (us' & F' & ->). exists us. split; [exact F|].
  assert (us' = us) as ->. { clear - F F'. revert us' F'. induction F as [|j x l us E F IH]; intros us' F'; inversion F'; subst; [reflexivity|]. f_equal; [congruence|apply IH; assumption]. }
  clear F'. revert g g' L L'. induction F as [|j x l us E F IH]; intros [|y g] [|y' g'] L L'; try discriminate.
  - apply vec_eq; cbn; ring.
  - cbn [combine map vsum fold_right fst snd]. injection L as L. injection L' as L'. specialize (IH g g' L L'). unfold vsum in IH.
    rewrite <- IH. apply vec_eq; unfold vsub, vadd, vscale; cbn [vx vy vz]; ring.
Qed.
Lemma circulations_near eps lat s r m M g gamma c K : pi_rounded u PIc -> libm u fsin fcos -> 0 < eps -> amplified u eps < 1 ->
  (forall i j, In i lat -> In j lat -> off_ends (pC i) j) -> conditioned eps lat c -> length g = length lat ->
  fdownwash rnd PIc eps lat = Some m -> downwash eps lat = Some M -> solves M (boundary lat s r) gamma ->
  let a := fdeg2rad rnd PIc (f_alpha s) in let b := fdeg2rad rnd PIc (f_beta s) in
  let w := stream (f_airspeed s) (fsin a) (fcos a) (fsin b) (fcos b) in
  (forall n i, nth_error lat n = Some i -> exists e, residual m (fboundary rnd fsin fcos PIc lat s r) g n e /\ flow_error u eps lat w s r g i e <= K) ->
  Forall2 (fun x y => Rabs (x - y) <= K / c) g gamma.
Proof.
  intros HP LM E W O [C0 C] L D DM S a b w H. apply (no_flow_through eps lat s r M gamma DM) in S. destruct S as [LG S].
  set (d := map (fun x => fst x - snd x) (combine g gamma)).
  assert (Q : forall y, In y d -> Rabs y <= K / c).
  { apply C; [unfold d; rewrite map_length, combine_length; lia|]. intros i I. destruct (In_nth_error _ _ I) as [n N].
    destruct (H n i N) as (e & R & B). destruct (flow_near eps lat s r m g n i e HP E W O L D N R) as (v & V & F). destruct (S i I) as (v' & V' & Z).
    fold a b in F. fold w in F. exists (vsub v v'). split; [apply induced_diff; assumption|].
    assert (T := vdot_size w (wind s) _ _ (pN i) (stream_near s LM HP)). unfold flow_error in B. cbn zeta in B, T. fold a b in T. fold w in T.
    set (t := Rabs (f_airspeed s) * _) in *.
    replace (vdot (vsub v v') (pN i)) with (vdot (vadd v (onset_in w s r (pC i))) (pN i) - vdot (vadd v' (onset s (r_CG r) (pC i))) (pN i) - vdot (vsub w (wind s)) (pN i))
      by (unfold onset_in, onset, omega, rates, vdot, vsub, vadd; cbn [vx vy vz]; ring).
    rewrite Z, Rminus_0_r. eapply Rle_trans; [apply Rabs_triang|]. rewrite Rabs_Ropp. lra. }
  assert (LL : length g = length gamma) by congruence. clear - Q LL. unfold d in Q. clear d. revert gamma LL Q.
  induction g as [|x g IH]; intros [|y gamma] LL Q; try discriminate; constructor; [apply Q; left; reflexivity|].
  apply IH; [injection LL as LL; exact LL|]. intros z Z. apply Q. right. exact Z.
Qed.
End P.

(** ** Doubles *)
Lemma induced_double eps n : 1 / 1000000 <= eps < 1 -> INR n <= 10000000 -> velocity_error u53 eps (9 + n) <= 2 / 100000000.
Proof.
  intros E N. assert (W := amplified_double eps E). pose proof u53_small as U. pose proof (pos_INR n).
  assert (P : (1 + u53) ^ (9 + n) - 1 <= 2 * INR (9 + n) * u53) by (apply (bound u53 double double_rounding); rewrite plus_INR; replace (INR 9) with 9 by (cbn; lra); nra).
  rewrite plus_INR in P. replace (INR 9) with 9 in P by (cbn; lra). assert (P13 := pow_small 13 ltac:(lia)). replace (INR 13) with 13 in P13 by (cbn; lra).
  assert (Q13 := pw2 u53 double double_rounding 13). unfold velocity_error.
  assert (PN : (1 + u53) ^ (9 + n) <= 1 + 25 / 10000000000) by nra. clear P.
  set (a := (1 + u53) ^ (9 + n)) in *. set (b := (1 - u53) ^ 13) in *. set (w := amplified u53 eps) in *.
  assert (B : 1 - 26 * u53 <= b) by lra. assert (D : 0 < b * (1 - w)) by (apply Rmult_lt_0_compat; lra).
  assert (D' : (1 - 26 * u53) * (1 - 8 / 1000000000) <= b * (1 - w)) by (apply Rmult_le_compat; lra).
  enough (a / (b * (1 - w)) <= 1 + 2 / 100000000) by lra.
  apply (Rmult_le_reg_r (b * (1 - w))); [exact D|]. unfold Rdiv. rewrite Rmult_assoc, Rinv_l by lra. rewrite Rmult_1_r.
  apply Rle_trans with ((1 + 2 / 100000000) * ((1 - 26 * u53) * (1 - 8 / 1000000000))); [|apply Rmult_le_compat_l; lra]. lra.
Qed.
Lemma onset_double : (1 + u53) ^ 7 - 1 <= 2 / 1000000000000000.
Proof. pose proof u53_small. assert (P := pow_small 7 ltac:(lia)). replace (INR 7) with 7 in P by (cbn; lra). lra. Qed.
Lemma angle_double deg : Rabs deg <= 90 -> angle_error u53 deg <= 2 / 1000000000000000.
Proof.
  intro D. pose proof u53_small. assert (P := pow_small 3 ltac:(lia)). replace (INR 3) with 3 in P by (cbn; lra). pose proof PI_RGT_0. pose proof PI_4.
  unfold angle_error, rad. assert (R : Rabs (deg * PI / 180) <= 2).
  { unfold Rdiv. rewrite Rmult_assoc, Rabs_mult, (Rabs_right (PI * / 180)) by lra. pose proof (Rabs_pos deg). apply Rle_trans with (90 * (4 * / 180)); [apply Rmult_le_compat; lra|lra]. }
  pose proof (Rabs_pos (deg * PI / 180)). assert (L : 0 <= (1 + u53) ^ 3 - 1) by (pose proof (pw1 u53 double double_rounding 3); lra).
  assert (((1 + u53) ^ 3 - 1) * Rabs (deg * PI / 180) <= ((1 + u53) ^ 3 - 1) * 2) by (apply Rmult_le_compat_l; assumption). lra.
Qed.
Lemma lat1_flow lat s r : regular lat -> exists m, fdownwash double (double PI) (1 / 1000000) lat = Some m /\
  forall g n i, nth_error lat n = Some i -> exists e, residual m (fboundary double sin cos (double PI) lat s r) g n e.
Proof.
  intro G. assert (S := amplified_survives u53 double double_rounding (1 / 1000000) ltac:(lra) (small_amplified _ default_epsilon)).
  destruct (matrix_finite u53 double (double PI) double_rounding (1 / 1000000) lat S (pi_nonzero u53 double (double PI) double_rounding double_pi) (fun i j I J => proj1 (G i j I J))) as [m M].
  exists m. split; [exact M|]. intros g n i I. unfold fdownwash in M. destruct (all_some_nth _ _ _ M n i I) as (row & R1 & _).
  eexists. exists row. unfold fboundary. eexists. split; [exact R1|]. rewrite nth_error_map, I. cbn [option_map]. split; reflexivity.
Qed.
Lemma libm_exact u : 0 <= u -> libm u sin cos.
Proof. intros U x. rewrite !Rminus_diag_eq, !Rabs_R0 by reflexivity. pose proof (Rabs_pos (sin x)). pose proof (Rabs_pos (cos x)). split; apply Rmult_le_pos; assumption. Qed.
Lemma exact_libm : libm u53 sin cos.
Proof. apply libm_exact. pose proof u53_small. lra. Qed.
Lemma lat1_conditioned eps : 0 < eps -> exists c, conditioned eps lat1 c.
Proof.
  intro E. destruct (lat1_downwash eps E) as (a & D & A). assert (A0 : 0 < Rabs a) by (apply Rabs_pos_lt; lra). exists (Rabs a). split; [exact A0|].
  intros x K L H y Y. destruct x as [|x [|? ?]]; try discriminate. destruct Y as [->|[]]. destruct (H pan1 (or_introl eq_refl)) as (v & (us & F & ->) & B).
  inversion F as [|j w l l' HS F' EQ1 EQ2]; subst. inversion F'; subst. unfold downwash, lat1 in D. cbn [all_some] in D. rewrite HS in D. injection D as D.
  apply (Rmult_le_reg_r (Rabs a)); [exact A0|]. unfold Rdiv. rewrite Rmult_assoc, Rinv_l, Rmult_1_r, <- Rabs_mult by lra. eapply Rle_trans; [|exact B]. apply Req_le. f_equal.
  rewrite <- D. cbn [combine map fst snd]. unfold vsum. cbn [fold_right]. unfold pan1, vdot, vadd, vscale, vzero. cbn [vx vy vz pN]. ring.
Qed.
Lemma default_positive : 0 < 1 / 1000000. Proof. lra. Qed.
