(** Rounding to 53 bits: nearest and accurate; division of a segment with rounded arithmetic. *)
From Coq Require Import List String ZArith QArith Qabs Qround Qpower Bool Arith Lia Lqa.
From Verif Require Import PyBase PyFacts StripModel StripSpec StripSpan PrePanelModel LineProofs RoundModel RoundSpec RoundSpan.
Import ListNotations.
Open Scope Q_scope.

(** ** Powers of two *)
Lemma two_neq : ~ 2 == 0.
Proof. discriminate. Qed.
Lemma pow_Z k : (0 <= k)%Z -> inject_Z (2 ^ k) == 2 ^ k.
Proof. intros L. exact (Zpower_Qpower 2 k L). Qed.
Lemma pow2_Qpower k : pow2 k == 2 ^ k.
Proof.
  unfold pow2. destruct (Z.leb_spec 0 k) as [L|L].
  - apply pow_Z. exact L.
  - rewrite pow_Z by lia. rewrite Qpower_opp.
    assert (0 < 2 ^ k) by (apply Qpower_0_lt; reflexivity). field. lra.
Qed.
Lemma pow_pos_lt k : 0 < 2 ^ k.
Proof. apply Qpower_0_lt. reflexivity. Qed.
Lemma pow_add a b : 2 ^ (a + b) == 2 ^ a * 2 ^ b.
Proof. apply Qpower_plus. exact two_neq. Qed.
Lemma pow_cancel k : 2 ^ k * 2 ^ (- k) == 1.
Proof. rewrite <- pow_add, Z.add_opp_diag_r. reflexivity. Qed.

(** ** Nearest integer *)
Lemma floor_bounds q : inject_Z (Qfloor q) <= q /\ q < inject_Z (Qfloor q) + 1.
Proof. split; [apply Qfloor_le|]. pose proof (Qround.Qlt_floor q) as H. rewrite inject_Z_plus in H. exact H. Qed.
Lemma round_even_half q : Qabs (inject_Z (round_even q) - q) <= 1 # 2.
Proof.
  unfold round_even. pose proof (floor_bounds q) as [A B]. set (m := Qfloor q) in *. apply Qabs_Qle_condition.
  destruct (Qcompare_spec (q - inject_Z m) (1 # 2)) as [E|E|E].
  - destruct (Z.even m); [lra|rewrite inject_Z_plus; change (inject_Z 1) with 1; lra].
  - lra.
  - rewrite inject_Z_plus; change (inject_Z 1) with 1; lra.
Qed.
Lemma round_even_nearest q (z : Z) : Qabs (inject_Z (round_even q) - q) <= Qabs (inject_Z z - q).
Proof.
  pose proof (floor_bounds q) as [A B]. set (m := Qfloor q) in *.
  assert (R : Qabs (inject_Z (round_even q) - q) <= q - inject_Z m /\ Qabs (inject_Z (round_even q) - q) <= inject_Z m + 1 - q).
  { unfold round_even. fold m. split; apply Qabs_Qle_condition;
      destruct (Qcompare_spec (q - inject_Z m) (1 # 2)) as [E|E|E];
      try destruct (Z.even m); try (rewrite inject_Z_plus; change (inject_Z 1) with 1); lra. }
  destruct R as [R1 R2]. destruct (Z_le_gt_dec z m) as [L|L].
  - assert (inject_Z z <= inject_Z m) by (rewrite <- Zle_Qle; exact L).
    rewrite (Qabs_neg (inject_Z z - q)) by lra. lra.
  - assert (inject_Z (m + 1) <= inject_Z z) as H by (rewrite <- Zle_Qle; lia).
    rewrite inject_Z_plus in H. change (inject_Z 1) with 1 in H. rewrite (Qabs_pos (inject_Z z - q)) by lra. lra.
Qed.

(** ** The scale *)
Lemma log2_Q (n : Z) : (0 < n)%Z -> 2 ^ (Z.log2 n) <= inject_Z n /\ inject_Z n < 2 * 2 ^ (Z.log2 n).
Proof.
  intros P. destruct (Z.log2_spec n P) as [A B]. pose proof (Z.log2_nonneg n) as L. split.
  - rewrite <- pow_Z by exact L. rewrite <- Zle_Qle. exact A.
  - rewrite <- pow_Z by exact L. change 2 with (inject_Z 2). rewrite <- inject_Z_mult, <- Zlt_Qlt.
    rewrite Z.pow_succ_r in B by exact L. exact B.
Qed.
Lemma scale_bounds q : 0 < q -> 2 ^ 52 <= q * 2 ^ (scale q) /\ q * 2 ^ (scale q) < 2 ^ 53.
Proof.
  intros P. unfold scale. set (k := (52 - (Z.log2 (Qnum q) - Z.log2 (Zpos (Qden q))))%Z).
  assert (N : (0 < Qnum q)%Z) by (unfold Qlt in P; cbn in P; lia).
  destruct (log2_Q (Qnum q) N) as [N1 N2]. destruct (log2_Q (Zpos (Qden q)) ltac:(lia)) as [D1 D2].
  set (a := Z.log2 (Qnum q)) in *. set (b := Z.log2 (Zpos (Qden q))) in *.
  assert (E : q * inject_Z (Zpos (Qden q)) == inject_Z (Qnum q)).
  { destruct q as [n d]. unfold Qeq. cbn. lia. }
  pose proof (pow_pos_lt a) as Pa. pose proof (pow_pos_lt b) as Pb. pose proof (pow_pos_lt k) as Pk.
  assert (K : 2 ^ k * 2 ^ a == 2 ^ 52 * 2 ^ b) by (rewrite <- !pow_add; unfold k; replace (52 - (a - b) + a)%Z with (52 + b)%Z by lia; reflexivity).
  assert (U : q * 2 ^ k < 2 ^ 53).
  { apply (Qmult_lt_r _ _ (2 ^ b)); [exact Pb|]. apply Qle_lt_trans with (inject_Z (Qnum q) * 2 ^ k).
    - rewrite <- E.
      setoid_replace (q * inject_Z (Zpos (Qden q)) * 2 ^ k) with (q * 2 ^ k * inject_Z (Zpos (Qden q))) by ring.
      apply Qmult_le_l; [apply Qmult_lt_0_compat; assumption|exact D1].
    - apply Qlt_le_trans with (2 * 2 ^ a * 2 ^ k).
      + apply Qmult_lt_r; [exact Pk|exact N2].
      + setoid_replace (2 * 2 ^ a * 2 ^ k) with (2 * (2 ^ k * 2 ^ a)) by ring. rewrite K.
        setoid_replace (2 ^ 53) with (2 * 2 ^ 52) by reflexivity. ring_simplify. apply Qle_refl. }
  assert (W : 2 ^ 52 < 2 * (q * 2 ^ k)).
  { apply (Qmult_lt_r _ _ (2 * 2 ^ b)); [lra|].
    apply Qlt_le_trans with (2 * (q * 2 ^ k) * (2 * 2 ^ b)); [|apply Qle_refl].
    apply Qle_lt_trans with (2 * (inject_Z (Qnum q) * 2 ^ k)).
    - setoid_replace (2 ^ 52 * (2 * 2 ^ b)) with (2 * (2 ^ 52 * 2 ^ b)) by ring. rewrite <- K.
      apply Qmult_le_l; [reflexivity|]. setoid_replace (2 ^ k * 2 ^ a) with (2 ^ a * 2 ^ k) by ring.
      apply Qmult_le_r; [exact Pk|exact N1].
    - rewrite <- E. setoid_replace (2 * (q * inject_Z (Zpos (Qden q)) * 2 ^ k)) with (2 * (q * 2 ^ k) * inject_Z (Zpos (Qden q))) by ring.
      apply Qmult_lt_l; [|exact D2]. apply Qmult_lt_0_compat; [reflexivity|apply Qmult_lt_0_compat; assumption]. }
  destruct (Qleb (inject_Z (2 ^ 52)) (q * pow2 k)) eqn:B; qbool; rewrite pow2_Qpower in B; change (inject_Z (2 ^ 52)) with (2 ^ 52) in B.
  - split; assumption.
  - rewrite pow_add. change (2 ^ 1) with 2. setoid_replace (2 ^ 53) with (2 * 2 ^ 52) by reflexivity. split; lra.
Qed.

(** ** Nearest double *)
Lemma Qabs_scale x y k : Qabs (x - y) == Qabs (x * 2 ^ k - y * 2 ^ k) * 2 ^ (- k).
Proof.
  setoid_replace (x * 2 ^ k - y * 2 ^ k) with ((x - y) * 2 ^ k) by ring.
  rewrite Qabs_Qmult, (Qabs_pos (2 ^ k)) by (apply Qlt_le_weak, pow_pos_lt).
  rewrite <- Qmult_assoc, pow_cancel. ring.
Qed.
Lemma rnd_pos_value q : rnd_pos q == inject_Z (round_even (q * pow2 (scale q))) * 2 ^ (- scale q).
Proof. unfold rnd_pos. cbv zeta. rewrite Qred_correct, (pow2_Qpower (- scale q)). reflexivity. Qed.
Lemma rnd_pos_scaled q : rnd_pos q * 2 ^ (scale q) == inject_Z (round_even (q * pow2 (scale q))).
Proof.
  rewrite rnd_pos_value, <- Qmult_assoc. setoid_replace (2 ^ (- scale q) * 2 ^ scale q) with (2 ^ scale q * 2 ^ (- scale q)) by ring.
  rewrite pow_cancel. ring.
Qed.
Lemma round_range q : 0 < q -> (2 ^ 52 <= round_even (q * pow2 (scale q)) <= 2 ^ 53)%Z.
Proof.
  intros P. destruct (scale_bounds q P) as [A B]. rewrite <- (pow2_Qpower (scale q)) in A, B. set (x := q * pow2 (scale q)) in *.
  pose proof (round_even_nearest x (2 ^ 52)) as N1. pose proof (round_even_nearest x (2 ^ 53)) as N2.
  change (inject_Z (2 ^ 52)) with (2 ^ 52) in N1. change (inject_Z (2 ^ 53)) with (2 ^ 53) in N2.
  rewrite (Qabs_neg (2 ^ 52 - x)) in N1 by lra. rewrite (Qabs_pos (2 ^ 53 - x)) in N2 by lra.
  apply Qabs_Qle_condition in N1. apply Qabs_Qle_condition in N2.
  split; rewrite Zle_Qle; [change (inject_Z (2 ^ 52)) with (2 ^ 52)|change (inject_Z (2 ^ 53)) with (2 ^ 53)]; lra.
Qed.
Lemma rnd_pos_double q : 0 < q -> is_double (rnd_pos q).
Proof.
  intros P. exists (round_even (q * pow2 (scale q))), (- scale q)%Z. split; [pose proof (round_range q P); lia|apply rnd_pos_value].
Qed.
Lemma rnd_pos_nearest q z : 0 < q -> is_double z -> Qabs (rnd_pos q - q) <= Qabs (z - q).
Proof.
  intros P (m & e & M & Z). destruct (scale_bounds q P) as [A B].
  rewrite (Qabs_scale (rnd_pos q) q (scale q)), (Qabs_scale z q (scale q)).
  apply Qmult_le_compat_r; [|apply Qlt_le_weak, pow_pos_lt]. rewrite rnd_pos_scaled.
  setoid_replace (q * 2 ^ scale q) with (q * pow2 (scale q)) by (rewrite pow2_Qpower; reflexivity).
  rewrite <- (pow2_Qpower (scale q)) in A, B. set (x := q * pow2 (scale q)) in *.
  destruct (Z_le_gt_dec 0 (e + scale q)) as [L|L].
  - setoid_replace (z * 2 ^ scale q) with (inject_Z (m * 2 ^ (e + scale q))); [apply round_even_nearest|].
    rewrite inject_Z_mult, pow_Z by exact L. rewrite Z, pow_add. ring.
  - apply Qle_trans with (Qabs (inject_Z (2 ^ 52) - x)); [apply round_even_nearest|].
    change (inject_Z (2 ^ 52)) with (2 ^ 52). rewrite (Qabs_neg (2 ^ 52 - x)) by lra.
    assert (U : z * 2 ^ scale q <= 2 ^ 52).
    { setoid_replace (z * 2 ^ scale q) with (inject_Z m * 2 ^ (e + scale q)) by (rewrite Z, pow_add; ring).
      pose proof (pow_pos_lt (e + scale q)) as Pp.
      assert (Pl : 2 ^ (e + scale q) <= 1 # 2).
      { change (1 # 2) with (2 ^ (-1)). apply Qpower_le_compat_l; [lia|discriminate]. }
      apply Qle_trans with (2 ^ 53 * 2 ^ (e + scale q)).
      - apply Qmult_le_compat_r; [|lra]. change (2 ^ 53) with (inject_Z (2 ^ 53)). rewrite <- Zle_Qle. lia.
      - setoid_replace (2 ^ 52) with (2 ^ 53 * (1 # 2)) by reflexivity. apply Qmult_le_l; [reflexivity|exact Pl]. }
    rewrite (Qabs_neg (z * 2 ^ scale q - x)) by lra. lra.
Qed.
Lemma rnd_pos_accurate q : 0 < q -> Qabs (rnd_pos q - q) <= q * HALF_ULP.
Proof.
  intros P. destruct (scale_bounds q P) as [A B]. rewrite (Qabs_scale (rnd_pos q) q (scale q)), rnd_pos_scaled.
  setoid_replace (q * 2 ^ scale q) with (q * pow2 (scale q)) by (rewrite pow2_Qpower; reflexivity).
  pose proof (round_even_half (q * pow2 (scale q))) as H. pose proof (pow_pos_lt (- scale q)) as Pp.
  apply Qle_trans with ((1 # 2) * 2 ^ (- scale q)); [apply Qmult_le_compat_r; [exact H|lra]|].
  apply Qle_trans with (2 ^ 52 * 2 ^ (- scale q) * HALF_ULP).
  - setoid_replace (2 ^ 52 * 2 ^ (- scale q) * HALF_ULP) with ((2 ^ 52 * HALF_ULP) * 2 ^ (- scale q)) by ring.
    setoid_replace (2 ^ 52 * HALF_ULP) with (1 # 2) by reflexivity. apply Qle_refl.
  - apply Qmult_le_compat_r; [|discriminate]. apply Qle_trans with (q * 2 ^ scale q * 2 ^ (- scale q)).
    + apply Qmult_le_compat_r; [exact A|lra].
    + rewrite <- Qmult_assoc, pow_cancel. lra.
Qed.
Lemma is_double_opp z : is_double z -> is_double (- z).
Proof. intros (m & e & M & E). exists (- m)%Z, e. split; [lia|]. rewrite E, inject_Z_opp. ring. Qed.
Lemma rnd64_cases x : (x == 0 /\ rnd64 x = 0) \/ (0 < x /\ rnd64 x = rnd_pos x) \/ (0 < - x /\ rnd64 x = - rnd_pos (- x)).
Proof. unfold rnd64. destruct (Qcompare_spec x 0) as [E|E|E]; [left|right; right|right; left]; split; try reflexivity; lra. Qed.
Lemma rnd64_nearest x : nearest_double x (rnd64 x).
Proof.
  destruct (rnd64_cases x) as [[E ->]|[[P ->]|[P ->]]].
  - split; [exists 0%Z, 0%Z; split; [lia|reflexivity]|]. intros z _. rewrite E. change (Qabs (0 - 0)) with 0. apply Qabs_nonneg.
  - split; [apply rnd_pos_double, P|]. intros z Z. apply rnd_pos_nearest; assumption.
  - split; [apply is_double_opp, rnd_pos_double, P|]. intros z Z. pose proof (rnd_pos_nearest (- x) (- z) P (is_double_opp z Z)) as H.
    setoid_replace (- rnd_pos (- x) - x) with (- (rnd_pos (- x) - - x)) by ring. rewrite Qabs_opp.
    setoid_replace (z - x) with (- (- z - - x)) by ring. rewrite Qabs_opp. exact H.
Qed.
Lemma rnd64_accurate : accurate rnd64.
Proof.
  intros x. destruct (rnd64_cases x) as [[E ->]|[[P ->]|[P ->]]].
  - rewrite E. discriminate.
  - rewrite (Qabs_pos x) by lra. apply rnd_pos_accurate, P.
  - rewrite (Qabs_neg x) by lra. pose proof (rnd_pos_accurate (- x) P) as H.
    setoid_replace (- rnd_pos (- x) - x) with (- (rnd_pos (- x) - - x)) by ring. rewrite Qabs_opp. exact H.
Qed.

(** ** Dividing a segment *)
Section Division.
Variable rnd : Q -> Q.
Variable ip : Q * Q -> Q * Q -> Q -> res Q.
Hypothesis ACC : accurate rnd.

Lemma acc_pos x : 0 <= x -> x * (1 - HALF_ULP) <= rnd x /\ rnd x <= x * (1 + HALF_ULP).
Proof.
  intros P. pose proof (ACC x) as H. rewrite (Qabs_pos x P) in H. apply Qabs_Qle_condition in H.
  setoid_replace (x * (1 - HALF_ULP)) with (x - x * HALF_ULP) by ring. setoid_replace (x * (1 + HALF_ULP)) with (x + x * HALF_ULP) by ring. lra.
Qed.
Lemma acc_0 x : x == 0 -> rnd x == 0.
Proof. intros E. destruct (acc_pos x ltac:(lra)) as [A B]. rewrite E in A at 1. rewrite E in B at 2. lra. Qed.

Variable n : Z.
Hypothesis N1 : (1 <= n)%Z.
Hypothesis N99 : (n <= 99)%Z.

Let e (i : nat) : Q := fmul rnd (inject_Z (Z.of_nat i)) (fdiv rnd 1 (inject_Z n)).
Let x (i : nat) : Q := inject_Z (Z.of_nat i) / inject_Z n.
Let f (i : nat) : Q := match i with O => 0 | _ => e i end.

Lemma n_pos' : 0 < inject_Z n.
Proof. change 0 with (inject_Z 0). rewrite <- Zlt_Qlt. lia. Qed.
Lemma x_S i : x (S i) == x i + 1 / inject_Z n.
Proof. unfold x. rewrite inj_S. pose proof n_pos'. field. lra. Qed.
Lemma step_pos : 1 # 99 <= 1 / inject_Z n.
Proof.
  apply Qle_shift_div_l; [exact n_pos'|]. assert (inject_Z n <= inject_Z 99) by (rewrite <- Zle_Qle; lia).
  change (inject_Z 99) with 99 in *. lra.
Qed.
Lemma x_0 : x 0 == 0.
Proof. reflexivity. Qed.
Lemma x_n : x (Z.to_nat n) == 1.
Proof. unfold x. rewrite Z2Nat.id by lia. pose proof n_pos'. field. lra. Qed.
Lemma x_pos i : 0 <= x i.
Proof. induction i as [|i IH]; [rewrite x_0; lra|]. rewrite x_S. pose proof step_pos. lra. Qed.
Lemma x_mono i j : (i <= j)%nat -> x i <= x j.
Proof. induction 1 as [|j L IH]; [lra|]. rewrite x_S. pose proof step_pos. lra. Qed.
Lemma x_le1 i : (Z.of_nat i <= n)%Z -> x i <= 1.
Proof. intro L. rewrite <- x_n. apply x_mono. lia. Qed.

Lemma e_x i : (Z.of_nat i <= n)%Z -> x i - (3 # 9007199254740992) <= e i /\ e i <= x i + (3 # 9007199254740992).
Proof.
  intros L. pose proof (x_pos i) as P. pose proof (x_le1 i L) as P1. unfold e, fmul, fdiv. pose proof step_pos as SP.
  destruct (acc_pos (1 / inject_Z n) ltac:(lra)) as [A B]. set (r := rnd (1 / inject_Z n)) in *. set (k := inject_Z (Z.of_nat i)) in *.
  assert (K : 0 <= k) by (change 0 with (inject_Z 0); unfold k; rewrite <- Zle_Qle; lia).
  assert (XE : k * (1 / inject_Z n) == x i) by (unfold x; fold k; pose proof n_pos'; field; lra).
  assert (A' : x i * (1 - HALF_ULP) <= k * r).
  { rewrite <- XE, <- Qmult_assoc, !(Qmult_comm k). apply Qmult_le_compat_r; assumption. }
  assert (B' : k * r <= x i * (1 + HALF_ULP)).
  { rewrite <- XE, <- Qmult_assoc, !(Qmult_comm k). apply Qmult_le_compat_r; assumption. }
  change HALF_ULP with (1 # 9007199254740992) in *. assert (R0 : 0 <= k * r) by lra. destruct (acc_pos (k * r) R0) as [C D]. change HALF_ULP with (1 # 9007199254740992) in *. lra.
Qed.
Lemma f_x i : (Z.of_nat i <= n)%Z -> x i - (3 # 9007199254740992) <= f i /\ f i <= x i + (3 # 9007199254740992).
Proof. intros L. destruct i; [|exact (e_x (S i) L)]. cbn [f]. rewrite x_0. lra. Qed.
Lemma limit_le : LIMIT rnd <= 101 # 10000.
Proof. unfold LIMIT. destruct (acc_pos (1 # 100) ltac:(lra)) as [_ A]. eapply Qle_trans; [exact A|]. discriminate. Qed.

Definition feven (k : nat) : segment := map (fun i => plain (f i) (f (S i))) (seq 0 k) ++ [plain (f k) 1].

Lemma feven_step k : (Z.of_nat (S k) < n)%Z -> exists o, fadd_subdivision rnd ip (feven k) (e (S k)) (e (S k)) true = (feven (S k), Ok o).
Proof.
  intro L. pose proof step_pos as D. destruct (e_x (S k) ltac:(lia)) as [E1 E2]. destruct (f_x k ltac:(lia)) as [F1 F2].
  pose proof (x_S k) as XS. pose proof (x_le1 (S (S k)) ltac:(lia)) as X1. pose proof (x_S (S k)) as XSS. pose proof (x_pos k) as X0. pose proof limit_le as LL.
  assert (V0 : 0 < e (S k)) by lra. assert (V1 : e (S k) < 1) by lra. assert (V2 : f k + (1010001 # 100000000) <= e (S k)) by lra.
  unfold fadd_subdivision. replace (Qleb (e (S k)) 0) with false by (symmetry; apply Qleb_false; lra).
  replace (Qleb 1 (e (S k))) with false by (symmetry; apply Qleb_false; lra). cbn [orb]. cbv zeta.
  assert (G : get_subdiv_at_eta (feven k) (e (S k)) = Some (k, plain (f k) 1, false)).
  { unfold get_subdiv_at_eta, feven. rewrite lookup_last.
    - cbn [plain new_strip eta_a]. rewrite map_length, seq_length. cbn [Nat.add]. f_equal. f_equal. apply Qeqb_false. lra.
    - intros t I. apply in_map_iff in I. destruct I as (i & <- & I). apply in_seq in I. cbn [eta_b plain new_strip].
      destruct (f_x (S i) ltac:(lia)) as [_ G2]. pose proof (x_mono (S i) k ltac:(lia)). lra.
    - cbn. lra.
    - cbn. exact V1. }
  rewrite G. replace (Qltb (fsub rnd (e (S k)) (eta_a (plain (f k) 1))) (LIMIT rnd)) with false.
  2:{ symmetry. apply Qltb_false. cbn [plain new_strip eta_a]. unfold fsub.
      destruct (acc_pos (e (S k) - f k) ltac:(lra)) as [Z1 _]. change HALF_ULP with (1 # 9007199254740992) in Z1. lra. }
  assert (LP : List.length (map (fun i => plain (f i) (f (S i))) (seq 0 k)) = k) by (rewrite map_length, seq_length; reflexivity).
  assert (S1 : set_nth (feven k ++ [new_strip (e (S k)) (eta_b (plain (f k) 1)) (eta_c (plain (f k) 1)) (e (S k))]) k (set_bc (plain (f k) 1) (e (S k)) (e (S k))) = feven (S k)).
  { unfold feven at 1. rewrite (set_nth_last _ k _ _ _ LP). unfold feven. rewrite seq_S, map_app, <- !app_assoc. reflexivity. }
  rewrite S1. clear S1.
  assert (IH0 : forall kd ea eb y, finherit rnd ip (feven (S k)) k (List.length (feven k)) kd ea eb y = (feven (S k), Ok tt)).
  { intros. unfold finherit. assert (NE : nth_error (feven (S k)) k = Some (plain (f k) (f (S k)))).
    { unfold feven. rewrite seq_S, map_app. cbn [map Nat.add]. rewrite (nth_last _ k _ _ LP). reflexivity. }
    rewrite NE. destruct kd; reflexivity. }
  rewrite !IH0. eexists. reflexivity.
Qed.
Lemma feven_lines m : forall k, (Z.of_nat (k + m) < n)%Z ->
  fadd_lines rnd ip (feven k) (map e (seq (S k) m) ++ [1]) = (feven (k + m), Ok tt).
Proof.
  induction m as [|m IH]; intros k L; cbn [seq map app fadd_lines]; [rewrite Nat.add_0_r; reflexivity|].
  destruct (e_x (S k) ltac:(lia)) as [E1 E2]. pose proof (x_S k) as XS. pose proof (x_S (S k)) as XSS. pose proof step_pos as D. pose proof (x_pos k) as X0.
  pose proof (x_le1 (S (S k)) ltac:(lia)) as X1.
  replace (Qeqb (e (S k)) 0) with false by (symmetry; apply Qeqb_false; lra).
  replace (Qeqb (e (S k)) 1) with false by (symmetry; apply Qeqb_false; lra). cbn [orb].
  destruct (feven_step k ltac:(lia)) as (o & E). rewrite E, (IH (S k)) by lia. rewrite Nat.add_succ_r. reflexivity.
Qed.
Lemma fdivide_even : fdivide rnd ip new_segment n = (feven (Z.to_nat n - 1), Ok tt).
Proof.
  unfold fdivide, flinspace. replace (n + 1 <? 0)%Z with false by (symmetry; apply Z.ltb_ge; lia).
  replace (n =? -1)%Z with false by (symmetry; apply Z.eqb_neq; lia). replace (n =? 0)%Z with false by (symmetry; apply Z.eqb_neq; lia).
  replace (Z.to_nat n) with (S (Z.to_nat n - 1)) at 1 by lia. cbn [seq map app fadd_lines].
  replace (Qeqb _ 0) with true.
  2:{ symmetry. apply Qeqb_true. apply acc_0. change (inject_Z (Z.of_nat 0)) with 0. ring. }
  cbn [orb]. exact (feven_lines (Z.to_nat n - 1) 0 ltac:(lia)).
Qed.
Lemma feven_nth k i s : nth_error (feven k) i = Some s -> (i <= k)%nat /\ s = plain (f i) (if Nat.eqb i k then 1 else f (S i)).
Proof.
  unfold feven. intro H. assert (Li : (i <= k)%nat).
  { assert (B : (i < List.length (map (fun i => plain (f i) (f (S i))) (seq 0 k) ++ [plain (f k) 1]))%nat) by (apply nth_error_Some; congruence).
    rewrite app_length, map_length, seq_length in B. cbn in B. lia. }
  split; [exact Li|]. destruct (Nat.eqb_spec i k) as [->|Ne].
  - rewrite nth_error_app2 in H by (rewrite map_length, seq_length; lia). rewrite map_length, seq_length, Nat.sub_diag in H. cbn [nth_error] in H. injection H as <-. reflexivity.
  - rewrite nth_error_app1 in H by (rewrite map_length, seq_length; lia). rewrite nth_error_map in H.
    rewrite (nth_error_nth' _ 0%nat) in H by (rewrite seq_length; lia). rewrite seq_nth in H by lia. rewrite Nat.add_0_l in H. cbn [option_map] in H. injection H as <-. reflexivity.
Qed.
Lemma fdivide_equal : exists l, fdivide rnd ip new_segment n = (l, Ok tt) /\ almost_equal_strips n l.
Proof.
  exists (feven (Z.to_nat n - 1)). split; [exact fdivide_even|]. split; [|split; [|split; [|split]]].
  - unfold feven. rewrite app_length, map_length, seq_length. cbn. lia.
  - intros i s H. destruct (feven_nth _ _ _ H) as [Li ->]. cbn [plain new_strip eta_a eta_b].
    replace (Z.of_nat i + 1)%Z with (Z.of_nat (S i)) by lia. fold (x i) (x (S i)). destruct (f_x i ltac:(lia)) as [A B]. split; [|split].
    + apply Qabs_Qle_condition. change (2 ^ 51)%positive with 2251799813685248%positive. lra.
    + destruct (Nat.eqb_spec i (Z.to_nat n - 1)) as [E|E].
      * replace (S i) with (Z.to_nat n) by lia. pose proof x_n as XN. apply Qabs_Qle_condition. change (2 ^ 51)%positive with 2251799813685248%positive. lra.
      * destruct (f_x (S i) ltac:(lia)) as [C D]. apply Qabs_Qle_condition. change (2 ^ 51)%positive with 2251799813685248%positive. lra.
    + intros kd v [Hv|[]]. destruct kd; discriminate.
  - intros s H. destruct (feven_nth _ _ _ H) as [_ ->]. reflexivity.
  - intros s H. destruct (feven_nth _ _ _ H) as [_ ->]. rewrite Nat.eqb_refl. reflexivity.
  - intros i s t H H'. destruct (feven_nth _ _ _ H) as [_ ->]. destruct (feven_nth _ _ _ H') as [L' ->]. cbn [plain new_strip eta_a eta_b].
    replace (Nat.eqb i (Z.to_nat n - 1)) with false by (symmetry; apply Nat.eqb_neq; lia). reflexivity.
Qed.
End Division.
