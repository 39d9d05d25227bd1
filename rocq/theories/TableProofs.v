(** Proofs for the result tables. *)
From Coq Require Import List String Ascii ZArith QArith Qround Qabs Qpower Bool Lia Lqa.
From Verif Require Import PyBase PyFacts StripModel RoundModel RoundProofs RunSpec TableModel TableSpec.
Import ListNotations.
Open Scope string_scope.

Lemma app_assoc_s (a b c : string) : (a ++ b) ++ c = a ++ (b ++ c).
Proof. induction a as [|x a IH]; [reflexivity|]. cbn. rewrite IH. reflexivity. Qed.
Lemma app_nil_s (a : string) : a ++ "" = a.
Proof. induction a as [|x a IH]; [reflexivity|]. cbn. rewrite IH. reflexivity. Qed.
Lemma app_length_s (a b : string) : String.length (a ++ b) = (String.length a + String.length b)%nat.
Proof. induction a as [|x a IH]; [reflexivity|]. cbn. rewrite IH. reflexivity. Qed.

(** ** Decimal digits *)
Lemma digit_of_char d : (0 <= d < 10)%Z -> digit (digit_char d) = Some (Z.to_nat d).
Proof.
  intros H. unfold digit_char. assert (E : exists k, Z.to_nat d = k /\ (k < 10)%nat) by (exists (Z.to_nat d); lia).
  destruct E as (k & -> & K). do 10 (destruct k as [|k]; [reflexivity|]). lia.
Qed.

Fixpoint all_digits (s : string) : Prop := match s with EmptyString => True | String c r => digit c <> None /\ all_digits r end.

Lemma dec_fuel_spec f : forall n acc, (0 <= n < 10 ^ Z.of_nat f)%Z -> (1 <= f)%nat ->
  exists ds, dec_fuel f n acc = ds ++ acc /\ all_digits ds /\ (1 <= String.length ds)%nat /\
    (n < 10 ^ Z.of_nat (String.length ds))%Z /\ (n = 0 \/ 10 ^ (Z.of_nat (String.length ds) - 1) <= n)%Z /\
    forall a t, scan a (ds ++ t) = scan (a * 10 ^ Z.of_nat (String.length ds) + n) t.
Proof.
  induction f as [|f IH]; intros n acc N F; [lia|]. cbn [dec_fuel].
  assert (D : (0 <= n mod 10 < 10)%Z) by (apply Z.mod_pos_bound; lia). destruct (n <? 10)%Z eqn:E.
  - apply Z.ltb_lt in E. exists (String (digit_char (n mod 10)) ""). split; [reflexivity|]. cbn [String.length all_digits append].
    rewrite (digit_of_char _ D). split; [split; [discriminate|exact I]|]. split; [lia|]. split; [cbn; lia|]. split; [cbn; lia|].
    intros a t. cbn [scan]. rewrite (digit_of_char _ D). f_equal. rewrite Z2Nat.id by lia. rewrite Z.mod_small by lia. change (Z.of_nat 1) with 1%Z. lia.
  - apply Z.ltb_ge in E. assert (F1 : (1 <= f)%nat) by (destruct f; [cbn in N; lia|lia]).
    assert (N1 : (0 <= n / 10 < 10 ^ Z.of_nat f)%Z).
    { split; [apply Z.div_pos; lia|]. apply Z.div_lt_upper_bound; [lia|]. rewrite Nat2Z.inj_succ, Z.pow_succ_r in N by lia. lia. }
    destruct (IH (n / 10)%Z (String (digit_char (n mod 10)) acc) N1 F1) as (ds & A & B & C & U & L & S).
    pose proof (Z.div_mod n 10 ltac:(lia)) as DM.
    exists (ds ++ String (digit_char (n mod 10)) ""). split; [rewrite A, app_assoc_s; reflexivity|]. rewrite app_length_s. cbn [String.length].
    set (k := String.length ds) in *. replace (Z.of_nat (k + 1)) with (Z.succ (Z.of_nat k)) by lia. rewrite Z.pow_succ_r by lia. split.
    { clear - B D. induction ds as [|c ds IH]; cbn [append all_digits]; [rewrite (digit_of_char _ D); split; [discriminate|exact I]|]. split; [apply B|apply IH, B]. }
    split; [lia|]. split; [lia|]. split.
    + right. destruct L as [L|L]; [lia|]. replace (Z.succ (Z.of_nat k) - 1)%Z with (Z.succ (Z.of_nat k - 1)) by lia. rewrite Z.pow_succ_r by lia. lia.
    + intros a t. rewrite app_assoc_s, S. cbn [append scan]. rewrite (digit_of_char _ D). f_equal. rewrite Z2Nat.id by lia. lia.
Qed.
Lemma dec_spec n : (0 <= n)%Z ->
  all_digits (dec n) /\ (1 <= String.length (dec n))%nat /\
    (n < 10 ^ Z.of_nat (String.length (dec n)))%Z /\ (n = 0 \/ 10 ^ (Z.of_nat (String.length (dec n)) - 1) <= n)%Z /\
    forall a t, scan a (dec n ++ t) = scan (a * 10 ^ Z.of_nat (String.length (dec n)) + n) t.
Proof.
  intros N. destruct (dec_fuel_spec (S (Z.to_nat (Z.log2 n))) n "") as (ds & A & B); [|lia|].
  - split; [exact N|]. rewrite Nat2Z.inj_succ, Z2Nat.id by apply Z.log2_nonneg.
    assert (n < 2 ^ Z.succ (Z.log2 n))%Z by (destruct (Z.eq_dec n 0) as [->|]; [reflexivity|apply Z.log2_spec; lia]).
    pose proof (Z.pow_le_mono_l 2 10 (Z.succ (Z.log2 n)) ltac:(lia)). lia.
  - rewrite app_nil_s in A. unfold dec. rewrite A. exact B.
Qed.

(** ** Powers of ten *)
Open Scope Q_scope.
Lemma p10_pos e : 0 < 10 ^ e.
Proof. apply Qpower_0_lt. reflexivity. Qed.
Lemma p10_plus a b : 10 ^ (a + b) == 10 ^ a * 10 ^ b.
Proof. apply Qpower_plus. discriminate. Qed.
Lemma p10_Z k : (0 <= k)%Z -> inject_Z (10 ^ k) == 10 ^ k.
Proof. intros L. exact (Zpower_Qpower 10 k L). Qed.
Lemma p10_cancel k : 10 ^ k * 10 ^ (- k) == 1.
Proof. rewrite <- p10_plus, Z.add_opp_diag_r. reflexivity. Qed.
Lemma p10_succ k : 10 ^ (k + 1) == 10 * 10 ^ k.
Proof. rewrite p10_plus. change (10 ^ 1) with 10. ring. Qed.

Lemma ndigits_spec n : (0 < n)%Z -> 10 ^ (ndigits n - 1) <= inject_Z n < 10 ^ ndigits n.
Proof.
  intros N. destruct (dec_spec n ltac:(lia)) as (_ & K & U & L & _). unfold ndigits. set (k := Z.of_nat (String.length (dec n))) in *.
  destruct L as [L|L]; [lia|]. rewrite <- !p10_Z by lia. rewrite <- Zle_Qle, <- Zlt_Qlt. lia.
Qed.
Lemma Q_num_den q : q * inject_Z (Zpos (Qden q)) == inject_Z (Qnum q).
Proof. destruct q as [n d]. unfold Qeq, Qmult, inject_Z. cbn. lia. Qed.

Lemma exp10_spec q : 0 < q -> 10 ^ exp10 q <= q < 10 ^ (exp10 q + 1).
Proof.
  intros P. assert (N : (0 < Qnum q)%Z) by (unfold Qlt in P; cbn in P; lia).
  pose proof (ndigits_spec _ N) as [A1 A2]. pose proof (ndigits_spec (Zpos (Qden q)) ltac:(lia)) as [B1 B2].
  pose proof (Q_num_den q) as E. unfold exp10. set (a := ndigits (Qnum q)) in *. set (b := ndigits (Zpos (Qden q))) in *.
  set (n := inject_Z (Qnum q)) in *. set (d := inject_Z (Zpos (Qden q))) in *.
  assert (U : q < 10 ^ (a - b + 1)).
  { apply (Qmult_lt_r _ _ (10 ^ (b - 1))); [apply p10_pos|]. rewrite <- p10_plus. replace (a - b + 1 + (b - 1))%Z with a by lia.
    eapply Qle_lt_trans; [|exact A2]. rewrite <- E. apply (Qmult_le_l _ _ q P). exact B1. }
  assert (L : 10 ^ (a - b - 1) <= q).
  { apply (Qmult_le_r _ _ (10 ^ b)); [apply p10_pos|]. rewrite <- p10_plus. replace (a - b - 1 + b)%Z with (a - 1)%Z by lia.
    eapply Qle_trans; [exact A1|]. rewrite <- E. apply Qlt_le_weak. apply (Qmult_lt_l _ _ q P). exact B2. }
  destruct (Qleb (10 ^ (a - b)) q) eqn:Z; qbool.
  - split; assumption.
  - split; [exact L|]. replace (a - b - 1 + 1)%Z with (a - b)%Z by lia. lra.
Qed.

(** ** The mantissa *)
Definition mant (q : Q) : Z := round_even (q * 10 ^ (6 - exp10 q)).
Lemma scaled_range q : 0 < q -> 1000000 <= q * 10 ^ (6 - exp10 q) < 10000000.
Proof.
  intros P. pose proof (exp10_spec q P) as [A B]. set (e := exp10 q) in *. pose proof (p10_pos (6 - e)) as K. split.
  - change 1000000 with (10 ^ 6). replace 6%Z with (e + (6 - e))%Z at 1 by lia. rewrite p10_plus. apply Qmult_le_r; assumption.
  - change 10000000 with (10 ^ 7). replace 7%Z with (e + 1 + (6 - e))%Z by lia. rewrite p10_plus. apply Qmult_lt_r; assumption.
Qed.
Lemma mant_range q : 0 < q -> (1000000 <= mant q <= 10000000)%Z.
Proof.
  intros P. pose proof (scaled_range q P) as [A B]. unfold mant. set (x := q * 10 ^ (6 - exp10 q)) in *.
  pose proof (round_even_nearest x 1000000) as N1. pose proof (round_even_nearest x 10000000) as N2.
  change (inject_Z 1000000) with 1000000 in N1. change (inject_Z 10000000) with 10000000 in N2.
  rewrite (Qabs_neg (1000000 - x)) in N1 by lra. rewrite (Qabs_pos (10000000 - x)) in N2 by lra.
  apply Qabs_Qle_condition in N1, N2. split.
  - rewrite Zle_Qle. change (inject_Z 1000000) with 1000000. lra.
  - rewrite Zle_Qle. change (inject_Z 10000000) with 10000000. lra.
Qed.
(** The number that is printed. *)
Definition printed (q : Q) : Q := inject_Z (mant q) * 10 ^ (exp10 q - 6).

Lemma shift_err x q e : x * 10 ^ (e - 6) - q == (x - q * 10 ^ (6 - e)) * 10 ^ (e - 6).
Proof.
  pose proof (p10_cancel (6 - e)) as C. replace (- (6 - e))%Z with (e - 6)%Z in C by lia.
  transitivity (x * 10 ^ (e - 6) - q * (10 ^ (6 - e) * 10 ^ (e - 6))); [rewrite C|]; ring.
Qed.
Lemma printed_err q : 0 < q -> printed q - q == (inject_Z (mant q) - q * 10 ^ (6 - exp10 q)) * 10 ^ (exp10 q - 6).
Proof. intros P. apply shift_err. Qed.
Lemma Qabs_scale x k : Qabs (x * 10 ^ k) == Qabs x * 10 ^ k.
Proof. rewrite Qabs_Qmult, (Qabs_pos (10 ^ k)); [reflexivity|apply Qlt_le_weak, p10_pos]. Qed.

Lemma grid_nearest q z : 0 < q -> Qabs (printed q - q) <= Qabs (inject_Z z * 10 ^ (exp10 q - 6) - q).
Proof.
  intros P. rewrite printed_err by exact P. rewrite Qabs_scale.
  rewrite shift_err, Qabs_scale. apply Qmult_le_r; [apply p10_pos|]. apply round_even_nearest.
Qed.

Lemma nearest_pos q : 0 < q -> nearest7 q (printed q).
Proof.
  intros P. pose proof (mant_range q P) as M. pose proof (exp10_spec q P) as [L U]. split; [|split].
  - destruct (Z.eq_dec (mant q) 10000000) as [E|E].
    + exists 1000000%Z, (exp10 q - 5)%Z. split; [lia|]. unfold printed. rewrite E. replace (exp10 q - 5)%Z with (exp10 q - 6 + 1)%Z by lia. rewrite p10_succ.
      change (inject_Z 10000000) with 10000000. change (inject_Z 1000000) with 1000000. ring.
    + exists (mant q), (exp10 q - 6)%Z. split; [lia|reflexivity].
  - intros m e H. destruct (Z_le_dec (exp10 q - 6) e) as [D|D].
    + pose proof (grid_nearest q (m * 10 ^ (e - (exp10 q - 6))) P) as G. eapply Qle_trans; [exact G|]. apply Qle_lteq. right. apply Qabs_wd.
      rewrite inject_Z_mult, p10_Z by lia. rewrite <- Qmult_assoc, <- p10_plus. replace (e - (exp10 q - 6) + (exp10 q - 6))%Z with e by lia. reflexivity.
    + pose proof (grid_nearest q 1000000 P) as G. eapply Qle_trans; [exact G|].
      assert (T : inject_Z 1000000 * 10 ^ (exp10 q - 6) == 10 ^ exp10 q).
      { change (inject_Z 1000000) with (10 ^ 6). rewrite <- p10_plus. replace (6 + (exp10 q - 6))%Z with (exp10 q) by lia. reflexivity. }
      assert (S : inject_Z m * 10 ^ e <= 10 ^ exp10 q).
      { apply Qle_trans with (inject_Z 10000000 * 10 ^ e).
        - apply Qmult_le_r; [apply p10_pos|]. rewrite <- Zle_Qle. lia.
        - change (inject_Z 10000000) with (10 ^ 7). rewrite <- p10_plus. apply Qpower_le_compat_l; [lia|discriminate]. }
      rewrite T. rewrite (Qabs_neg (10 ^ exp10 q - q)), (Qabs_neg (inject_Z m * 10 ^ e - q)) by lra. lra.
  - rewrite printed_err by exact P. rewrite Qabs_scale, (Qabs_pos q) by lra.
    pose proof (round_even_half (q * 10 ^ (6 - exp10 q))) as H. fold (mant q) in H.
    pose proof (p10_pos (exp10 q - 6)) as K. apply Qle_trans with ((1 # 2) * 10 ^ (exp10 q - 6)); [apply Qmult_le_r; assumption|].
    assert (T : 10 ^ exp10 q == 1000000 * 10 ^ (exp10 q - 6)).
    { change 1000000 with (10 ^ 6). rewrite <- p10_plus. replace (6 + (exp10 q - 6))%Z with (exp10 q) by lia. reflexivity. }
    rewrite T in L. lra.
Qed.
Lemma nearest_opp q q' : nearest7 q q' -> nearest7 (- q) (- q').
Proof.
  intros ((m & e & M & E) & N & R). split; [|split].
  - exists (- m)%Z, e. split; [lia|]. rewrite E, inject_Z_opp. ring.
  - intros m' e' H. specialize (N (- m')%Z e' ltac:(lia)). rewrite <- (Qabs_opp (inject_Z m' * _ - _)), <- (Qabs_opp (- q' - _)).
    eapply Qle_trans; [|eapply Qle_trans; [exact N|]]; apply Qle_lteq; right; apply Qabs_wd; [ring|rewrite inject_Z_opp; ring].
  - rewrite Qabs_opp. eapply Qle_trans; [|exact R]. rewrite <- Qabs_opp. apply Qle_lteq. right. apply Qabs_wd. ring.
Qed.
Lemma nearest_wd q p q' p' : q == p -> q' == p' -> nearest7 q q' -> nearest7 p p'.
Proof.
  intros E F ((m & e & M & G) & N & R). split; [|split].
  - exists m, e. split; [exact M|]. rewrite <- F. exact G.
  - intros m' e' H. rewrite <- E, <- F. apply N. exact H.
  - rewrite <- E, <- F. exact R.
Qed.
Close Scope Q_scope.

(** ** Reading a number *)
Lemma scan_stop a c t : digit c = None -> scan a (String c t) = (a, String c t).
Proof. intros D. cbn [scan]. rewrite D. reflexivity. Qed.
Lemma numeral_some a c r : digit c <> None -> numeral a (String c r) = Some (scan a (String c r)).
Proof. unfold numeral. destruct (digit c); [reflexivity|congruence]. Qed.

Lemma dec_seven m : (1000000 <= m < 10000000)%Z -> String.length (dec m) = 7%nat.
Proof.
  intros M. destruct (dec_spec m ltac:(lia)) as (_ & K & U & L & _). destruct L as [L|L]; [lia|].
  set (k := Z.of_nat (String.length (dec m))) in *. enough (k = 7)%Z by lia.
  destruct (Z_lt_le_dec k 7) as [A|A].
  - pose proof (Z.pow_le_mono_r 10 k 6 ltac:(lia) ltac:(lia)) as H. change (10 ^ 6)%Z with 1000000%Z in H. lia.
  - destruct (Z_lt_le_dec 7 k) as [B|B]; [|lia]. pose proof (Z.pow_le_mono_r 10 7 (k - 1) ltac:(lia) ltac:(lia)) as H. change (10 ^ 7)%Z with 10000000%Z in H. lia.
Qed.

Lemma mantissa_read m : (1000000 <= m < 10000000)%Z ->
  exists c r d, mantissa_text m = String c ("." ++ r) /\ digit c = Some d /\ all_digits r /\ String.length r = 6%nat /\
    forall t, scan (Z.of_nat d) (r ++ t) = scan m t.
Proof.
  intros M. pose proof (dec_seven m M) as L. destruct (dec_spec m ltac:(lia)) as (A & _ & _ & _ & S). unfold mantissa_text.
  destruct (dec m) as [|c r]; [discriminate L|]. destruct A as [A B]. destruct (digit c) as [d|] eqn:D; [|congruence].
  exists c, r, d. split; [reflexivity|]. split; [exact D|]. split; [exact B|]. split; [cbn in L; lia|].
  intros t. specialize (S 0%Z t). cbn [append scan] in S. rewrite D in S. match type of S with scan ?a _ = scan ?b _ => replace a with (Z.of_nat d) in S by lia; replace b with m in S by lia end. exact S.
Qed.

Lemma dec_numeral n : (0 <= n)%Z -> exists c r, dec n = String c r /\ digit c <> None /\ scan 0 (String c r) = (n, "").
Proof.
  intros N. destruct (dec_spec n N) as (A & K & _ & _ & S). specialize (S 0%Z ""). rewrite app_nil_s in S.
  destruct (dec n) as [|c r]; [cbn in K; lia|]. exists c, r. split; [reflexivity|]. split; [apply A|]. rewrite S. cbn [scan]. f_equal.
Qed.
Lemma exponent_read e : exists sg r, signed (exponent_text e) = (sg, r) /\ numeral 0 r = Some (Z.abs e, "") /\ (sg * Z.abs e = e)%Z.
Proof.
  destruct (dec_numeral (Z.abs e) ltac:(lia)) as (c & r & E & D & S). unfold exponent_text. rewrite E.
  assert (N : numeral 0 ((if (Z.abs e <? 10)%Z then "0" else "") ++ String c r) = Some (Z.abs e, "")).
  { destruct (Z.abs e <? 10)%Z; cbn [append]; rewrite numeral_some; try exact D; try discriminate; f_equal; [|exact S].
    change (scan (10 * 0 + Z.of_nat 0) (String c r) = (Z.abs e, "")). exact S. }
  destruct (Z.ltb_spec e 0).
  - exists (-1)%Z. eexists. split; [reflexivity|]. split; [exact N|lia].
  - exists 1%Z. eexists. split; [reflexivity|]. split; [exact N|lia].
Qed.

Lemma read_sci m e : (1000000 <= m < 10000000)%Z -> read_unsigned (mantissa_text m ++ "e" ++ exponent_text e) = Some (inject_Z m * 10 ^ (e - 6))%Q.
Proof.
  intros M. destruct (mantissa_read m M) as (c & r & d & E & D & A & L & S). destruct (exponent_read e) as (sg & r3 & X & N & V).
  rewrite E. cbn [append]. unfold read_unsigned. rewrite numeral_some by congruence.
  cbn [scan]. rewrite D. replace (10 * 0 + Z.of_nat d)%Z with (Z.of_nat d) by lia. change (digit ".") with (@None nat). cbv beta iota.
  assert (R : numeral (Z.of_nat d) (r ++ String "e" (exponent_text e)) = Some (m, String "e" (exponent_text e))).
  { destruct r as [|x r]; [discriminate L|]. cbn [append] in S |- *. rewrite numeral_some by apply A. specialize (S (String "e" (exponent_text e))).
    cbn [append] in S. rewrite S, scan_stop by reflexivity. reflexivity. }
  rewrite R. cbv beta iota. rewrite X. cbv beta iota. rewrite N. cbv beta iota. cbn [String.length]. rewrite app_length_s, L. cbn [String.length]. do 3 f_equal. lia.
Qed.

Definition starts_digit (s : string) : Prop := match s with String c _ => digit c <> None | EmptyString => False end.
Lemma mantissa_starts m t : (1000000 <= m < 10000000)%Z -> starts_digit (mantissa_text m ++ t).
Proof. intros M. destruct (mantissa_read m M) as (c & r & d & E & D & _). rewrite E. cbn. congruence. Qed.

Lemma digit_signed s : starts_digit s -> signed s = (1%Z, s) /\ skip_spaces s = s /\ String.eqb s "nan" = false /\ String.eqb s "inf" = false.
Proof.
  destruct s as [|c r]; [intros []|]. cbn [starts_digit]. intros H.
  destruct c as [b0 b1 b2 b3 b4 b5 b6 b7]. destruct b0, b1, b2, b3, b4, b5, b6, b7; try (exfalso; apply H; reflexivity); repeat split; reflexivity.
Qed.

Lemma fmt_pos_read q : (0 < q)%Q -> exists p, starts_digit (fmt_pos q) /\ read_unsigned (fmt_pos q) = Some p /\ (p == printed q)%Q.
Proof.
  intros P. pose proof (mant_range q P) as M. unfold fmt_pos. fold (mant q). unfold printed. destruct (Z.eqb_spec (mant q) 10000000) as [E|E].
  - eexists. split; [apply mantissa_starts; lia|]. split; [apply read_sci; lia|]. rewrite E. replace (exp10 q + 1 - 6)%Z with (exp10 q - 6 + 1)%Z by lia.
    rewrite p10_succ. change (inject_Z 10000000) with 10000000%Q. change (inject_Z 1000000) with 1000000%Q. ring.
  - eexists. split; [apply mantissa_starts; lia|]. split; [apply read_sci; lia|]. reflexivity.
Qed.
Lemma skip_pad n s : skip_spaces (spaces n ++ s) = skip_spaces s.
Proof. induction n as [|n IH]; [reflexivity|exact IH]. Qed.

Lemma zero_nearest : nearest7 0 0.
Proof.
  split; [exists 0%Z, 0%Z; split; [lia|reflexivity]|]. split; [|discriminate]. intros m e _. apply Qabs_nonneg.
Qed.
Lemma number_read v : exists v', read_num (FMT_NUM v) = Some v' /\ close v v'.
Proof.
  unfold FMT_NUM, read_num. rewrite skip_pad. destruct v as [q| | |]; try (eexists; split; [reflexivity|exact I]).
  unfold fmt_e. destruct (Qcompare_spec q 0) as [E|L|G].
  - eexists. split; [reflexivity|]. cbn [close]. apply (nearest_wd 0 q 0 _); [symmetry; exact E|reflexivity|apply zero_nearest].
  - destruct (fmt_pos_read (- q)) as (p & S & R & V); [lra|]. destruct (digit_signed _ S) as (_ & _ & N1 & N2).
    change (skip_spaces ("-" ++ fmt_pos (- q))) with (String "-" (fmt_pos (- q))). cbn [signed]. rewrite N1, N2, R. eexists. split; [reflexivity|].
    cbn [close]. apply (nearest_wd (- - q) q (- printed (- q)) _); [ring|rewrite V; change (inject_Z (-1)) with (-1)%Q; ring|].
    apply nearest_opp, nearest_pos. lra.
  - destruct (fmt_pos_read q) as (p & S & R & V); [exact G|]. destruct (digit_signed _ S) as (N0 & N3 & N1 & N2). rewrite N3, N0, N1, N2, R.
    eexists. split; [reflexivity|]. cbn [close]. apply (nearest_wd q q (printed q) _); [reflexivity|rewrite V; change (inject_Z 1) with 1%Q; ring|].
    apply nearest_pos. exact G.
Qed.

(** ** Reading a table *)
Fixpoint avoids (d : ascii) (s : string) : Prop := match s with EmptyString => True | String c r => c <> d /\ avoids d r end.
Lemma avoids_app d a b : avoids d a -> avoids d b -> avoids d (a ++ b).
Proof. induction a as [|c a IH]; cbn; [trivial|]. intros [A B] C. split; [exact A|apply IH; assumption]. Qed.
Lemma avoids_digits d s : digit d = None -> all_digits s -> avoids d s.
Proof. intros D. induction s as [|c s IH]; cbn; [trivial|]. intros [A B]. split; [congruence|apply IH; exact B]. Qed.
Lemma avoids_spaces d n : d <> " "%char -> avoids d (spaces n).
Proof. intros D. induction n as [|n IH]; cbn; [trivial|]. split; [congruence|exact IH]. Qed.

(** Characters that do not occur in numbers. *)
Definition foreign (d : ascii) : Prop := digit d = None /\ ~ In d [" "; "."; "-"; "+"; "e"; "n"; "a"; "i"; "f"]%char.
Lemma foreign_chars : foreign "," /\ foreign nl /\ foreign "#".
Proof. unfold foreign. repeat split; try reflexivity; cbn; intuition congruence. Qed.

Lemma avoids_one d c : foreign d -> In c [" "; "."; "-"; "+"; "e"; "n"; "a"; "i"; "f"]%char -> c <> d.
Proof. intros [_ F] I ->. exact (F I). Qed.
Lemma avoids_dec d n : foreign d -> (0 <= n)%Z -> avoids d (dec n).
Proof. intros [D _] N. apply avoids_digits; [exact D|]. apply dec_spec. exact N. Qed.
Lemma avoids_exponent d e : foreign d -> avoids d (exponent_text e).
Proof.
  intros F. unfold exponent_text. apply avoids_app; [|apply avoids_app; [|apply avoids_dec; [exact F|lia]]].
  - destruct (e <? 0)%Z; cbn; (split; [apply (avoids_one d _ F); cbn; tauto|exact I]).
  - destruct (Z.abs e <? 10)%Z; cbn; [|exact I]. split; [|exact I]. intros <-. destruct F as [F _]. discriminate F.
Qed.
Lemma avoids_mantissa d m : foreign d -> (1000000 <= m < 10000000)%Z -> avoids d (mantissa_text m).
Proof.
  intros F M. destruct (mantissa_read m M) as (c & r & x & E & D & A & _). rewrite E. cbn [append avoids].
  split; [intros ->; destruct F; congruence|]. split; [apply (avoids_one d _ F); cbn; tauto|]. apply avoids_digits; [apply F|exact A].
Qed.
Lemma avoids_pos d q : foreign d -> (0 < q)%Q -> avoids d (fmt_pos q).
Proof.
  intros F P. pose proof (mant_range q P) as M. unfold fmt_pos. fold (mant q).
  destruct (Z.eqb_spec (mant q) 10000000); (apply avoids_app; [apply avoids_mantissa; [exact F|lia]|]); cbn [append avoids];
    (split; [apply (avoids_one d _ F); cbn; tauto|apply avoids_exponent; exact F]).
Qed.
Lemma avoids_lit d s : foreign d -> forallb (fun c => existsb (Ascii.eqb c) [" "; "."; "-"; "+"; "e"; "n"; "a"; "i"; "f"; "0"]%char) (list_ascii_of_string s) = true -> avoids d s.
Proof.
  intros F. induction s as [|c s IH]; [intros _; exact I|]. cbn [list_ascii_of_string forallb avoids]. intros H. apply andb_true_iff in H. destruct H as [A B].
  split; [|apply IH; exact B]. apply existsb_exists in A. destruct A as (x & A & E). apply Ascii.eqb_eq in E. subst x.
  assert (K : In c [" "; "."; "-"; "+"; "e"; "n"; "a"; "i"; "f"]%char \/ c = "0"%char) by (cbn [In] in A |- *; intuition).
  destruct K as [K| ->]; [exact (avoids_one d c F K)|]. intros <-. destruct F as [F _]. discriminate F.
Qed.
Lemma avoids_num d v : foreign d -> avoids d (FMT_NUM v).
Proof.
  intros F. unfold FMT_NUM. apply avoids_app; [apply avoids_spaces; intros ->; apply (avoids_one _ " " F); [cbn; tauto|reflexivity]|].
  destruct v as [q| | |]; cbn [fmt_e]; try (apply (avoids_lit d _ F); reflexivity).
  destruct (Qcompare_spec q 0) as [E|L|G].
  - apply (avoids_lit d _ F). reflexivity.
  - cbn [append avoids]. split; [apply (avoids_one d _ F); cbn; tauto|]. apply avoids_pos; [exact F|lra].
  - apply avoids_pos; assumption.
Qed.
Lemma num_nonempty v : FMT_NUM v <> "".
Proof.
  unfold FMT_NUM. intros H. assert (L : String.length (fmt_e v) <> 0%nat).
  { destruct v as [q| | |]; cbn [fmt_e]; try discriminate. destruct (Qcompare_spec q 0) as [E|L|G]; try discriminate.
    destruct (fmt_pos_read q G) as (p & S & _). destruct (fmt_pos q); [destruct S|discriminate]. }
  apply (f_equal String.length) in H. rewrite app_length_s in H. cbn in H. lia.
Qed.

Lemma split_avoids d a : avoids d a -> split_at d a = [a].
Proof.
  induction a as [|c a IH]; [reflexivity|]. intros [A B]. cbn [split_at]. rewrite (proj2 (Ascii.eqb_neq c d) A), (IH B). reflexivity.
Qed.
Lemma split_cons d a b : avoids d a -> split_at d (a ++ String d b) = a :: split_at d b.
Proof.
  induction a as [|c a IH]; intros A; cbn [append split_at].
  - rewrite Ascii.eqb_refl. reflexivity.
  - destruct A as [A B]. rewrite (proj2 (Ascii.eqb_neq c d) A), (IH B). reflexivity.
Qed.
Lemma split_join d l : l <> [] -> Forall (avoids d) l -> split_at d (join d l) = l.
Proof.
  intros N F. induction F as [|x l A F IH]; [congruence|]. destruct l as [|y l]; [cbn; apply split_avoids; exact A|].
  change (join d (x :: y :: l)) with (x ++ String d (join d (y :: l))). rewrite split_cons by exact A. rewrite IH by discriminate. reflexivity.
Qed.

Definition row_line (row : list fnum) : string := join "," (map FMT_NUM row).
Lemma join_avoids d c l : c <> d -> Forall (avoids d) l -> avoids d (join c l).
Proof.
  intros C F. induction F as [|x l A F IH]; [exact I|]. destruct l as [|y l]; [exact A|].
  change (join c (x :: y :: l)) with (x ++ String c (join c (y :: l))). apply avoids_app; [exact A|]. split; [exact C|exact IH].
Qed.
Lemma nums_avoid d row : foreign d -> Forall (avoids d) (map FMT_NUM row).
Proof. intros F. induction row; constructor; [apply avoids_num; exact F|assumption]. Qed.
Lemma row_avoids_nl row : avoids nl (row_line row).
Proof. apply join_avoids; [discriminate|]. apply nums_avoid, foreign_chars. Qed.
Lemma row_is_data row : row <> [] -> is_data (row_line row) = true.
Proof.
  intros N. destruct row as [|v row]; [congruence|]. pose proof (num_nonempty v) as E. pose proof (avoids_num "#" v (proj2 (proj2 foreign_chars))) as A.
  unfold row_line. cbn [map]. destruct (FMT_NUM v) as [|c s]; [congruence|]. destruct A as [A _]. apply Ascii.eqb_neq in A.
  destruct (map FMT_NUM row); cbn; rewrite A; reflexivity.
Qed.
Lemma concat_cons x l : String.concat "" (x :: l) = x ++ String.concat "" l.
Proof. destruct l; cbn; [rewrite app_nil_s|]; reflexivity. Qed.
Lemma split_rows rows : split_at nl (String.concat "" (map row_text rows)) = (map row_line rows ++ [""])%list.
Proof.
  induction rows as [|row rows IH]; [reflexivity|]. cbn [map]. rewrite concat_cons. unfold row_text at 1. rewrite app_assoc_s. cbn [append].
  fold (row_line row). rewrite split_cons by apply row_avoids_nl. rewrite IH. reflexivity.
Qed.
Lemma split_two d a b : split_at d (a ++ String d b) = (split_at d a ++ split_at d b)%list.
Proof.
  induction a as [|c a IH]; cbn [append split_at].
  - rewrite Ascii.eqb_refl. reflexivity.
  - destruct (Ascii.eqb c d); [rewrite IH; reflexivity|]. rewrite IH. destruct (split_at d a) as [|x l] eqn:E; [|reflexivity].
    exfalso. revert E. clear. destruct a as [|y a]; [discriminate|]. cbn. destruct (Ascii.eqb y d); [discriminate|].
    induction a as [|z a IH]; [discriminate|]. cbn. destruct (Ascii.eqb z d); [discriminate|]. destruct (split_at d a); [intros _; apply IH; reflexivity|discriminate].
Qed.
Lemma split_savetxt h rows : split_at nl (savetxt h rows) = (split_at nl ("# " ++ comment_lines h) ++ map row_line rows ++ [""])%list.
Proof. unfold savetxt. rewrite <- split_rows. rewrite <- split_two. rewrite app_assoc_s. reflexivity. Qed.
Lemma comments_only h : forall p, avoids nl p -> filter is_data (split_at nl (String "#" p ++ comment_lines h)) = [].
Proof.
  induction h as [|c h IH]; intros p A; cbn [comment_lines].
  - rewrite app_nil_s. rewrite split_avoids by (split; [discriminate|exact A]). reflexivity.
  - destruct (Ascii.eqb c nl) eqn:E.
    + rewrite split_cons by (split; [discriminate|exact A]). cbn [filter is_data]. apply (IH " "). split; [discriminate|exact I].
    + apply Ascii.eqb_neq in E. specialize (IH (p ++ String c "")). cbn [append] in IH |- *. rewrite app_assoc_s in IH. apply IH.
      apply avoids_app; [exact A|]. split; [exact E|exact I].
Qed.

Lemma all_read_close row : exists row', all_read read_num (map FMT_NUM row) = Some row' /\ Forall2 close row row'.
Proof.
  induction row as [|v row (row' & A & B)]; [exists []; split; [reflexivity|constructor]|]. destruct (number_read v) as (v' & R & C).
  exists (v' :: row'). cbn [map all_read]. rewrite R, A. split; [reflexivity|constructor; assumption].
Qed.
Lemma read_row_close row : row <> [] -> exists row', read_row (row_line row) = Some row' /\ Forall2 close row row'.
Proof.
  intros N. unfold read_row, row_line. rewrite split_join; [apply all_read_close|destruct row; [congruence|discriminate]|]. apply nums_avoid, foreign_chars.
Qed.
Lemma table_read h rows : Forall (fun r => r <> []) rows ->
  exists rows', read_table (savetxt h rows) = Some rows' /\ Forall2 (Forall2 close) rows rows'.
Proof.
  intros N. unfold read_table. rewrite split_savetxt, !filter_app. rewrite (comments_only h " ") by (split; [discriminate|exact I]).
  cbn [app filter is_data]. rewrite app_nil_r. assert (F : filter is_data (map row_line rows) = map row_line rows).
  { induction N as [|r rows A N IH]; [reflexivity|]. cbn [map filter]. rewrite (row_is_data r A), IH. reflexivity. }
  rewrite F. clear F. induction N as [|r rows A N (rows' & R & C)]; [exists []; split; [reflexivity|constructor]|].
  destruct (read_row_close r A) as (r' & R1 & C1). exists (r' :: rows'). cbn [map all_read]. rewrite R1, R. split; [reflexivity|constructor; assumption].
Qed.

(** ** Columns *)
Lemma transpose_length n : forall cols, List.length (transpose n cols) = n.
Proof. induction n as [|n IH]; intros cols; [reflexivity|]. cbn [transpose List.length]. rewrite IH. reflexivity. Qed.
Lemma transpose_rows n : forall cols, cols <> [] -> Forall (fun r => r <> [] /\ List.length r = List.length cols) (transpose n cols).
Proof.
  induction n as [|n IH]; intros cols C; [constructor|]. cbn [transpose]. constructor.
  - split; [destruct cols; [congruence|discriminate]|apply map_length].
  - rewrite <- (map_length (@tl fnum) cols). apply IH. destruct cols; [congruence|discriminate].
Qed.
Lemma transpose_nth n : forall cols i j c, nth_error cols j = Some c -> List.length c = n -> (i < n)%nat ->
  exists row v, nth_error (transpose n cols) i = Some row /\ nth_error row j = Some v /\ nth_error c i = Some v.
Proof.
  induction n as [|n IH]; intros cols i j c C L I; [lia|]. destruct c as [|v c]; [discriminate L|]. cbn [transpose]. destruct i as [|i].
  - exists (map (fun c => hd NaN c) cols), v. split; [reflexivity|]. split; [|reflexivity]. rewrite nth_error_map, C. reflexivity.
  - cbn [nth_error]. apply (IH (map (@tl fnum) cols) i j c); [rewrite nth_error_map, C; reflexivity|cbn in L; lia|lia].
Qed.

Lemma get_all_ok d keys : (forall k, In k keys -> lookup d k <> None) ->
  exists cols, get_all d keys = Ok cols /\ Forall2 (fun k c => lookup d k = Some c) keys cols.
Proof.
  induction keys as [|k keys IH]; intros H; [exists []; split; [reflexivity|constructor]|].
  destruct IH as (cols & A & B); [intros x X; apply H; right; exact X|]. specialize (H k (or_introl eq_refl)). cbn [get_all]. unfold lookup in H.
  destruct (find _ d) as [kv|] eqn:E; [|cbn in H; congruence]. rewrite A. exists (snd kv :: cols). split; [reflexivity|]. constructor; [|exact B].
  unfold lookup. rewrite E. reflexivity.
Qed.
Lemma F2_len {A B} (P : A -> B -> Prop) l m : Forall2 P l m -> List.length l = List.length m.
Proof. induction 1; cbn; congruence. Qed.
Lemma F2_nth {A B} (P : A -> B -> Prop) l m i x : Forall2 P l m -> nth_error l i = Some x -> exists y, nth_error m i = Some y /\ P x y.
Proof.
  intros F. revert i. induction F as [|a b l m Q F IH]; intros [|i] H; try discriminate H.
  - injection H as <-. exists b. split; [reflexivity|exact Q].
  - apply IH. exact H.
Qed.
Lemma F2_nth_r {A B} (P : A -> B -> Prop) l m i y : Forall2 P l m -> nth_error m i = Some y -> exists x, nth_error l i = Some x /\ P x y.
Proof.
  intros F. revert i. induction F as [|a b l m Q F IH]; intros [|i] H; try discriminate H.
  - injection H as <-. exists a. split; [reflexivity|exact Q].
  - apply IH. exact H.
Qed.

Lemma panelwise_read d n : (forall k, In k (map fst data_keys) -> exists c, lookup d k = Some c /\ List.length c = n) ->
  exists text rows, save_panelwise d = Ok text /\ read_table text = Some rows /\ List.length rows = n /\
    Forall (fun r => List.length r = 10%nat) rows /\
    forall i j k c, (i < n)%nat -> nth_error (map fst data_keys) j = Some k -> lookup d k = Some c ->
      exists v row v', nth_error c i = Some v /\ nth_error rows i = Some row /\ nth_error row j = Some v' /\ close v v'.
Proof.
  intros H. destruct (get_all_ok d (map fst data_keys)) as (cols & G & F); [intros k K; destruct (H k K) as (c & -> & _); discriminate|].
  assert (L : forall c, In c cols -> List.length c = n).
  { intros c C. apply In_nth_error in C. destruct C as (j & C). destruct (F2_nth_r _ _ _ j c F C) as (k & K & E).
    destruct (H k (nth_error_In _ _ K)) as (c' & E' & L). congruence. }
  assert (LC : List.length cols = 10%nat) by (rewrite <- (F2_len _ _ _ F); reflexivity).
  assert (EC : exists c0 cols0, cols = c0 :: cols0) by (destruct cols as [|c0 cols0]; [discriminate LC|exists c0, cols0; reflexivity]).
  destruct EC as (c0 & cols0 & EC).
  assert (S : stack cols = Ok (transpose n cols)).
  { unfold stack. rewrite EC. rewrite (L c0) by (rewrite EC; left; reflexivity).
    replace (forallb _ cols0) with true; [reflexivity|]. symmetry. apply forallb_forall. intros x X. apply Nat.eqb_eq. apply L. rewrite EC. right. exact X. }
  assert (NE : cols <> []) by (rewrite EC; discriminate). pose proof (transpose_rows n cols NE) as TR.
  destruct (table_read panel_header (transpose n cols)) as (rows & R & C); [eapply Forall_impl; [|exact TR]; intros r [A _]; exact A|].
  exists (savetxt panel_header (transpose n cols)), rows. split; [unfold save_panelwise; rewrite G; cbn [bind]; rewrite S; reflexivity|].
  split; [exact R|]. split; [rewrite <- (F2_len _ _ _ C); apply transpose_length|]. split.
  - rewrite Forall_forall in TR |- *. intros r X. apply In_nth_error in X. destruct X as (i & X). destruct (F2_nth_r _ _ _ i r C X) as (r0 & Y & Z).
    destruct (TR r0 (nth_error_In _ _ Y)) as [_ T]. rewrite <- (F2_len _ _ _ Z), T. exact LC.
  - intros i j k c I J K. destruct (F2_nth _ _ _ j k F J) as (c' & N & K'). assert (c' = c) by congruence. subst c'.
    destruct (transpose_nth n cols i j c N (L c (nth_error_In _ _ N)) I) as (row & v & A & B & D).
    destruct (F2_nth _ _ _ i row C A) as (row' & A' & Q). destruct (F2_nth _ _ _ j v Q B) as (v' & B' & P).
    exists v, row', v'. auto.
Qed.
Lemma panelwise_fails d text : save_panelwise d = Ok text ->
  exists n, forall k, In k (map fst data_keys) -> exists c, lookup d k = Some c /\ List.length c = n.
Proof.
  unfold save_panelwise. intros H. destruct (get_all d (map fst data_keys)) as [cols|] eqn:G; [|discriminate H]. cbn [bind] in H.
  assert (F : forall keys cols, get_all d keys = Ok cols -> Forall2 (fun k c => lookup d k = Some c) keys cols).
  { clear. induction keys as [|k keys IH]; intros cols H; cbn [get_all] in H; [injection H as <-; constructor|].
    destruct (find _ d) as [kv|] eqn:E; [|discriminate H]. destruct (get_all d keys) as [l|]; [|discriminate H]. injection H as <-.
    constructor; [unfold lookup; rewrite E; reflexivity|apply IH; reflexivity]. }
  specialize (F _ _ G). destruct cols as [|c0 cols]; [discriminate H|]. cbn [stack] in H.
  destruct (forallb _ cols) eqn:E; [|discriminate H]. exists (List.length c0). intros k K. apply In_nth_error in K. destruct K as (j & K).
  destruct (F2_nth _ _ _ j k F K) as (c & C & L). exists c. split; [exact L|]. destruct j as [|j]; [injection C as <-; reflexivity|].
  rewrite forallb_forall in E. apply Nat.eqb_eq. apply E. exact (nth_error_In cols j C).
Qed.

Lemma matrix_read matrix rhs : List.length rhs = List.length matrix ->
  exists text rows, save_matrix_system matrix rhs = Ok text /\ read_table text = Some rows /\ List.length rows = List.length matrix /\
    forall i row b, nth_error matrix i = Some row -> nth_error rhs i = Some b ->
      exists row' b', nth_error rows i = Some (row' ++ [b'])%list /\ Forall2 close row row' /\ close b b'.
Proof.
  intros L. unfold save_matrix_system. rewrite L, Nat.eqb_refl. set (h := "Downwash matrix: " ++ _).
  set (data := map (fun x => fst x ++ [snd x])%list (combine matrix rhs)).
  destruct (table_read h data) as (rows & R & C).
  { unfold data. apply Forall_forall. intros r X. apply in_map_iff in X. destruct X as (x & <- & _). destruct (fst x); discriminate. }
  exists (savetxt h data), rows. split; [reflexivity|]. split; [exact R|]. split.
  - rewrite <- (F2_len _ _ _ C). unfold data. rewrite map_length, combine_length, L. lia.
  - intros i row b A B. assert (D : nth_error data i = Some (row ++ [b])%list).
    { unfold data. clear C R. rewrite nth_error_map. assert (K : nth_error (combine matrix rhs) i = Some (row, b)); [|rewrite K; reflexivity].
      clear data L h. revert matrix rhs A B. induction i as [|i IH]; intros [|x matrix] [|y rhs] A B; try discriminate; [cbn in *; congruence|]. apply IH; assumption. }
    destruct (F2_nth _ _ _ i _ C D) as (r' & E & Q). apply Forall2_app_inv_l in Q. destruct Q as (r1 & r2 & Q1 & Q2 & ->).
    inversion Q2 as [|x b' l l' Q3 Q4]; subst. inversion Q4; subst. exists r1, b'. auto.
Qed.

(** The comment line of the panel table. *)
Lemma panel_comments d text : save_panelwise d = Ok text ->
  comments text = ["#" :: flat_map (fun ku => [fst ku; "[" ++ snd ku ++ "]"]) data_keys].
Proof.
  unfold save_panelwise. intros H. destruct (get_all d (map fst data_keys)) as [cols|] eqn:G; [|discriminate H]. cbn [bind] in H.
  destruct (stack cols) as [data|] eqn:S; [|discriminate H]. injection H as <-.
  assert (N : Forall (fun r => r <> []) data).
  { unfold stack in S. destruct cols as [|c cols]; [discriminate S|]. destruct (forallb _ cols); [|discriminate S]. injection S as <-.
    eapply Forall_impl; [|apply transpose_rows; discriminate]. intros r [A _]. exact A. }
  unfold comments. rewrite split_savetxt, !filter_app.
  replace (filter _ (map row_line data)) with (@nil string).
  - vm_compute. reflexivity.
  - symmetry. clear S. induction N as [|r data A N IH]; [reflexivity|]. cbn [map filter]. rewrite (row_is_data r A). cbn [negb andb]. exact IH.
Qed.

(** ** Width *)
Lemma dec_length n k : (0 <= n < 10 ^ Z.of_nat k)%Z -> (1 <= k)%nat -> (String.length (dec n) <= k)%nat.
Proof.
  intros N K. destruct (dec_spec n ltac:(lia)) as (_ & A & _ & L & _). destruct L as [L|L].
  - subst n. cbn. lia.
  - destruct (le_lt_dec (String.length (dec n)) k) as [H|H]; [exact H|]. exfalso.
    pose proof (Z.pow_le_mono_r 10 (Z.of_nat k) (Z.of_nat (String.length (dec n)) - 1) ltac:(lia) ltac:(lia)). lia.
Qed.
Lemma exponent_length e : (Z.abs e < 100)%Z -> String.length (exponent_text e) = 3%nat.
Proof.
  intros H. unfold exponent_text. rewrite !app_length_s. replace (String.length (if (e <? 0)%Z then "-" else "+")) with 1%nat by (destruct (e <? 0)%Z; reflexivity).
  destruct (dec_spec (Z.abs e) ltac:(lia)) as (_ & A & U & _). destruct (Z.ltb_spec (Z.abs e) 10) as [T|T].
  - pose proof (dec_length (Z.abs e) 1 ltac:(change (10 ^ Z.of_nat 1)%Z with 10%Z; lia) ltac:(lia)). cbn [String.length]. lia.
  - pose proof (dec_length (Z.abs e) 2 ltac:(change (10 ^ Z.of_nat 2)%Z with 100%Z; lia) ltac:(lia)) as B. cbn [String.length].
    assert (String.length (dec (Z.abs e)) <> 1%nat); [|lia]. intros E. rewrite E in U. change (10 ^ Z.of_nat 1)%Z with 10%Z in U. lia.
Qed.
Lemma mantissa_length m : (1000000 <= m < 10000000)%Z -> String.length (mantissa_text m) = 8%nat.
Proof. intros M. destruct (mantissa_read m M) as (c & r & d & E & _ & _ & L & _). rewrite E. cbn. rewrite L. reflexivity. Qed.
Lemma exp10_bound q : (1 / 10 ^ 99 <= q < 10 ^ 99)%Q -> (-99 <= exp10 q <= 98)%Z.
Proof.
  intros [A B]. assert (P : (0 < q)%Q) by (eapply Qlt_le_trans; [|exact A]; reflexivity). pose proof (exp10_spec q P) as [L U].
  assert (M : forall a b, (10 ^ a < 10 ^ b)%Q -> (a < b)%Z).
  { intros a b H. destruct (Z_lt_le_dec a b) as [K|K]; [exact K|]. exfalso. apply (Qlt_not_le _ _ H). apply Qpower_le_compat_l; [exact K|discriminate]. }
  split.
  - assert (-99 < exp10 q + 1)%Z; [|lia]. apply M. eapply Qle_lt_trans; [|exact U]. eapply Qle_trans; [|exact A]. rewrite (Qpower_opp 10 99).
    unfold Qdiv. rewrite Qmult_1_l. apply Qle_refl.
  - assert (exp10 q < 99)%Z; [|lia]. apply M. eapply Qle_lt_trans; [exact L|exact B].
Qed.
Lemma fmt_pos_length q : (1 / 10 ^ 99 <= q < 10 ^ 99)%Q -> String.length (fmt_pos q) = 12%nat.
Proof.
  intros B. assert (P : (0 < q)%Q) by (eapply Qlt_le_trans; [|apply B]; reflexivity). pose proof (exp10_bound q B) as E. pose proof (mant_range q P) as M.
  unfold fmt_pos. fold (mant q). destruct (Z.eqb_spec (mant q) 10000000); rewrite !app_length_s, mantissa_length, exponent_length; try lia; reflexivity.
Qed.
Lemma spaces_length n : String.length (spaces n) = n.
Proof. induction n as [|n IH]; [reflexivity|]. cbn. rewrite IH. reflexivity. Qed.
Lemma num_width v : match v with Fin q => (q == 0)%Q \/ (1 / 10 ^ 99 <= Qabs q < 10 ^ 99)%Q | _ => True end -> String.length (FMT_NUM v) = 13%nat.
Proof.
  intros H. unfold FMT_NUM. rewrite app_length_s, spaces_length. enough (String.length (fmt_e v) <= 13)%nat by lia.
  destruct v as [q| | |]; try (cbn; lia). cbn [fmt_e]. destruct (Qcompare_spec q 0) as [E|L|G]; [cbn; lia| |].
  - destruct H as [H|H]; [lra|]. rewrite Qabs_neg in H by lra. cbn [append String.length]. rewrite fmt_pos_length by exact H. lia.
  - destruct H as [H|H]; [lra|]. rewrite Qabs_pos in H by lra. rewrite fmt_pos_length by exact H. lia.
Qed.

(** ** Columns by position *)
Lemma substring_whole s : forall t, substring 0 (String.length s) (s ++ t) = s.
Proof. induction s as [|c s IH]; intros t; [destruct t; reflexivity|]. cbn. rewrite IH. reflexivity. Qed.
Lemma substring_skip a : forall n m t, substring (String.length a + n) m (a ++ t) = substring n m t.
Proof. induction a as [|c a IH]; intros n m t; [reflexivity|]. cbn. apply IH. Qed.
Lemma join_field d w : forall l j x, Forall (fun s => String.length s = w) l -> nth_error l j = Some x -> substring (S w * j) w (join d l) = x.
Proof.
  induction l as [|y l IH]; intros j x F N; [destruct j; discriminate N|]. inversion F as [|? ? Y F']; subst. destruct j as [|j].
  - injection N as ->. rewrite Nat.mul_0_r. destruct l as [|z l]; cbn [join]; [rewrite <- (app_nil_s x) at 2|]; apply substring_whole.
  - cbn [nth_error] in N. destruct l as [|z l]; [destruct j; discriminate N|]. change (join d (y :: z :: l)) with (y ++ String d (join d (z :: l))).
    rewrite Nat.mul_succ_r. replace (S (String.length y) * j + S (String.length y))%nat with (String.length y + S (S (String.length y) * j))%nat by lia.
    rewrite substring_skip. cbn [substring]. apply (IH j x F' N).
Qed.
Lemma panel_columns d text : save_panelwise d = Ok text ->
  (forall k c v, In k (map fst data_keys) -> lookup d k = Some c -> In v c ->
     match v with Fin q => (q == 0)%Q \/ (1 / 10 ^ 99 <= Qabs q < 10 ^ 99)%Q | _ => True end) ->
  (exists head, nth_error (split_at nl text) 0 = Some head /\
     forall j k u, nth_error data_keys j = Some (k, u) ->
       filter (fun w => negb (String.eqb w "")) (split_at " "%char (substring (14 * j + 1) 14 head)) =
       [k; "[" ++ u ++ "]"]) /\
  forall i j k c v, nth_error (map fst data_keys) j = Some k -> lookup d k = Some c -> nth_error c i = Some v ->
    exists line v', nth_error (split_at nl text) (S i) = Some line /\ read_num (substring (14 * j) 13 line) = Some v' /\ close v v'.
Proof.
  intros H W. destruct (panelwise_fails d text H) as (n & LL). unfold save_panelwise in H.
  destruct (get_all_ok d (map fst data_keys)) as (cols & G & F); [intros k K; destruct (LL k K) as (c & -> & _); discriminate|].
  rewrite G in H. cbn [bind] in H. destruct (stack cols) as [data|] eqn:S0; [|discriminate H]. injection H as <-.
  assert (L : forall c, In c cols -> List.length c = n).
  { intros c C. apply In_nth_error in C. destruct C as (j & C). destruct (F2_nth_r _ _ _ j c F C) as (k & K & E).
    destruct (LL k (nth_error_In _ _ K)) as (c' & E' & L). congruence. }
  assert (D : data = transpose n cols).
  { destruct cols as [|c0 cols]; [discriminate S0|]. unfold stack in S0. destruct (forallb _ cols); [|discriminate S0]. injection S0 as <-.
    rewrite (L c0 (or_introl eq_refl)). reflexivity. }
  subst data. rewrite split_savetxt. split.
  - eexists. split; [vm_compute; reflexivity|]. intros j k u J.
    do 10 (destruct j as [|j]; [vm_compute in J; injection J as <- <-; vm_compute; reflexivity|]). destruct j; discriminate J.
  - intros i j k c v J K V. assert (I : (i < n)%nat) by (destruct (F2_nth _ _ _ j k F J) as (c' & N & K'); assert (c' = c) by congruence; subst c'; rewrite <- (L c (nth_error_In _ _ N)); apply nth_error_Some; congruence).
    destruct (F2_nth _ _ _ j k F J) as (c' & N & K'). assert (c' = c) by congruence. subst c'.
    destruct (transpose_nth n cols i j c N (L c (nth_error_In _ _ N)) I) as (row & v0 & A & B & E). assert (v0 = v) by congruence. subst v0.
    destruct (number_read v) as (v' & R & C). exists (row_line row), v'. split; [|split; [|exact C]].
    + replace (split_at nl ("# " ++ comment_lines panel_header)) with ["# " ++ panel_header] by (vm_compute; reflexivity).
      cbn [app nth_error]. rewrite nth_error_app1 by (rewrite map_length, transpose_length; exact I). rewrite nth_error_map, A. reflexivity.
    + unfold row_line. rewrite (join_field "," 13 _ j (FMT_NUM v)); [exact R| |rewrite nth_error_map, B; reflexivity].
      apply Forall_forall. intros s X. apply in_map_iff in X. destruct X as (x & <- & X). apply num_width.
      apply In_nth_error in X. destruct X as (m & X).
      assert (M : exists cm, nth_error cols m = Some cm).
      { destruct (nth_error cols m) as [cm|] eqn:Q; [exists cm; reflexivity|]. exfalso. apply nth_error_None in Q.
        assert (NE : cols <> []) by (intros ->; destruct j; discriminate N). pose proof (transpose_rows n cols NE) as TR. rewrite Forall_forall in TR.
        destruct (TR row (nth_error_In _ _ A)) as [_ T]. assert (m < List.length row)%nat by (apply nth_error_Some; congruence). lia. }
      destruct M as (cm & M). destruct (transpose_nth n cols i m cm M (L cm (nth_error_In _ _ M)) I) as (row' & x' & A' & B' & E').
      assert (row' = row) by congruence. subst row'. assert (x' = x) by congruence. subst x'.
      destruct (F2_nth_r _ _ _ m cm F M) as (km & KM & LM).
      exact (W km cm x (nth_error_In _ _ KM) LM (nth_error_In _ _ E')).
Qed.
