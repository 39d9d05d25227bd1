(** An explicit bound on the regularisation below which the downwash matrix of a plain wing is well behaved. *)
From Coq Require Import Reals List ZArith Arith Lia Lra Psatz.
From Verif Require Import Vec PanelModel GeomSpec GeomProofs VlmModel VlmSpec VlmProofs BiotSavart RowSpec RowMatrix RowProofs RowLattice.
From Verif Require AnalysisSpec.
Import ListNotations.
Open Scope R_scope.

(** ** One leg: the regularisation scales its velocity by a factor between 0 and 1 *)
Lemma leg_ratio eps p a b : 0 <= eps -> off_line p a b -> exists r, 0 < r <= 1 /\
  (forall K, vnorm (vsub p a) * vnorm (vsub p b) <= K * (vdot (vsub p a) (vsub p b) + vnorm (vsub p a) * vnorm (vsub p b)) -> 1 - r <= eps * K) /\
  vz (leg_val eps p a b) = r * vz (leg_val 0 p a b).
Proof.
  intros E O. destruct (off_line_facts p a b O) as (U & V & DL & _). pose proof (vnorm_pos _ U) as A. pose proof (vnorm_pos _ V) as B.
  unfold leg_val. cbv zeta.
  set (n1 := vnorm (vsub p a)) in *. set (n2 := vnorm (vsub p b)) in *. set (d := vdot (vsub p a) (vsub p b)) in *.
  assert (Q : 0 < n1 * n2) by (apply Rmult_lt_0_compat; assumption). set (q := n1 * n2) in *.
  assert (EQ : 0 <= eps * q) by (apply Rmult_le_pos; lra).
  assert (P1 : 0 < d + q) by lra. assert (P2 : 0 < d + q * (1 + eps)) by lra.
  pose proof (Rinv_0_lt_compat _ P2) as I2.
  exists ((d + q) * / (d + q * (1 + eps))). split; [split|split].
  - apply Rmult_lt_0_compat; assumption.
  - apply (Rmult_le_reg_r (d + q * (1 + eps))); [exact P2|]. rewrite Rmult_assoc, Rinv_l by lra. lra.
  - intros K H. replace (1 - (d + q) * / (d + q * (1 + eps))) with (eps * (q * / (d + q * (1 + eps)))) by (field; lra).
    apply Rmult_le_compat_l; [exact E|]. apply (Rmult_le_reg_r (d + q * (1 + eps))); [exact P2|]. rewrite Rmult_assoc, Rinv_l by lra.
    assert (0 < K). { destruct (Rle_dec K 0); [|lra]. assert (0 <= - K * (d + q)) by (apply Rmult_le_pos; lra). lra. }
    assert (0 <= K * (eps * q)) by (apply Rmult_le_pos; lra). lra.
  - cbn [vscale vz]. pose proof PI_RGT_0. field. repeat split; lra.
Qed.

Section Plane.
Variables L x0 z0 x c : R.
Hypothesis X : 0 < x < L.
Let p := mkV (x0 + x) c z0.
Definition TT (d : R) : R := ((L - x) / hyp (L - x) d + x / hyp x d) / d.
Definition BB (d e : R) : R := (d / hyp x d - e / hyp x e) / x.

Lemma trail_ratio eps y : 0 <= eps -> c <> y -> (c - y) * (c - y) <= L * L -> exists r, 0 < r <= 1 /\
  (forall K, 4 * (x * x + (c - y) * (c - y)) <= K * ((c - y) * (c - y)) -> 1 - r <= eps * K) /\
  vz (leg_val eps p (mkV x0 y z0) (mkV (x0 + L) y z0)) = r * (/ (4 * PI) * TT (c - y)).
Proof.
  intros E C D. destruct (leg_ratio eps p _ _ E (trail_off L x0 z0 x c X y C)) as (r & R1 & R2 & R3). exists r. split; [exact R1|]. split.
  - intros K H. apply R2. clear R1 R2 R3.
    assert (A3 : vnorm (vsub p (mkV x0 y z0)) = hyp x (c - y)) by (unfold vnorm, hyp, p; vsimp; f_equal; ring).
    assert (A4 : vnorm (vsub p (mkV (x0 + L) y z0)) = hyp (L - x) (c - y)) by (unfold vnorm, hyp, p; vsimp; f_equal; ring).
    assert (A5 : vdot (vsub p (mkV x0 y z0)) (vsub p (mkV (x0 + L) y z0)) = (c - y) * (c - y) - x * (L - x)) by (unfold vdot, p; vsimp; ring).
    rewrite A3, A4, A5. clear A3 A4 A5. pose proof (hyp_sq x (c - y)) as S1. pose proof (hyp_sq (L - x) (c - y)) as S2.
    pose proof (hyp_pos x (c - y) ltac:(lra)) as P1. pose proof (hyp_pos (L - x) (c - y) ltac:(lra)) as P2.
    assert (D0 : c - y <> 0) by lra. set (d := c - y) in *. clearbody d. set (h1 := hyp x d) in *. set (h2 := hyp (L - x) d) in *. clearbody h1 h2.
    assert (Q : 0 < h1 * h2) by (apply Rmult_lt_0_compat; assumption).
    assert (QS : (h1 * h2) * (h1 * h2) = (x * x + d * d) * ((L - x) * (L - x) + d * d)) by (rewrite <- S1, <- S2; ring).
    set (q := h1 * h2) in *. clearbody q. clear S1 S2 P1 P2 h1 h2.
    set (s := d * d - x * (L - x)) in *.
    assert (DD : 0 < d * d) by nra. assert (LL : 0 < L * L) by nra.
    assert (F : (s + q) * (q - s) = d * d * (L * L)) by (unfold s; replace ((d * d - x * (L - x) + q) * (q - (d * d - x * (L - x)))) with (q * q - (d * d - x * (L - x)) * (d * d - x * (L - x))) by ring; rewrite QS; ring).
    assert (W : (L - x) * (L - x) + d * d <= 2 * (L * L)) by nra.
    assert (G : 2 * (q * q) <= K * (d * d * (L * L))).
    { rewrite QS. assert (XD : 0 < x * x + d * d) by nra.
      assert (T1 : (x * x + d * d) * ((L - x) * (L - x) + d * d) <= (x * x + d * d) * (2 * (L * L))) by (apply Rmult_le_compat_l; lra).
      assert (T2 : 4 * (x * x + d * d) * (L * L) <= K * (d * d) * (L * L)) by (apply Rmult_le_compat_r; lra). lra. }
    assert (K0 : 0 < K). { destruct (Rle_dec K 0); [|lra]. assert (0 <= - K * (d * d)) by (apply Rmult_le_pos; lra). nra. }
    clearbody s. assert (PP : 0 < d * d * (L * L)) by (apply Rmult_lt_0_compat; assumption).
    assert (S1 : 0 < s + q /\ 0 < q - s) by (split; nra). destruct S1 as (S1 & S2).
    (* (q - s) <= 2 q, so K (s+q) (2q) >= K (s+q)(q-s) >= 2 q q *)
    assert (M : K * ((s + q) * (q - s)) <= K * ((s + q) * (2 * q))).
    { apply Rmult_le_compat_l; [lra|]. apply Rmult_le_compat_l; lra. }
    rewrite F in M. assert (N : q * (2 * q) <= K * (s + q) * (2 * q)) by lra. apply Rmult_le_reg_r in N; lra.
  - rewrite R3. f_equal. exact (trail_z L x0 z0 x c X y C).
Qed.

Lemma bound_ratio eps y1 y2 : 0 <= eps -> y1 < y2 -> exists r, 0 < r <= 1 /\
  (forall K, 1 <= K -> ((c - y1) * (c - y2) < 0 -> 2 * (x * x) + (c - y1) * (c - y1) + (c - y2) * (c - y2) <= 4 * (x * x) * K) -> 1 - r <= eps * K) /\
  vz (leg_val eps p (mkV x0 y1 z0) (mkV x0 y2 z0)) = - (r * (/ (4 * PI) * BB (c - y1) (c - y2))).
Proof.
  intros E C. destruct (leg_ratio eps p _ _ E (bound_off L x0 z0 x c X y1 y2 C)) as (r & R1 & R2 & R3). exists r. split; [exact R1|]. split.
  - intros K K1 H. apply R2. clear R1 R2 R3.
    assert (A3 : vnorm (vsub p (mkV x0 y1 z0)) = hyp x (c - y1)) by (unfold vnorm, hyp, p; vsimp; f_equal; ring).
    assert (A4 : vnorm (vsub p (mkV x0 y2 z0)) = hyp x (c - y2)) by (unfold vnorm, hyp, p; vsimp; f_equal; ring).
    assert (A5 : vdot (vsub p (mkV x0 y1 z0)) (vsub p (mkV x0 y2 z0)) = x * x + (c - y1) * (c - y2)) by (unfold vdot, p; vsimp; ring).
    rewrite A3, A4, A5. clear A3 A4 A5. pose proof (hyp_sq x (c - y1)) as S1. pose proof (hyp_sq x (c - y2)) as S2.
    pose proof (hyp_pos x (c - y1) ltac:(lra)) as P1. pose proof (hyp_pos x (c - y2) ltac:(lra)) as P2.
    set (d := c - y1) in *. set (e := c - y2) in *. clearbody d e. set (h1 := hyp x d) in *. set (h2 := hyp x e) in *. clearbody h1 h2.
    assert (Q : 0 < h1 * h2) by (apply Rmult_lt_0_compat; assumption). assert (XX : 0 < x * x) by nra.
    destruct (Rle_dec 0 (d * e)) as [De|De].
    + assert (0 <= (K - 1) * (x * x + d * e + h1 * h2)) by (apply Rmult_le_pos; lra). lra.
    + assert (De' : d * e < 0) by lra. specialize (H De').
      assert (QS : (x * x - d * e) * (x * x - d * e) <= (h1 * h2) * (h1 * h2)).
      { replace (h1 * h2 * (h1 * h2)) with ((h1 * h1) * (h2 * h2)) by ring. rewrite S1, S2.
        replace ((x * x + d * d) * (x * x + e * e)) with ((x * x - d * e) * (x * x - d * e) + x * x * ((d + e) * (d + e))) by ring.
        assert (0 <= x * x * ((d + e) * (d + e))) by (apply Rmult_le_pos; [lra|apply Rle_0_sqr]). lra. }
      assert (QL : x * x - d * e <= h1 * h2) by nra.
      assert (QU : 2 * (h1 * h2) <= 2 * (x * x) + d * d + e * e) by nra.
      assert (K * (2 * (x * x)) <= K * (x * x + d * e + h1 * h2)) by (apply Rmult_le_compat_l; lra). lra.
  - rewrite R3. unfold p. rewrite (bound_z L x0 z0 x c X y1 y2 C). unfold BB. ring.
Qed.

Lemma frac_hyp t d : t <> 0 -> -1 <= d / hyp t d <= 1.
Proof.
  intros T. pose proof (hyp_pos t d T) as P. pose proof (hyp_sq t d) as S.
  assert (- hyp t d <= d <= hyp t d) by (split; nra).
  split; apply (Rmult_le_reg_r (hyp t d)); try exact P; unfold Rdiv; rewrite Rmult_assoc, Rinv_l; lra.
Qed.
Lemma part_hyp t d : 0 < t -> 0 < t / hyp t d <= 1.
Proof.
  intros T. pose proof (hyp_pos t d ltac:(lra)) as P. pose proof (hyp_sq t d) as S. assert (t <= hyp t d) by nra.
  split; [apply Rdiv_lt_0_compat; lra|]. apply (Rmult_le_reg_r (hyp t d)); [exact P|]. unfold Rdiv. rewrite Rmult_assoc, Rinv_l; lra.
Qed.
Lemma TT_odd d : d <> 0 -> TT (- d) = - TT d.
Proof.
  intros D. unfold TT, hyp. replace (- d * - d) with (d * d) by ring. fold (hyp x d) (hyp (L - x) d).
  pose proof (hyp_pos x d ltac:(lra)). pose proof (hyp_pos (L - x) d ltac:(lra)). field. repeat split; lra.
Qed.
Lemma TT_bound d : 0 < d -> 0 < TT d <= 2 / d.
Proof.
  intros D. unfold TT. pose proof (part_hyp x d ltac:(lra)). pose proof (part_hyp (L - x) d ltac:(lra)). split; [apply Rdiv_lt_0_compat; lra|].
  apply Rmult_le_compat_r; [left; apply Rinv_0_lt_compat; exact D|lra].
Qed.
Lemma BB_bound d e : e < d -> 0 <= BB d e <= 2 / x.
Proof.
  intros D. unfold BB. pose proof (frac_hyp x d ltac:(lra)). pose proof (frac_hyp x e ltac:(lra)).
  assert (M : e / hyp x e <= d / hyp x d).
  { pose proof (hyp_pos x d ltac:(lra)) as P. pose proof (hyp_pos x e ltac:(lra)) as P'. pose proof (hyp_sq x d) as S. pose proof (hyp_sq x e) as S'.
    apply (Rmult_le_reg_r (hyp x d * hyp x e)); [apply Rmult_lt_0_compat; assumption|].
    replace (e / hyp x e * (hyp x d * hyp x e)) with (e * hyp x d) by (field; lra). replace (d / hyp x d * (hyp x d * hyp x e)) with (d * hyp x e) by (field; lra).
    set (h := hyp x d) in *. set (k := hyp x e) in *. clearbody h k.
    assert (XX : 0 < x * x) by nra.
    assert (KK : d * d * (k * k) - e * e * (h * h) = x * x * (d * d - e * e)) by (rewrite S, S'; ring).
    destruct (Rle_dec e 0) as [E0|E0]; destruct (Rle_dec 0 d) as [D0|D0].
    - assert (0 <= - e * h) by (apply Rmult_le_pos; lra). assert (0 <= d * k) by (apply Rmult_le_pos; lra). lra.
    - assert (Z : 0 <= x * x * ((d - e) * - (d + e))) by (apply Rmult_le_pos; [lra|apply Rmult_le_pos; lra]).
      assert (0 < - e * h) by (apply Rmult_lt_0_compat; lra). assert (0 < - d * k) by (apply Rmult_lt_0_compat; lra).
      apply Ropp_le_cancel. apply Rnot_lt_le. intro N. assert (- (e * h) * - (e * h) < - (d * k) * - (d * k)) by (apply Rmult_le_0_lt_compat; lra). nra.
    - assert (Z : 0 <= x * x * ((d - e) * (d + e))) by (apply Rmult_le_pos; [lra|apply Rmult_le_pos; lra]).
      assert (0 < e * h) by (apply Rmult_lt_0_compat; lra). assert (0 < d * k) by (apply Rmult_lt_0_compat; lra).
      apply Rnot_lt_le. intro N. assert (d * k * (d * k) < e * h * (e * h)) by (apply Rmult_le_0_lt_compat; lra). nra.
    - lra. }
  split; [apply Rmult_le_pos; [lra|left; apply Rinv_0_lt_compat; lra]|]. apply Rmult_le_compat_r; [left; apply Rinv_0_lt_compat; lra|lra].
Qed.
Lemma HH_parts d : d <> 0 -> HH L x d = TT d + d / hyp x d / x.
Proof.
  intros D. unfold HH, TT. pose proof (hyp_pos x d ltac:(lra)). pose proof (hyp_pos (L - x) d ltac:(lra)).
  replace (hyp x d / (x * d)) with (hyp x d * hyp x d / (x * d * hyp x d)) by (field; repeat split; lra). rewrite hyp_sq. field. repeat split; lra.
Qed.
Lemma HH_large d : 0 < d -> / x <= HH L x d.
Proof.
  intros D. unfold HH. pose proof (hyp_pos x d ltac:(lra)) as P. pose proof (hyp_pos (L - x) d ltac:(lra)) as P'. pose proof (hyp_sq x d) as S.
  assert (0 < (L - x) / (d * hyp (L - x) d)) by (apply Rdiv_lt_0_compat; [lra|apply Rmult_lt_0_compat; assumption]).
  assert (G : 1 <= hyp x d / d). { apply (Rmult_le_reg_r d); [exact D|]. unfold Rdiv. rewrite Rmult_assoc, Rinv_l by lra. nra. }
  replace (hyp x d / (x * d)) with (hyp x d / d * / x) by (field; split; lra). pose proof (Rinv_0_lt_compat x ltac:(lra)). nra.
Qed.
(** How much less the far side counts. *)
Lemma HH_gap d e : 0 < e -> e < d -> d <= L - x -> (d - e) / (2 * (d * e)) <= HH L x e - HH L x d.
Proof.
  intros E D DL. unfold HH.
  pose proof (hyp_pos x d ltac:(lra)) as A. pose proof (hyp_pos (L - x) d ltac:(lra)) as B.
  pose proof (hyp_pos x e ltac:(lra)) as A'. pose proof (hyp_pos (L - x) e ltac:(lra)) as B'.
  assert (P1 : hyp x d / (x * d) <= hyp x e / (x * e)).
  { pose proof (hyp_sq x d) as S. pose proof (hyp_sq x e) as S'. set (r := hyp x d) in *. set (s := hyp x e) in *. clearbody r s.
    assert (K : r * e <= s * d).
    { assert (Z : (r * e) * (r * e) <= (s * d) * (s * d)).
      { replace (r * e * (r * e)) with (r * r * (e * e)) by ring. replace (s * d * (s * d)) with (s * s * (d * d)) by ring. rewrite S, S'.
        assert (e * e <= d * d) by nra. assert (0 < x * x) by nra. nra. }
      assert (0 < s * d) by nra. nra. }
    apply (Rmult_le_reg_r (x * d * e)); [repeat apply Rmult_lt_0_compat; lra|].
    replace (r / (x * d) * (x * d * e)) with (r * e) by (field; split; lra). replace (s / (x * e) * (x * d * e)) with (s * d) by (field; split; lra). exact K. }
  assert (P2 : (d - e) / (2 * (d * e)) <= (L - x) / (e * hyp (L - x) e) - (L - x) / (d * hyp (L - x) d)).
  { pose proof (hyp_sq (L - x) d) as S. pose proof (hyp_sq (L - x) e) as S'. set (t := L - x) in *. set (r := hyp t d) in *. set (s := hyp t e) in *. clearbody r s.
    assert (T0 : 0 < t) by (unfold t; lra). clearbody t.
    assert (RS : s <= r) by nra. assert (R2 : r <= 2 * t) by nra.
    assert (M : t / (e * r) <= t / (e * s)).
    { unfold Rdiv. apply Rmult_le_compat_l; [lra|]. apply Rinv_le_contravar; [apply Rmult_lt_0_compat; lra|apply Rmult_le_compat_l; lra]. }
    assert (G : / 2 <= t / r). { apply (Rmult_le_reg_r r); [lra|]. unfold Rdiv. rewrite Rmult_assoc, Rinv_l by lra. lra. }
    assert (J : t / (e * r) - t / (d * r) = t / r * ((d - e) / (d * e))) by (field; repeat split; lra).
    assert (J' : (d - e) / (2 * (d * e)) = / 2 * ((d - e) / (d * e))) by (field; split; lra).
    assert (0 <= (d - e) / (d * e)) by (apply Rmult_le_pos; [lra|left; apply Rinv_0_lt_compat, Rmult_lt_0_compat; lra]).
    assert (/ 2 * ((d - e) / (d * e)) <= t / r * ((d - e) / (d * e))) by (apply Rmult_le_compat_r; lra). lra. }
  lra.
Qed.
End Plane.

(** ** The entries of the matrix *)
Lemma scaled_near r t k m : 0 < r <= 1 -> 1 - r <= k -> - m <= t <= m -> - (k * m) <= r * t - t <= k * m.
Proof.
  intros R K M. assert (0 <= (1 - r) * (m - t)) by (apply Rmult_le_pos; lra). assert (0 <= (1 - r) * (m + t)) by (apply Rmult_le_pos; lra).
  assert (0 <= (k - (1 - r)) * m) by (apply Rmult_le_pos; lra). lra.
Qed.
Lemma TT_abs L x d e : 0 < x < L -> 0 < e -> e <= d \/ d <= - e -> - (2 / e) <= TT L x d <= 2 / e.
Proof.
  intros X E [D|D].
  - pose proof (TT_bound L x X d ltac:(lra)). assert (2 / d <= 2 / e) by (apply Rmult_le_compat_l; [lra|apply Rinv_le_contravar; lra]). lra.
  - pose proof (TT_bound L x X (- d) ltac:(lra)) as T. rewrite TT_odd in T by lra.
    assert (2 / - d <= 2 / e) by (apply Rmult_le_compat_l; [lra|apply Rinv_le_contravar; lra]). lra.
Qed.

Section Strips.
Variables L x0 z0 : R.
Lemma entry_eps eps i j y1 y2 x c a b x' c' K Kb : strip L x0 z0 i y1 y2 x c -> strip L x0 z0 j a b x' c' -> 0 <= eps -> c <> a -> c <> b ->
  (c - a) * (c - a) <= L * L -> (c - b) * (c - b) <= L * L -> 4 * (x * x + (c - a) * (c - a)) <= K * ((c - a) * (c - a)) -> 4 * (x * x + (c - b) * (c - b)) <= K * ((c - b) * (c - b)) ->
  1 <= Kb -> ((c - a) * (c - b) < 0 -> 2 * (x * x) + (c - a) * (c - a) + (c - b) * (c - b) <= 4 * (x * x) * Kb) ->
  exists r s t, (0 < r <= 1 /\ 1 - r <= eps * K) /\ (0 < s <= 1 /\ 1 - s <= eps * K) /\ (0 < t <= 1 /\ 1 - t <= eps * Kb) /\
    entry eps i j = kap i * (r * TT L x (c - a) + t * BB x (c - a) (c - b) - s * TT L x (c - b)).
Proof.
  intros (_ & X & _ & _ & _ & _ & Ci & _) (Y & _ & E1 & E2 & E3 & E4 & _) E Ca Cb La Lb Ka Kb' K1 Kc.
  destruct (trail_ratio L x0 z0 x c X eps a E Ca La) as (r & R1 & R2 & R3). destruct (trail_ratio L x0 z0 x c X eps b E Cb Lb) as (s & S1 & S2 & S3).
  destruct (bound_ratio L x0 z0 x c X eps a b E ltac:(lra)) as (t & T1 & T2 & T3).
  exists r, s, t. split; [split; [exact R1|exact (R2 K Ka)]|]. split; [split; [exact S1|exact (S2 K Kb')]|]. split; [split; [exact T1|exact (T2 Kb K1 Kc)]|].
  unfold entry. rewrite E1, E2, E3, E4, Ci. rewrite (leg_val_rev eps (mkV x0 a z0) (mkV (x0 + L) a z0)).
  destruct (plane_xy eps (mkV (x0 + x) c z0) (mkV x0 a z0) (mkV (x0 + L) a z0) eq_refl eq_refl) as [A1 A2].
  destruct (plane_xy eps (mkV (x0 + x) c z0) (mkV x0 a z0) (mkV x0 b z0) eq_refl eq_refl) as [B1 B2].
  destruct (plane_xy eps (mkV (x0 + x) c z0) (mkV x0 b z0) (mkV (x0 + L) b z0) eq_refl eq_refl) as [D1 D2].
  unfold vdot. cbn [vadd vscale vx vy vz]. rewrite A1, A2, B1, B2, D1, D2, R3, S3, T3. unfold kap. ring.
Qed.
Lemma entry_0' i j y1 y2 x c a b x' c' : strip L x0 z0 i y1 y2 x c -> strip L x0 z0 j a b x' c' -> c <> a -> c <> b ->
  entry 0 i j = kap i * (TT L x (c - a) + BB x (c - a) (c - b) - TT L x (c - b)).
Proof.
  intros Hi Hj A B. pose proof (proj1 (proj2 Hi)) as X. rewrite (entry_0 L x0 z0 i j _ _ _ _ _ _ _ _ Hi Hj A B). rewrite !(HH_parts L x X) by lra. unfold BB. 
  pose proof (hyp_pos x (c - a) ltac:(lra)). pose proof (hyp_pos x (c - b) ltac:(lra)). field. repeat split; lra.
Qed.

Variables (y : R) (lat : list panel) (eps xi xm de w wm D : R).
Hypothesis S : strips L x0 z0 y lat.
Hypothesis E : 0 <= eps.
Hypothesis P : 0 < xi /\ 0 < de /\ 0 < w /\ 0 <= D.
Hypothesis DL : D + xm <= L.
Hypothesis M : forall j y1 y2 x c, In j lat -> strip L x0 z0 j y1 y2 x c -> xi <= x <= xm /\ w <= y2 - y1 <= wm /\ de <= c - y1 /\ de <= y2 - c /\ y2 <= y + D.
Let KT := 4 * (1 + xm / de * (xm / de)).
Let KB := 1 + wm / xi * (wm / xi).
Hypothesis H1 : 4 * eps * KT * D < w.
Hypothesis H2 : INR (length lat) * (eps * (4 * KT * (xm / de) + 2 * KB)) <= 1.
Let n := length lat.
Let dflt := hd (mkPanel vzero vzero vzero vzero vzero vzero vzero vzero vzero vzero vzero 0) lat.
Let pan i := nth i lat dflt.
Let A e i j := entry e (pan i) (pan j).

Lemma KT_cond x d : 0 < x <= xm -> de <= d \/ d <= - de -> 4 * (x * x + d * d) <= KT * (d * d).
Proof.
  intros X Dd. unfold KT. destruct P as (_ & D0 & _).
  assert (Q : 1 <= d / de * (d / de)).
  { assert (Z : de * de <= d * d) by (destruct Dd; nra). apply (Rmult_le_reg_r (de * de)); [nra|]. replace (d / de * (d / de) * (de * de)) with (d * d) by (field; lra). lra. }
  replace (4 * (1 + xm / de * (xm / de)) * (d * d)) with (4 * (d * d) + 4 * (xm * xm * (d / de * (d / de)))) by (field; lra).
  assert (x * x <= xm * xm) by nra. assert (xm * xm * 1 <= xm * xm * (d / de * (d / de))) by (apply Rmult_le_compat_l; nra). lra.
Qed.
Lemma KT_pos : 0 < KT.
Proof. unfold KT. pose proof (Rle_0_sqr (xm / de)) as Z. unfold Rsqr in Z. lra. Qed.
Lemma KB_1 : 1 <= KB.
Proof. unfold KB. pose proof (Rle_0_sqr (wm / xi)) as Z. unfold Rsqr in Z. lra. Qed.
Lemma KB_cond x d e : xi <= x -> 0 <= wm -> - wm <= d <= wm -> - wm <= e <= wm -> 2 * (x * x) + d * d + e * e <= 4 * (x * x) * KB.
Proof.
  intros X W Hd He. unfold KB. destruct P as (X0 & _).
  assert (Q : 1 <= x / xi * (x / xi)).
  { apply (Rmult_le_reg_r (xi * xi)); [nra|]. replace (x / xi * (x / xi) * (xi * xi)) with (x * x) by (field; lra). nra. }
  replace (4 * (x * x) * (1 + wm / xi * (wm / xi))) with (4 * (x * x) + 4 * (wm * wm * (x / xi * (x / xi)))) by (field; lra).
  assert (wm * wm * 1 <= wm * wm * (x / xi * (x / xi))) by (apply Rmult_le_compat_l; nra). assert (d * d <= wm * wm) by nra. assert (e * e <= wm * wm) by nra. nra.
Qed.

(** The distances from a collocation point to the sides of the panels. *)
Lemma pan_dist i j y1 y2 x c a b x' c' : (i < n)%nat -> (j < n)%nat -> strip L x0 z0 (pan i) y1 y2 x c -> strip L x0 z0 (pan j) a b x' c' ->
  (de <= c - a \/ c - a <= - de) /\ (de <= c - b \/ c - b <= - de) /\ - D <= c - a <= D /\ - D <= c - b <= D.
Proof.
  intros I J Hi Hj. pose proof (M _ _ _ _ _ (nth_In lat dflt I) Hi) as Mi. pose proof (M _ _ _ _ _ (nth_In lat dflt J) Hj) as Mj.
  destruct (strips_In L x0 z0 y lat S _ (nth_In lat dflt I)) as (? & ? & ? & ? & Gi & Yi). destruct (strip_fun _ _ _ _ _ _ _ _ _ _ _ _ Hi Gi) as (<- & <- & <- & <-).
  destruct (strips_In L x0 z0 y lat S _ (nth_In lat dflt J)) as (? & ? & ? & ? & Gj & Yj). destruct (strip_fun _ _ _ _ _ _ _ _ _ _ _ _ Hj Gj) as (<- & <- & <- & <-).
  pose proof (proj1 Hi) as Ci. pose proof (proj1 Hj) as Cj. destruct P as (_ & D0 & _).
  destruct (lt_eq_lt_dec i j) as [[Lt|Ee]|Lt].
  - pose proof (pan_order L x0 z0 y lat S i j I J Lt _ _ _ _ _ _ _ _ Hi Hj). split; [|split]; [right; lra|right; lra|lra].
  - subst j. destruct (strip_fun _ _ _ _ _ _ _ _ _ _ _ _ Hi Hj) as (<- & <- & _ & _). split; [|split]; [left; lra|right; lra|lra].
  - pose proof (pan_order L x0 z0 y lat S j i J I Lt _ _ _ _ _ _ _ _ Hj Hi). split; [|split]; [left; lra|left; lra|lra].
Qed.
Lemma entry_pan i j y1 y2 x c a b x' c' : (i < n)%nat -> (j < n)%nat -> strip L x0 z0 (pan i) y1 y2 x c -> strip L x0 z0 (pan j) a b x' c' ->
  exists r s t, (0 < r <= 1 /\ 1 - r <= eps * KT) /\ (0 < s <= 1 /\ 1 - s <= eps * KT) /\ (0 < t <= 1 /\ 1 - t <= eps * KB) /\
    A eps i j = kap (pan i) * (r * TT L x (c - a) + t * BB x (c - a) (c - b) - s * TT L x (c - b)).
Proof.
  intros I J Hi Hj. destruct (pan_dist i j _ _ _ _ _ _ _ _ I J Hi Hj) as (Da & Db & La & Lb). destruct P as (X0 & D0 & W0 & DD).
  pose proof (M _ _ _ _ _ (nth_In lat dflt I) Hi) as (Xi & _). pose proof (M _ _ _ _ _ (nth_In lat dflt J) Hj) as (_ & Wj & _).
  apply (entry_eps eps (pan i) (pan j) y1 y2 x c a b x' c' KT KB Hi Hj E); try lra.
  - nra.
  - nra.
  - apply KT_cond; lra.
  - apply KT_cond; lra.
  - exact KB_1.
  - intros N. pose proof (proj1 Hj) as Cj. assert (0 < c - a /\ c - b < 0) by (destruct Da, Db; split; try lra; nra). apply KB_cond; lra.
Qed.
Lemma side_neg k u v : 0 < v -> v < u -> w <= u - v -> u <= D -> forall x, xi <= x <= xm -> x < L -> forall r s t,
  0 < k -> (0 < r <= 1 /\ 1 - r <= eps * KT) -> (0 < s <= 1 /\ 1 - s <= eps * KT) -> (0 < t <= 1 /\ 1 - t <= eps * KB) ->
  k * (r * TT L x u + t * BB x u v - s * TT L x v) < 0.
Proof.
  intros V UV W UD x X XL r s t K R Ss T. destruct P as (X0 & D0 & W0 & DD). assert (XX : 0 < x < L) by lra.
  pose proof (TT_bound L x XX u ltac:(lra)) as Tu. pose proof (TT_bound L x XX v V) as Tv. pose proof (BB_bound L x XX u v UV) as B.
  pose proof (HH_gap L x XX u v V UV ltac:(lra)) as G. rewrite !(HH_parts L x XX) in G by lra.
  assert (EB : u / hyp x u / x - v / hyp x v / x = BB x u v) by (unfold BB; pose proof (hyp_pos x u ltac:(lra)); pose proof (hyp_pos x v ltac:(lra)); field; repeat split; lra).
  assert (Q1 : r * TT L x u <= TT L x u) by nra. assert (Q2 : t * BB x u v <= BB x u v) by nra.
  pose proof (scaled_near s (TT L x v) (eps * KT) (2 / v) (proj1 Ss) (proj2 Ss) ltac:(lra)) as Q3.
  assert (Q4 : eps * KT * (2 / v) < (u - v) / (2 * (u * v))).
  { apply (Rmult_lt_reg_r (2 * (u * v))); [nra|]. replace (eps * KT * (2 / v) * (2 * (u * v))) with (4 * eps * KT * u) by (field; lra).
    replace ((u - v) / (2 * (u * v)) * (2 * (u * v))) with (u - v) by (field; split; lra).
    assert (0 <= 4 * eps * KT) by (pose proof KT_pos; nra). assert (4 * eps * KT * u <= 4 * eps * KT * D) by (apply Rmult_le_compat_l; lra). lra. }
  assert (Z : r * TT L x u + t * BB x u v - s * TT L x v < 0) by lra. nra.
Qed.
Lemma eps_neg i j : (i < n)%nat -> (j < n)%nat -> i <> j -> A eps i j < 0.
Proof.
  intros I J N. destruct (pan_strip L x0 z0 y lat S i I) as (y1 & y2 & x & c & Hi). destruct (pan_strip L x0 z0 y lat S j J) as (a & b & x' & c' & Hj).
  destruct (entry_pan i j _ _ _ _ _ _ _ _ I J Hi Hj) as (r & s & t & R & Ss & T & ->).
  destruct (pan_dist i j _ _ _ _ _ _ _ _ I J Hi Hj) as (_ & _ & La & Lb).
  pose proof (M _ _ _ _ _ (nth_In lat dflt I) Hi) as (Xi & _). pose proof (M _ _ _ _ _ (nth_In lat dflt J) Hj) as (_ & Wj & _).
  pose proof (kap_pos _ _ _ _ _ _ _ _ Hi) as K. pose proof Hi as (Ci & Xl & _). pose proof (proj1 Hj) as Cj.
  destruct (lt_eq_lt_dec i j) as [[Lt|Ee]|Lt]; [|congruence|].
  - pose proof (pan_order L x0 z0 y lat S i j I J Lt _ _ _ _ _ _ _ _ Hi Hj) as O.
    pose proof (side_neg (kap (pan i)) (b - c) (a - c) ltac:(lra) ltac:(lra) ltac:(lra) ltac:(lra) x Xi (proj2 Xl) s r t K Ss R T) as Q.
    replace (c - a) with (- (a - c)) by ring. replace (c - b) with (- (b - c)) by ring. rewrite !(TT_odd L x Xl) by lra.
    assert (BO : BB x (- (a - c)) (- (b - c)) = BB x (b - c) (a - c)).
    { unfold BB, hyp. replace (- (a - c) * - (a - c)) with ((a - c) * (a - c)) by ring. replace (- (b - c) * - (b - c)) with ((b - c) * (b - c)) by ring.
      fold (hyp x (a - c)) (hyp x (b - c)). pose proof (hyp_pos x (a - c) ltac:(lra)). pose proof (hyp_pos x (b - c) ltac:(lra)). field. repeat split; lra. }
    rewrite BO. replace (r * - TT L x (a - c) + t * BB x (b - c) (a - c) - s * - TT L x (b - c)) with (s * TT L x (b - c) + t * BB x (b - c) (a - c) - r * TT L x (a - c)) by ring. exact Q.
  - pose proof (pan_order L x0 z0 y lat S j i J I Lt _ _ _ _ _ _ _ _ Hj Hi) as O.
    exact (side_neg (kap (pan i)) (c - a) (c - b) ltac:(lra) ltac:(lra) ltac:(lra) ltac:(lra) x Xi (proj2 Xl) r s t K R Ss T).
Qed.
Lemma eps_close i j y1 y2 x c : (i < n)%nat -> (j < n)%nat -> strip L x0 z0 (pan i) y1 y2 x c ->
  A 0 i j - kap (pan i) * (eps * (4 * KT * (xm / de) + 2 * KB) / x) <= A eps i j.
Proof.
  intros I J Hi. destruct (pan_strip L x0 z0 y lat S j J) as (a & b & x' & c' & Hj).
  destruct (entry_pan i j _ _ _ _ _ _ _ _ I J Hi Hj) as (r & s & t & R & Ss & T & ->).
  destruct (pan_dist i j _ _ _ _ _ _ _ _ I J Hi Hj) as (Da & Db & La & Lb). destruct P as (X0 & D0 & W0 & DD).
  pose proof (M _ _ _ _ _ (nth_In lat dflt I) Hi) as (Xi & _).
  pose proof (kap_pos _ _ _ _ _ _ _ _ Hi) as K. pose proof Hi as (Ci & Xl & _). pose proof (proj1 Hj) as Cj.
  unfold A. rewrite (entry_0' (pan i) (pan j) _ _ _ _ _ _ _ _ Hi Hj) by lra.
  pose proof (TT_abs L x (c - a) de Xl D0 Da) as Ta. pose proof (TT_abs L x (c - b) de Xl D0 Db) as Tb. pose proof (BB_bound L x Xl (c - a) (c - b) ltac:(lra)) as B.
  pose proof (scaled_near r _ (eps * KT) (2 / de) (proj1 R) (proj2 R) Ta) as Q1.
  pose proof (scaled_near s _ (eps * KT) (2 / de) (proj1 Ss) (proj2 Ss) Tb) as Q2.
  pose proof (scaled_near t (BB x (c - a) (c - b)) (eps * KB) (2 / x) (proj1 T) (proj2 T) ltac:(lra)) as Q3.
  assert (Z : eps * KT * (2 / de) <= eps * (2 * KT * (xm / de)) / x).
  { replace (eps * (2 * KT * (xm / de)) / x) with (eps * KT * (2 / de) * (xm / x)) by (field; split; lra).
    assert (1 <= xm / x). { apply (Rmult_le_reg_r x); [lra|]. unfold Rdiv. rewrite Rmult_assoc, Rinv_l; lra. }
    assert (0 <= eps * KT * (2 / de)). { apply Rmult_le_pos; [apply Rmult_le_pos; [exact E|left; exact KT_pos]|]. apply Rmult_le_pos; [lra|left; apply Rinv_0_lt_compat; exact D0]. }
    nra. }
  replace (eps * (4 * KT * (xm / de) + 2 * KB) / x) with (2 * (eps * (2 * KT * (xm / de)) / x) + eps * KB * (2 / x)) by (field; split; lra).
  set (m := eps * (2 * KT * (xm / de)) / x) in *. clearbody m. set (m' := eps * KB * (2 / x)) in *. clearbody m'.
  rewrite <- Rmult_minus_distr_l. apply Rmult_le_compat_l; lra.
Qed.
Lemma row_large i y1 y2 x c pre post : strip L x0 z0 i y1 y2 x c -> strips L x0 z0 y (pre ++ i :: post) -> kap i / x < rsum (map (entry 0 i) (pre ++ i :: post)).
Proof.
  intros I S1. destruct (strips_split L x0 z0 _ _ _ _ S1 _ _ _ _ I) as (Yy & S' & _).
  pose proof (left_sum L x0 z0 i y1 y2 x c I post pre y S1) as Al. pose proof (right_sum L x0 z0 i y1 y2 x c I post y2 (Rle_refl _) S') as B.
  pose proof I as (Y & X & _). pose proof (kap_pos _ _ _ _ _ _ _ _ I) as Kp. rewrite map_app, rsum_app. cbn [map]. change (rsum (?a :: ?l)) with (a + rsum l).
  rewrite (entry_0 L x0 z0 i i _ _ _ _ _ _ _ _ I I) by lra. replace (c - y2) with (- (y2 - c)) by ring. rewrite HH_odd by lra.
  pose proof (HH_large L x X (c - y) ltac:(lra)) as G. assert (kap i * / x <= kap i * HH L x (c - y)) by (apply Rmult_le_compat_l; lra). unfold Rdiv. lra.
Qed.
Lemma sum_const m k : sum m (fun _ => k) = INR m * k.
Proof. induction m as [|m IH]; [rewrite sum_0; cbn [INR]; ring|]. rewrite sum_S, IH, S_INR. ring. Qed.
Lemma eps_sum i : (i < n)%nat -> 0 < sum n (A eps i).
Proof.
  intros I. destruct (pan_strip L x0 z0 y lat S i I) as (y1 & y2 & x & c & Hi). destruct (pan_split lat i I) as (pre & post & Ee & _).
  pose proof S as S'. rewrite Ee in S'. pose proof (row_large _ _ _ _ _ pre post Hi S') as Q. change (nth i lat _) with (pan i) in Q, Ee. rewrite <- Ee in Q.
  assert (Q' : kap (pan i) / x < sum n (A 0 i)). { rewrite (lat_seq lat), map_map in Q. exact Q. }
  set (k := eps * (4 * KT * (xm / de) + 2 * KB) / x).
  assert (G : sum n (fun j => A 0 i j + - (kap (pan i) * k)) <= sum n (A eps i)).
  { apply sum_le. intros j J. pose proof (eps_close i j _ _ _ _ I J Hi) as Z. fold k in Z. lra. }
  rewrite sum_add, sum_const in G. pose proof (kap_pos _ _ _ _ _ _ _ _ Hi) as K. pose proof Hi as (_ & X & _).
  assert (F : INR n * k <= / x).
  { unfold k. unfold Rdiv at 2. replace (INR n * (eps * (4 * KT * (xm / de) + 2 * KB) * / x)) with (INR n * (eps * (4 * KT * (xm / de) + 2 * KB)) * / x) by ring.
    pose proof (Rinv_0_lt_compat x (proj1 X)). pose proof H2 as H2'. fold n in H2'. assert (INR n * (eps * (4 * KT * (xm / de) + 2 * KB)) * / x <= 1 * / x) by (apply Rmult_le_compat_r; lra). lra. }
  assert (kap (pan i) * (INR n * k) <= kap (pan i) * / x) by (apply Rmult_le_compat_l; [left; exact K|exact F]). unfold Rdiv in Q'.
  assert (INR n * - (kap (pan i) * k) = - (kap (pan i) * (INR n * k))) by ring. lra.
Qed.
Lemma eps_matrix : exists m, downwash eps lat = Some m /\ length m = length lat /\ well_behaved m.
Proof.
  assert (MM : mm n (A eps)) by (split; [intros i j I J N; left; exact (eps_neg i j I J N)|exact eps_sum]).
  exists (matrix n (A eps)). split; [exact (the_matrix L x0 z0 y lat S eps E)|]. split; [apply matrix_length|]. split; [apply matrix_regular; exact MM|]. split; [apply matrix_uniquely; exact MM|].
  intros b g G B. split; [exact (matrix_nonneg _ _ b g MM G B)|exact (matrix_pos _ _ b g MM eps_neg G B)].
Qed.
End Strips.
