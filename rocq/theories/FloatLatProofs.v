(** Proofs about the lattice in floating-point arithmetic (C116). *)
From Coq Require Import Reals ZArith Lra Lia Psatz List Arith.
From Flocq Require Import Core.
From Verif Require Import Vec PanelModel FloatModel FloatLatModel FloatSpec FloatLatSpec FloatProofs.
Open Scope R_scope.

(** ** Shared edges, for any rounding *)
Section Shared.
Variable rnd : R -> R.
Lemma chordwise dir q ps pc i j : share_chordwise (fmake_panel rnd dir q ps pc i j) (fmake_panel rnd dir q ps pc (i + 1) j).
Proof. split; reflexivity. Qed.
Lemma spanwise dir q ps pc i j : share_spanwise (fmake_panel rnd dir q ps pc i j) (fmake_panel rnd dir q ps pc i (j + 1)).
Proof. repeat split; reflexivity. Qed.
End Shared.

Section P.
Variable u : R.
Variable rnd : R -> R.
Hypothesis RND : rounding u rnd.
Notation ap := (approx u).

Lemma rnd0 : rnd 0 = 0.
Proof. assert (H := proj2 RND 0). rewrite Rabs_R0, Rmult_0_r, Rminus_0_r in H. pose proof (Rabs_pos (rnd 0)). destruct (Req_dec (rnd 0) 0) as [E|N]; [exact E|]. apply Rabs_pos_lt in N. lra. Qed.

Lemma first_corner dir q ps pc : rnd (vx (qa q)) = vx (qa q) -> rnd (vy (qa q)) = vy (qa q) -> rnd (vz (qa q)) = vz (qa q) ->
  lP (fmake_panel rnd dir q ps pc 0 0) = qa q.
Proof.
  intros X Y Z. unfold fmake_panel, fpanel_of_corners. cbn [lP]. unfold fcorner.
  assert (E : forall pA pB pC pD d e, rnd pA = pA -> fcoord rnd pA pB pC pD (fmul rnd d (IZR 0)) (fmul rnd e (IZR 0)) = pA).
  { intros pA pB pC pD d e E. unfold fcoord, fmul, fadd. repeat rewrite ?Rmult_0_r, ?rnd0, ?Rplus_0_r, ?E. reflexivity. }
  rewrite !E by assumption. destruct (qa q). reflexivity.
Qed.

(** ** Accuracy *)
Lemma parameter n k : (0 < n)%Z -> (0 <= k <= n)%Z -> ap 2 (fmul rnd (rnd (1 / IZR n)) (IZR k)) (IZR k / IZR n) 1.
Proof.
  intros N [K1 K2]. apply IZR_lt in N. apply IZR_le in K1, K2.
  replace (IZR k / IZR n) with (1 / IZR n * IZR k) by (unfold Rdiv; ring).
  apply (ap_size_mono u rnd RND 2 _ _ (Rabs (1 / IZR n) * Rabs (IZR k))).
  - rewrite <- Rabs_mult. replace (1 / IZR n * IZR k) with (IZR k / IZR n) by (unfold Rdiv; ring). rewrite Rabs_right.
    + apply (Rmult_le_reg_r (IZR n)); [exact N|]. unfold Rdiv. rewrite Rmult_assoc, Rinv_l by lra. lra.
    + apply Rle_ge. apply Rmult_le_pos; [exact K1|]. left. apply Rinv_0_lt_compat. exact N.
  - apply (ap_fmul u rnd RND 1 0); [apply (ap_rnd u rnd RND), ap_exact|apply ap_exact].
Qed.
Lemma ap_at x M : Rabs x <= M -> ap 0 x x M. Proof. intro H. apply (ap_size_mono u rnd RND _ _ _ (Rabs x)); [exact H|]. apply ap_exact. Qed.
Lemma ap_coord pA pB pC pD s S c C M : Rabs pA <= M -> Rabs pB <= M -> Rabs pC <= M -> Rabs pD <= M -> ap 2 s S 1 -> ap 2 c C 1 ->
  ap 10 (fcoord rnd pA pB pC pD s c) (coord pA pB pC pD S C) (9 * M).
Proof.
  intros HA HB HC HD HS HC'. unfold fcoord, coord.
  replace (9 * M) with (M + (M + M) * 1 + (M + M) * 1 + (M + M + M + M) * 1 * 1) by ring.
  assert (K2 : ap 4 (fmul rnd (fsub rnd pB pA) s) ((pB - pA) * S) ((M + M) * 1)).
  { apply (ap_fmul u rnd RND 1 2); [|exact HS]. apply (ap_fsub u rnd RND 0 0); apply ap_at; assumption. }
  assert (K3 : ap 4 (fmul rnd (fsub rnd pD pA) c) ((pD - pA) * C) ((M + M) * 1)).
  { apply (ap_fmul u rnd RND 1 2); [|exact HC']. apply (ap_fsub u rnd RND 0 0); apply ap_at; assumption. }
  assert (K4 : ap 3 (fsub rnd (fadd rnd (fsub rnd pA pB) pC) pD) (pA - pB + pC - pD) (M + M + M + M)).
  { apply (ap_fsub u rnd RND 2 0); [|apply ap_at; assumption]. apply (ap_fadd u rnd RND 1 0); [|apply ap_at; assumption].
    apply (ap_fsub u rnd RND 0 0); apply ap_at; assumption. }
  apply (ap_fadd u rnd RND 6 9).
  - apply (ap_fadd u rnd RND 5 4); [|exact K3]. apply (ap_fadd u rnd RND 0 4); [apply ap_at; assumption|exact K2].
  - apply (ap_fmul u rnd RND 6 2); [|exact HC']. apply (ap_fmul u rnd RND 3 2); assumption.
Qed.

(** Vectors with one size for all coordinates. *)
Definition vap (k : nat) (v V : vec) (m : R) : Prop := ap k (vx v) (vx V) m /\ ap k (vy v) (vy V) m /\ ap k (vz v) (vz V) m.
Lemma vap_close k v V m : vap k v V m -> vclose u k v V m.
Proof. intros (A & B & C). split; [|split]; apply ap_close; assumption. Qed.
Lemma ap_const a b : 0 <= a -> 0 <= b -> forall k x X m, ap k x X (b * m) -> ap (S k) (fmul rnd a x) (a * X) (a * (b * m)).
Proof. intros A B k x X m H. apply (ap_fmul u rnd RND 0 k); [|exact H]. apply ap_at. rewrite Rabs_right; lra. Qed.
Lemma ap_scale a k x X m : 0 <= a -> ap k x X m -> ap (S k) (fmul rnd a x) (a * X) (a * m).
Proof. intros A H. apply (ap_fmul u rnd RND 0 k); [|exact H]. apply ap_at. rewrite Rabs_right; lra. Qed.

Lemma vap_corner q s S c C M : bounded M q -> ap 2 s S 1 -> ap 2 c C 1 -> vap 10 (fcorner rnd q s c) (corner q S C) (9 * M).
Proof.
  intros (A & B & D & E) HS HC. destruct A as (? & ? & ?), B as (? & ? & ?), D as (? & ? & ?), E as (? & ? & ?).
  split; [|split]; cbn [fcorner corner vx vy vz]; apply ap_coord; assumption.
Qed.
Lemma vap_side a A b B m : vap 10 a A m -> vap 10 b B m ->
  vap 12 (fside rnd a b) (mkV (0.75 * vx A + 0.25 * vx B) (0.75 * vy A + 0.25 * vy B) (0.75 * vz A + 0.25 * vz B)) m.
Proof.
  intros (X & Y & Z) (X' & Y' & Z').
  assert (E : forall a A b B, ap 10 a A m -> ap 10 b B m -> ap 12 (fadd rnd (fmul rnd 0.75 a) (fmul rnd 0.25 b)) (0.75 * A + 0.25 * B) m).
  { intros. replace m with (0.75 * m + 0.25 * m) by lra. apply (ap_fadd u rnd RND 11 11); apply ap_scale; try assumption; lra. }
  split; [|split]; cbn [fside vx vy vz]; apply E; assumption.
Qed.
Lemma vap_leg d v V m L : vbounded L d -> vap 12 v V m -> vap 13 (fvadd rnd v d) (vadd V d) (m + L).
Proof.
  intros (A & B & C) (X & Y & Z). split; [|split]; cbn [fvadd vadd vx vy vz]; apply (ap_fadd u rnd RND 12 0); try assumption; apply ap_at; assumption.
Qed.
Lemma vap_colloc P P' Q Q' R R' S S' m : vap 10 P P' m -> vap 10 Q Q' m -> vap 10 R R' m -> vap 10 S S' m ->
  let co p q r s := 0.125 * (p + q) + 0.375 * (r + s) in
  vap 13 (fcolloc rnd P Q R S) (mkV (co (vx P') (vx Q') (vx R') (vx S')) (co (vy P') (vy Q') (vy R') (vy S')) (co (vz P') (vz Q') (vz R') (vz S'))) m.
Proof.
  intros (A & B & C) (D & E & F) (G & H & I) (J & K & L) co.
  assert (Z : forall p p' q q' r r' s s', ap 10 p p' m -> ap 10 q q' m -> ap 10 r r' m -> ap 10 s s' m ->
    ap 13 (fadd rnd (fmul rnd 0.125 (fadd rnd p q)) (fmul rnd 0.375 (fadd rnd r s))) (co p' q' r' s') m).
  { intros. unfold co. replace m with (0.125 * (m + m) + 0.375 * (m + m)) by lra.
    apply (ap_fadd u rnd RND 12 12); (apply ap_scale; [lra|]); apply (ap_fadd u rnd RND 10 10); assumption. }
  split; [|split]; cbn [fcolloc vx vy vz]; apply Z; assumption.
Qed.
Lemma vap_middle a A b B m : vap 12 a A m -> vap 12 b B m ->
  vap 14 (fmiddle rnd a b) (mkV (0.5 * (vx A + vx B)) (0.5 * (vy A + vy B)) (0.5 * (vz A + vz B))) m.
Proof.
  intros (X & Y & Z) (X' & Y' & Z').
  assert (E : forall a A b B, ap 12 a A m -> ap 12 b B m -> ap 14 (fmul rnd 0.5 (fadd rnd a b)) (0.5 * (A + B)) m).
  { intros. replace m with (0.5 * (m + m)) by lra. apply ap_scale; [lra|]. apply (ap_fadd u rnd RND 12 12); assumption. }
  split; [|split]; cbn [fmiddle vx vy vz]; apply E; assumption.
Qed.
Lemma vap_half4 a A b B c C d D m : vap 10 a A m -> vap 10 b B m -> vap 10 c C m -> vap 10 d D m ->
  let f a b c d := 0.5 * (a - b + c - d) in
  vap 14 (fhalf4 rnd a b c d) (mkV (f (vx A) (vx B) (vx C) (vx D)) (f (vy A) (vy B) (vy C) (vy D)) (f (vz A) (vz B) (vz C) (vz D))) (2 * m).
Proof.
  intros (X & Y & Z) (X' & Y' & Z') (G & H & I) (J & K & L) f.
  assert (E : forall a A b B c C d D, ap 10 a A m -> ap 10 b B m -> ap 10 c C m -> ap 10 d D m ->
    ap 14 (fmul rnd 0.5 (fsub rnd (fadd rnd (fsub rnd a b) c) d)) (f A B C D) (2 * m)).
  { intros. unfold f. replace (2 * m) with (0.5 * (m + m + m + m)) by lra. apply ap_scale; [lra|].
    apply (ap_fsub u rnd RND 12 10); [|assumption]. apply (ap_fadd u rnd RND 11 10); [|assumption]. apply (ap_fsub u rnd RND 10 10); assumption. }
  split; [|split]; cbn [fhalf4 vx vy vz]; apply E; assumption.
Qed.

(** Lengths. *)
Lemma vnorm_le1 v : vnorm v <= Rabs (vx v) + Rabs (vy v) + Rabs (vz v).
Proof.
  pose proof (Rabs_pos (vx v)). pose proof (Rabs_pos (vy v)). pose proof (Rabs_pos (vz v)).
  assert (S : forall x, x * x = Rabs x * Rabs x) by (intro x; rewrite <- Rabs_mult, Rabs_right by nra; reflexivity).
  unfold vnorm. rewrite (S (vx v)), (S (vy v)), (S (vz v)).
  apply Rle_trans with (sqrt ((Rabs (vx v) + Rabs (vy v) + Rabs (vz v)) * (Rabs (vx v) + Rabs (vy v) + Rabs (vz v)))).
  - apply sqrt_le_1_alt. nra.
  - rewrite sqrt_square by lra. lra.
Qed.
Lemma vnorm_sub v w : Rabs (vnorm v - vnorm w) <= vnorm (vsub v w).
Proof.
  assert (T : forall a b, vnorm (vadd a b) <= vnorm a + vnorm b).
  { intros a b. pose proof (vnorm_nonneg a) as A. pose proof (vnorm_nonneg b) as B.
    assert (CS : vdot a b <= vnorm a * vnorm b).
    { destruct (Rle_dec (vdot a b) 0) as [N|N]; [nra|]. apply Rsqr_incr_0; [|lra|nra]. unfold Rsqr.
      replace (vnorm a * vnorm b * (vnorm a * vnorm b)) with ((vnorm a * vnorm a) * (vnorm b * vnorm b)) by ring. rewrite !vnorm_sq. unfold vdot.
      assert (0 <= vdot (vcross a b) (vcross a b)) by apply vdot_self_nonneg. unfold vdot, vcross in *. cbn [vx vy vz] in *. nra. }
    apply Rsqr_incr_0; [|apply vnorm_nonneg|lra]. unfold Rsqr. rewrite vnorm_sq.
    replace ((vnorm a + vnorm b) * (vnorm a + vnorm b)) with (vnorm a * vnorm a + vnorm b * vnorm b + 2 * (vnorm a * vnorm b)) by ring. rewrite !vnorm_sq.
    unfold vdot in *. cbn [vadd vx vy vz]. nra. }
  assert (A := T w (vsub v w)). replace (vadd w (vsub v w)) with v in A by (destruct v, w; unfold vadd, vsub; cbn; f_equal; ring).
  assert (B := T v (vsub w v)). replace (vadd v (vsub w v)) with w in B by (destruct v, w; unfold vadd, vsub; cbn; f_equal; ring).
  assert (E : vnorm (vsub w v) = vnorm (vsub v w)) by (unfold vnorm, vsub; cbn [vx vy vz]; f_equal; ring). rewrite E in B. apply Rabs_le. lra.
Qed.
Lemma ap_then k l x X m y : ap k x X m -> ap l y x (Rabs x) -> ap (k + l) y X m.
Proof.
  intros H1 [H2 _]. assert (Z := ap_size u _ _ _ _ H1). destruct H1 as [A B]. split; [|exact B].
  replace (y - X) with ((y - x) + (x - X)) by ring. pose proof (Rabs_triang (y - x) (x - X)). rewrite pow_add. pose proof (pw1 u rnd RND l). pose proof (pw1 u rnd RND k).
  assert (((1 + u) ^ l - 1) * Rabs x <= ((1 + u) ^ l - 1) * ((1 + u) ^ k * m)) by (apply Rmult_le_compat_l; lra). lra.
Qed.
Lemma ap_norm k v V m : vap k v V m -> ap (k + 3) (fnorm rnd v) (vnorm V) (3 * m).
Proof.
  intros ((A1 & A2) & (B1 & B2) & (C1 & C2)). apply (ap_then k 3 (vnorm v)).
  - split.
    + eapply Rle_trans; [apply vnorm_sub|]. eapply Rle_trans; [apply vnorm_le1|]. cbn [vsub vx vy vz]. lra.
    + rewrite Rabs_right by (apply Rle_ge, vnorm_nonneg). eapply Rle_trans; [apply vnorm_le1|]. lra.
  - assert (M := magnitude u rnd RND v). unfold magnitude_ok, close in M. pose proof (vnorm_nonneg v). rewrite (Rabs_right (vnorm v)) by lra.
    split; [exact M|]. rewrite Rabs_right by lra. lra.
Qed.
Lemma ap_area P P' Q Q' R R' S S' m : vap 10 P P' m -> vap 10 Q Q' m -> vap 10 R R' m -> vap 10 S S' m ->
  ap 35 (farea rnd P Q R S) (vnorm (pan_span P' Q' R' S') * vnorm (pan_chord P' Q' R' S')) (36 * (m * m)).
Proof.
  intros HP HQ HR HS. unfold farea. replace (36 * (m * m)) with (3 * (2 * m) * (3 * (2 * m))) by ring.
  apply (ap_fmul u rnd RND 17 17); apply (ap_norm 14); apply vap_half4; assumption.
Qed.

Lemma corners dir q ps pc i j M L : bounded M q -> vbounded L dir -> (0 <= i < pc)%Z -> (0 <= j < ps)%Z ->
  let f := fmake_panel rnd dir q ps pc i j in let p := make_panel dir q ps pc i j in
  vap 10 (lP f) (pP p) (9 * M) /\ vap 10 (lQ f) (pQ p) (9 * M) /\ vap 10 (lR f) (pR p) (9 * M) /\ vap 10 (lS f) (pS p) (9 * M).
Proof.
  intros B HL I J. unfold fmake_panel, make_panel, fpanel_of_corners, panel_of_corners. cbn [lP lQ lR lS pP pQ pR pS]. rewrite <- !plus_IZR.
  assert (D : forall n k, 1 / IZR n * IZR k = IZR k / IZR n) by (intros; unfold Rdiv; ring). rewrite !D.
  split; [|split; [|split]]; apply (vap_corner q); try assumption; apply parameter; lia.
Qed.
Lemma accuracy dir q ps pc i j M L : bounded M q -> vbounded L dir -> (0 <= i < pc)%Z -> (0 <= j < ps)%Z ->
  panel_close u M L (fmake_panel rnd dir q ps pc i j) (make_panel dir q ps pc i j).
Proof.
  intros B HL I J. destruct (corners dir q ps pc i j M L B HL I J) as (HP & HQ & HR & HS).
  set (f := fmake_panel rnd dir q ps pc i j) in *. set (p := make_panel dir q ps pc i j) in *.
  assert (V2 := vap_side _ _ _ _ _ HP HS). assert (V3 := vap_side _ _ _ _ _ HQ HR).
  assert (V1 := vap_leg _ _ _ _ _ HL V2). assert (V4 := vap_leg _ _ _ _ _ HL V3).
  assert (C := vap_colloc _ _ _ _ _ _ _ _ _ HP HQ HR HS). assert (MD := vap_middle _ _ _ _ _ V2 V3).
  assert (A := ap_area _ _ _ _ _ _ _ _ _ HP HQ HR HS).
  replace (36 * (9 * M * (9 * M))) with (2916 * (M * M)) in A by ring.
  unfold panel_close. repeat match goal with |- _ /\ _ => split end; try (apply vap_close; assumption). apply ap_close. exact A.
Qed.

(** ** Normals *)
Lemma vap_normal P P' Q Q' R R' S S' C C' m : vap 10 P P' m -> vap 10 Q Q' m -> vap 10 R R' m -> vap 10 S S' m -> vap 13 C C' m ->
  vap 32 (fnormal_raw rnd P Q R C) (normal_raw P' Q' R' C') (8 * (m * m)).
Proof.
  intros (A & B & D) (E & F & G) (H & I & J) _ (K & L & N).
  assert (X : forall a b c A B C k l, 0 <= k -> 0 <= l -> k + l = 1 -> ap 13 c C m -> ap 10 a A m -> ap 10 b B m ->
    ap 15 (fsub rnd (fsub rnd c (fmul rnd k a)) (fmul rnd l b)) (C - k * A - l * B) (2 * m)).
  { intros. replace (2 * m) with (m + k * m + l * m) by nra. apply (ap_fsub u rnd RND 14 11); [|apply ap_scale; assumption].
    apply (ap_fsub u rnd RND 13 11); [assumption|]. apply ap_scale; assumption. }
  assert (W : forall v V w W, vap 15 v V (2 * m) -> vap 15 w W (2 * m) -> vap 32 (fcross rnd v w) (vcross V W) (8 * (m * m))).
  { intros v V w W HV HW. assert (Z := vap_cross u rnd RND 15 15 v V (mkV (2 * m) (2 * m) (2 * m)) w W (mkV (2 * m) (2 * m) (2 * m)) HV HW).
    destruct Z as (Z1 & Z2 & Z3). cbn [cross_size vx vy vz Nat.add] in Z1, Z2, Z3. replace (2 * m * (2 * m) + 2 * m * (2 * m)) with (8 * (m * m)) in * by ring.
    exact (conj Z1 (conj Z2 Z3)). }
  unfold fnormal_raw, normal_raw. apply W; (split; [|split]); cbn [fvec1 fvec2 vec1 vec2 vx vy vz]; apply X; try assumption; lra.
Qed.
Lemma fnormal_iff n : fnormal rnd n = None <-> n = vzero.
Proof.
  assert (Z : fnorm rnd n = 0 <-> n = vzero).
  { assert (M := magnitude u rnd RND n). unfold magnitude_ok, close in M. rewrite <- vnorm_zero. pose proof (vnorm_nonneg n). split; intro E.
    - unfold fnorm, fsqrt in E. assert (S := proj2 RND (sqrt (fdot rnd n n))). rewrite E in S. replace (0 - sqrt (fdot rnd n n)) with (- sqrt (fdot rnd n n)) in S by ring.
      rewrite Rabs_Ropp in S. pose proof (sqrt_pos (fdot rnd n n)). rewrite Rabs_right in S by lra. pose proof (proj1 RND).
      assert (S0 : sqrt (fdot rnd n n) = 0) by nra. destruct (rel_dot u rnd RND n) as (t & T & T1 & T2). rewrite T in S0.
      pose proof (pw0 u rnd RND 3). apply sqrt_eq_0 in S0; [|apply Rmult_le_pos; [apply vdot_self_nonneg|lra]].
      apply Rmult_integral in S0. destruct S0 as [S0|S0]; [|lra]. apply vnorm_zero. apply vdot_zero. exact S0.
    - rewrite E in M. rewrite Rminus_0_r, Rmult_0_r in M. pose proof (Rabs_pos (fnorm rnd n)). destruct (Req_dec (fnorm rnd n) 0) as [F|F]; [exact F|]. apply Rabs_pos_lt in F. lra. }
  rewrite <- Z. unfold fnormal, fdiv. destruct (Req_EM_T (fnorm rnd n) 0); split; intro H; try discriminate; try contradiction; auto.
Qed.
Lemma rel_norm n : rel u 3 (fnorm rnd n) (vnorm n).
Proof.
  unfold fnorm, fsqrt. apply (rel_rnd u rnd RND 2). destruct (rel_dot u rnd RND n) as (t & E & T1 & T2). exists (sqrt t).
  pose proof (proj1 RND) as U. pose proof (pw0 u rnd RND 3) as P3. pose proof (pw0 u rnd RND 2) as P2. pose proof (pwl u rnd RND 1) as L1.
  split; [rewrite E; rewrite sqrt_mult; [reflexivity|apply vdot_self_nonneg|lra]|]. split.
  - apply Rle_trans with (sqrt ((1 - u) ^ 2 * (1 - u) ^ 2)); [rewrite sqrt_square by lra; lra|]. apply sqrt_le_1_alt.
    apply Rle_trans with ((1 - u) ^ 3); [|exact T1]. replace ((1 - u) ^ 2 * (1 - u) ^ 2) with ((1 - u) ^ 3 * (1 - u)) by ring. nra.
  - pose proof (pw1 u rnd RND 2) as Q2. pose proof (pw1 u rnd RND 3) as Q3.
    apply Rle_trans with (sqrt ((1 + u) ^ 2 * (1 + u) ^ 2)); [|rewrite sqrt_square by lra; lra]. apply sqrt_le_1_alt.
    apply Rle_trans with ((1 + u) ^ 3); [exact T2|]. replace ((1 + u) ^ 2 * (1 + u) ^ 2) with ((1 + u) ^ 3 * (1 + u)) by ring. nra.
Qed.
Lemma between_scale lo hi v w : 0 <= lo ->
  (exists t, vx w = vx v * t /\ lo <= t <= hi) -> (exists t, vy w = vy v * t /\ lo <= t <= hi) -> (exists t, vz w = vz v * t /\ lo <= t <= hi) ->
  lo * vnorm v <= vnorm w <= hi * vnorm v.
Proof.
  intros L (a & A & A1 & A2) (b & B & B1 & B2) (c & C & C1 & C2). unfold vnorm. rewrite A, B, C.
  assert (Q : forall x t, lo <= t <= hi -> lo * lo * (x * x) <= x * t * (x * t) <= hi * hi * (x * x)).
  { intros x t [T1 T2]. replace (x * t * (x * t)) with (t * t * (x * x)) by ring. assert (0 <= x * x) by nra. split; apply Rmult_le_compat_r; nra. }
  destruct (Q (vx v) a (conj A1 A2)), (Q (vy v) b (conj B1 B2)), (Q (vz v) c (conj C1 C2)).
  assert (S : forall k, 0 <= k -> k * sqrt (vx v * vx v + vy v * vy v + vz v * vz v) = sqrt (k * k * (vx v * vx v + vy v * vy v + vz v * vz v))).
  { intros k K. rewrite sqrt_mult; [rewrite sqrt_square by exact K; reflexivity|nra|nra]. }
  rewrite !S by lra. split; apply sqrt_le_1_alt; lra.
Qed.
Lemma unit_normal n N : fnormal rnd n = Some N -> unit_length u N.
Proof.
  intro H. assert (NZ : n <> vzero) by (intro E; apply fnormal_iff in E; congruence).
  assert (V := vnorm_pos n NZ). destruct (rel_norm n) as (t & T & T1 & T2).
  unfold fnormal, fdiv in H. destruct (Req_EM_T (fnorm rnd n) 0) as [|NN]; [discriminate|]. injection H as H.
  assert (Q : forall x, exists k, rnd (x / fnorm rnd n) = x * k /\ (1 - u) / (1 + u) ^ 3 / vnorm n <= k <= (1 + u) / (1 - u) ^ 3 / vnorm n).
  { intro x. pose proof (pw0 u rnd RND 3) as P3. pose proof (pw1 u rnd RND 3) as Q3. pose proof (proj1 RND) as U.
    destruct (rel_rnd u rnd RND 0 (x / fnorm rnd n) (x / fnorm rnd n)) as (r & R & R1 & R2); [apply rel_exact|]. cbn [pow] in R1, R2. rewrite Rmult_1_r in R1, R2.
    exists (r * / t * / vnorm n). assert (TP : 0 < t) by lra.
    assert (I1 : / (1 + u) ^ 3 <= / t) by (apply Rinv_le_contravar; lra). assert (I2 : / t <= / (1 - u) ^ 3) by (apply Rinv_le_contravar; lra).
    assert (I3 : 0 < / (1 + u) ^ 3) by (apply Rinv_0_lt_compat; lra). assert (I4 : 0 < / vnorm n) by (apply Rinv_0_lt_compat; lra).
    split; [rewrite R, T; field; lra|]. unfold Rdiv. split; (apply Rmult_le_compat_r; [lra|]); apply Rmult_le_compat; lra. }
  assert (B := between_scale ((1 - u) / (1 + u) ^ 3 / vnorm n) ((1 + u) / (1 - u) ^ 3 / vnorm n) n N).
  unfold unit_length. replace ((1 - u) / (1 + u) ^ 3) with ((1 - u) / (1 + u) ^ 3 / vnorm n * vnorm n); [|field; pose proof (proj1 RND); repeat split; lra].
  replace ((1 + u) / (1 - u) ^ 3) with ((1 + u) / (1 - u) ^ 3 / vnorm n * vnorm n); [|field; pose proof (proj1 RND); repeat split; lra].
  rewrite <- H in *. cbn [vx vy vz] in B. apply B; [|apply Q..].
  pose proof (proj1 RND). pose proof (pw1 u rnd RND 3). apply Rmult_le_pos; [apply Rmult_le_pos; [lra|]|]; left; apply Rinv_0_lt_compat; lra.
Qed.
Lemma normals dir q ps pc i j M : bounded M q -> (0 <= i < pc)%Z -> (0 <= j < ps)%Z ->
  let f := fmake_panel rnd dir q ps pc i j in let p := make_panel dir q ps pc i j in
  vclose u 32 (fnormal_raw rnd (lP f) (lQ f) (lR f) (lC f)) (normal_raw (pP p) (pQ p) (pR p) (pC p)) (648 * (M * M)) /\
  lN f = fnormal rnd (fnormal_raw rnd (lP f) (lQ f) (lR f) (lC f)) /\
  (3 * normal_error u M < vnorm (normal_raw (pP p) (pQ p) (pR p) (pC p)) -> lN f <> None) /\
  (forall N, lN f = Some N -> unit_length u N).
Proof.
  intros B I J f p. assert (HL : vbounded (Rabs (vx dir) + Rabs (vy dir) + Rabs (vz dir)) dir).
  { pose proof (Rabs_pos (vx dir)). pose proof (Rabs_pos (vy dir)). pose proof (Rabs_pos (vz dir)). repeat split; lra. }
  destruct (corners dir q ps pc i j M _ B HL I J) as (HP & HQ & HR & HS). fold f p in HP, HQ, HR, HS.
  assert (C := vap_colloc _ _ _ _ _ _ _ _ _ HP HQ HR HS).
  assert (N := vap_normal _ _ _ _ _ _ _ _ _ _ _ HP HQ HR HS C). replace (8 * (9 * M * (9 * M))) with (648 * (M * M)) in N by ring.
  split; [apply vap_close; exact N|]. split; [reflexivity|]. split.
  - intros L E. change (lN f) with (fnormal rnd (fnormal_raw rnd (lP f) (lQ f) (lR f) (lC f))) in E. apply fnormal_iff in E.
    change (fcolloc rnd (lP f) (lQ f) (lR f) (lS f)) with (lC f) in N. rewrite E in N. destruct N as ((N1 & _) & (N2 & _) & (N3 & _)). cbn [vzero vx vy vz] in N1, N2, N3.
    match type of N1 with Rabs (0 - vx ?w) <= _ => set (W := w) in *; change W with (normal_raw (pP p) (pQ p) (pR p) (pC p)) in N1, N2, N3 end.
    set (G := normal_raw (pP p) (pQ p) (pR p) (pC p)) in *. pose proof (vnorm_le1 G) as T.
    assert (O : forall x, Rabs (0 - x) = Rabs x) by (intro x; replace (0 - x) with (- x) by ring; apply Rabs_Ropp). rewrite O in N1, N2, N3. unfold normal_error in L. lra.
  - intros N' E. exact (unit_normal _ _ E).
Qed.

(** ** Neighbouring subareas *)
Lemma corner_edge q1 q2 c : adjacent q1 q2 -> corner q1 1 c = corner q2 0 c.
Proof.
  intros [A B]. unfold corner. rewrite <- A, <- B. assert (E : forall a b c' d x y t, coord a b c' d 1 t = coord b x y c' 0 t) by (intros; unfold coord; ring).
  f_equal; apply E.
Qed.
Lemma gap dir q1 q2 ps1 ps2 pc i M : adjacent q1 q2 -> bounded M q1 -> bounded M q2 -> (0 <= i < pc)%Z -> (0 < ps1)%Z -> (0 < ps2)%Z ->
  let f := fmake_panel rnd dir q1 ps1 pc i (ps1 - 1) in let g := fmake_panel rnd dir q2 ps2 pc i 0 in
  at_most (((1 + u) ^ 10 - 1) * (18 * M)) (lQ f) (lP g) /\ at_most (((1 + u) ^ 10 - 1) * (18 * M)) (lR f) (lS g).
Proof.
  intros A B1 B2 I P1 P2 f g.
  assert (HL : vbounded (Rabs (vx dir) + Rabs (vy dir) + Rabs (vz dir)) dir).
  { pose proof (Rabs_pos (vx dir)). pose proof (Rabs_pos (vy dir)). pose proof (Rabs_pos (vz dir)). repeat split; lra. }
  destruct (corners dir q1 ps1 pc i (ps1 - 1) M _ B1 HL I ltac:(lia)) as (_ & HQ & HR & _).
  destruct (corners dir q2 ps2 pc i 0 M _ B2 HL I ltac:(lia)) as (HP & _ & _ & HS).
  assert (N1 : 0 < IZR ps1) by (apply IZR_lt; exact P1).
  assert (S1 : 1 / IZR ps1 * (IZR (ps1 - 1) + 1) = 1) by (rewrite minus_IZR; field; lra).
  unfold make_panel in HQ, HR, HP, HS. cbn [pP pQ pR pS panel_of_corners] in HQ, HR, HP, HS. rewrite S1 in HQ, HR. rewrite Rmult_0_r in HP, HS.
  rewrite (corner_edge q1 q2 _ A) in HQ. rewrite (corner_edge q1 q2 _ A) in HR. fold f in HQ, HR. fold g in HP, HS.
  assert (T : forall a b m X, ap 10 a X m -> ap 10 b X m -> Rabs (a - b) <= ((1 + u) ^ 10 - 1) * (2 * m)).
  { intros a b m X [X1 _] [X2 _]. replace (a - b) with ((a - X) - (b - X)) by ring. unfold Rminus at 1. eapply Rle_trans; [apply Rabs_triang|]. rewrite Rabs_Ropp. lra. }
  replace (18 * M) with (2 * (9 * M)) by ring.
  destruct HQ as (? & ? & ?), HR as (? & ? & ?), HP as (? & ? & ?), HS as (? & ? & ?).
  repeat split; eapply T; eassumption.
Qed.
End P.

(** ** Without rounding *)
Lemma lat_exact dir q ps pc i j : let f := fmake_panel (fun x => x) dir q ps pc i j in let p := make_panel dir q ps pc i j in
  lP f = pP p /\ lQ f = pQ p /\ lR f = pR p /\ lS f = pS p /\ lV1 f = pV1 p /\ lV2 f = pV2 p /\ lV3 f = pV3 p /\ lV4 f = pV4 p /\
  lC f = pC p /\ lB f = pB p /\ lA f = pA p /\ (forall N, lN f = Some N -> N = pN p).
Proof.
  intros f p.
  assert (E : f = fpanel_of_corners (fun x => x) dir (pP p) (pQ p) (pR p) (pS p)).
  { unfold f, p, fmake_panel, make_panel, panel_of_corners. cbn [pP pQ pR pS]. rewrite <- !plus_IZR. reflexivity. }
  rewrite E. repeat match goal with |- _ /\ _ => split end; try reflexivity.
  intros N H. change (lN _) with (fnormal (fun x => x) (normal_raw (pP p) (pQ p) (pR p) (pC p))) in H. unfold fnormal, fdiv in H.
  destruct (Req_EM_T _ _); [discriminate|]. injection H as <-. reflexivity.
Qed.

(** ** Doubles: subareas with a common edge whose panels do not meet exactly *)
Definition tiny : R := / 1152921504606846976.
Definition plate1 : quad := mkQuad (mkV 1 0 0) (mkV tiny 1 0) (mkV 2 1 0) (mkV 2 0 0).
Definition plate2 : quad := mkQuad (mkV tiny 1 0) (mkV 0 2 0) (mkV 2 2 0) (mkV 2 1 0).

Lemma double_eval x e n : bpow radix2 (e - 1) <= Rabs x < bpow radix2 e -> Rabs (x * bpow radix2 (53 - e) - IZR n) < / 2 ->
  double x = IZR n * bpow radix2 (e - 53).
Proof.
  intros B H. unfold double, round, F2R. cbn [Fnum Fexp]. unfold scaled_mantissa, cexp, FLX_exp. rewrite (mag_unique radix2 x e B).
  replace (- (e - 53))%Z with (53 - e)%Z by lia. rewrite (Znearest_imp _ _ n H). reflexivity.
Qed.
Lemma double_tiny : double tiny = tiny.
Proof. assert (E := double_format 1 (-60) eq_refl). change (bpow radix2 (-60)) with (/ IZR 1152921504606846976) in E. rewrite Rmult_1_l in E. exact E. Qed.
Lemma tiny_pos : 0 < tiny < / 2. Proof. unfold tiny. lra. Qed.
Lemma double_lost : double (tiny - 1) = -1.
Proof.
  rewrite (double_eval (tiny - 1) 0 (- 9007199254740992)).
  - change (bpow radix2 (0 - 53)) with (/ IZR 9007199254740992). field.
  - pose proof tiny_pos. rewrite Rabs_left by lra. change (bpow radix2 (0 - 1)) with (/ 2). change (bpow radix2 0) with 1. lra.
  - change (bpow radix2 (53 - 0)) with (IZR 9007199254740992). unfold tiny. apply Rabs_def1; lra.
Qed.
Lemma plates_adjacent : adjacent plate1 plate2. Proof. split; reflexivity. Qed.
Lemma plates_bounded : bounded 2 plate1 /\ bounded 2 plate2.
Proof.
  pose proof tiny_pos. assert (A : forall x, 0 <= x <= 2 -> Rabs x <= 2) by (intros x X; rewrite Rabs_right; lra).
  split; (split; [|split; [|split]]); (split; [|split]); cbn [plate1 plate2 qa qb qc qd vx vy vz]; apply A; lra.
Qed.
Lemma plates_apart dir : lQ (fmake_panel double dir plate1 1 1 0 0) <> lP (fmake_panel double dir plate2 1 1 0 0).
Proof.
  assert (Z : double 0 = 0) by exact (rnd0 u53 double double_rounding). assert (O : double 1 = 1) by exact (double_int 1 ltac:(lia)).
  rewrite (first_corner u53 double double_rounding); cbn [plate2 qa vx vy vz]; [|exact double_tiny|exact O|exact Z].
  intro E. apply (f_equal vx) in E. cbn [vx] in E. revert E. unfold fmake_panel, fpanel_of_corners, fcorner. cbn [lQ vx]. unfold plate1. cbn [qa qb qc qd vx]. unfold fcoord, fadd, fsub, fmul.
  change (IZR (0 + 1)) with 1. rewrite !Rmult_0_r, Z, !Rmult_0_r, Z, !Rplus_0_r. replace (1 / 1) with 1 by field. rewrite O, Rmult_1_r, O, Rmult_1_r, double_lost.
  replace (double (-1)) with (-1) by (symmetry; exact (double_int (-1) ltac:(lia))). replace (1 + -1) with 0 by ring. rewrite !Z. pose proof tiny_pos. lra.
Qed.

(** ** A square of length one *)
Definition square : quad := mkQuad (mkV 0 0 0) (mkV 0 1 0) (mkV 1 1 0) (mkV 1 0 0).
Lemma square_bounded : bounded 1 square.
Proof.
  assert (A : forall x, 0 <= x <= 1 -> Rabs x <= 1) by (intros x X; rewrite Rabs_right; lra).
  split; [|split; [|split]]; (split; [|split]); cbn [square qa qb qc qd vx vy vz]; apply A; lra.
Qed.
Lemma square_normal dir : let p := make_panel dir square 1 1 0 0 in 3 * normal_error u53 1 < vnorm (normal_raw (pP p) (pQ p) (pR p) (pC p)).
Proof.
  intro p. assert (N : normal_raw (pP p) (pQ p) (pR p) (pC p) = mkV 0 0 (-0.375)).
  { assert (C : forall a b, corner square a b = mkV b a 0) by (intros a b; unfold corner, coord, square; cbn [qa qb qc qd vx vy vz]; f_equal; ring).
    assert (E1 : 1 / 1 * 0 = 0) by lra. assert (E2 : 1 / 1 * (0 + 1) = 1) by lra.
    unfold p, make_panel. rewrite E1, E2, !C. unfold panel_of_corners. cbn [pP pQ pR pC vx vy vz].
    assert (K : mkV (0.125 * (0 + 0) + 0.375 * (1 + 1)) (0.125 * (0 + 1) + 0.375 * (1 + 0)) (0.125 * (0 + 0) + 0.375 * (0 + 0)) = mkV (3 / 4) (1 / 2) 0) by (f_equal; lra).
    rewrite K. unfold normal_raw.
    assert (V1 : vec1 (mkV 0 0 0) (mkV 0 1 0) (mkV (3 / 4) (1 / 2) 0) = mkV (3 / 4) 0 0) by (unfold vec1; cbn [vx vy vz]; f_equal; lra).
    assert (V2 : vec2 (mkV 0 1 0) (mkV 1 1 0) (mkV (3 / 4) (1 / 2) 0) = mkV 0 (- (1 / 2)) 0) by (unfold vec2; cbn [vx vy vz]; f_equal; lra).
    rewrite V1, V2. unfold vcross. cbn [vx vy vz]. f_equal; lra. }
  rewrite N. assert (V : vnorm (mkV 0 0 (-0.375)) = 0.375) by (apply vnorm_eq_of_sq; [lra|]; unfold vdot; cbn [vx vy vz]; lra). rewrite V.
  assert (B := bound u53 double double_rounding 32). unfold normal_error. replace (INR 32) with 32 in B by (cbn; lra).
  assert (U : u53 <= / 1000000) by (unfold u53; apply Rinv_le_contravar; lra). specialize (B ltac:(lra)). lra.
Qed.
