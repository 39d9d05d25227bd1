(** The downwash matrix of a plain wing. *)
From Coq Require Import Reals List ZArith Arith Lia Lra Psatz.
From Verif Require Import Vec PanelModel GeomSpec GeomProofs VlmModel VlmSpec VlmProofs BiotSavart WakeSpec WakeProofs WakeScale RowSpec RowMatrix.
From Verif Require AnalysisSpec.
Import ListNotations.
Open Scope R_scope.

(** ** Statements that hold for all sufficiently small [eps] *)
Definition near0 (P : R -> Prop) : Prop := exists e0, 0 < e0 /\ forall eps, 0 <= eps < e0 -> P eps.
Lemma near0_and P Q : near0 P -> near0 Q -> near0 (fun e => P e /\ Q e).
Proof.
  intros (a & A & P') (b & B & Q'). exists (Rmin a b). split; [apply Rmin_glb_lt; assumption|]. intros e (E0 & E).
  pose proof (Rmin_l a b). pose proof (Rmin_r a b). split; [apply P'|apply Q']; lra.
Qed.
Lemma near0_all n (P : nat -> R -> Prop) : (forall i, (i < n)%nat -> near0 (P i)) -> near0 (fun e => forall i, (i < n)%nat -> P i e).
Proof.
  induction n as [|n IH]; intro H; [exists 1; split; [lra|]; intros; lia|].
  destruct (near0_and _ _ (IH ltac:(intros; apply H; lia)) (H n ltac:(lia))) as (e0 & E0 & K). exists e0. split; [exact E0|].
  intros e E i I. destruct (K e E) as (A & B). destruct (Nat.eq_dec i n) as [->|N]; [exact B|]. apply A. lia.
Qed.
Lemma near0_imp (P Q : R -> Prop) : (forall e, 0 <= e -> P e -> Q e) -> near0 P -> near0 Q.
Proof. intros H (e0 & E0 & K). exists e0. split; [exact E0|]. intros e E. apply H; [lra|]. apply K, E. Qed.
Lemma near0_pos f : continuity_pt f 0 -> 0 < f 0 -> near0 (fun e => 0 < f e).
Proof.
  intros C P. destruct (C (f 0) P) as (d & D & H). exists d. split; [exact D|]. intros e (E0 & E).
  destruct (Req_dec e 0) as [->|N]; [exact P|].
  specialize (H e). unfold D_x, no_cond, dist in H. cbn in H. unfold R_dist in H.
  assert (K : Rabs (f e - f 0) < f 0).
  { apply H. split; [split; [exact I|auto]|]. rewrite Rminus_0_r, Rabs_pos_eq; lra. }
  apply Rabs_def2 in K. lra.
Qed.

(** ** One leg as a function of [eps] *)
Lemma leg_exact eps p a b : 0 <= eps -> off_line p a b -> leg_velocity eps p a b = Some (leg_val eps p a b).
Proof.
  intros E O. destruct (off_line_facts p a b O) as (U & V & DL & _). pose proof (vnorm_pos _ U). pose proof (vnorm_pos _ V).
  assert (0 < vnorm (vsub p a) * vnorm (vsub p b)) by (apply Rmult_lt_0_compat; assumption).
  unfold leg_velocity. rewrite !cdiv_some by nra. reflexivity.
Qed.
Lemma leg_continuous p a b (n : vec) : off_line p a b -> continuity_pt (fun e => vdot (leg_val e p a b) n) 0.
Proof.
  intros O. destruct (off_line_facts p a b O) as (U & V & DL & _). pose proof (vnorm_pos _ U) as A. pose proof (vnorm_pos _ V) as B.
  set (n1 := vnorm (vsub p a)) in *. set (n2 := vnorm (vsub p b)) in *. set (d := vdot (vsub p a) (vsub p b)) in *.
  set (k := 1 / (4 * PI) * (1 / n1 + 1 / n2) * vdot (vcross (vsub p a) (vsub p b)) n).
  assert (C : continuity_pt (fun e => k * / (d + n1 * n2 * (1 + e))) 0).
  { apply continuity_pt_mult; [apply continuity_pt_const; intros x y; reflexivity|].
    apply (continuity_pt_inv (fun e => d + n1 * n2 * (1 + e))).
    - apply continuity_pt_plus; [apply continuity_pt_const; intros x y; reflexivity|]. apply continuity_pt_mult; [apply continuity_pt_const; intros x y; reflexivity|].
      apply continuity_pt_plus; [apply continuity_pt_const; intros x y; reflexivity|]. apply derivable_continuous_pt, derivable_pt_id.
    - rewrite Rplus_0_r, Rmult_1_r. lra. }
  intros e E. destruct (C e E) as (al & AL & H). exists al. split; [exact AL|]. intros x X. specialize (H x X).
  assert (Q : forall e, vdot (leg_val e p a b) n = k * / (d + n1 * n2 * (1 + e))).
  { intros e'. unfold leg_val. cbv zeta. fold n1 n2 d. unfold k. unfold vdot. vsimp. unfold Rdiv. ring. }
  rewrite !Q. exact H.
Qed.

Lemma some_inj {A} (a b : A) : Some a = Some b -> a = b.
Proof. congruence. Qed.

(** ** Legs in a plane at [eps = 0] *)
Section Plane.
Variables L x0 z0 x c : R.
Hypothesis X : 0 < x < L.
Let p := mkV (x0 + x) c z0.
Definition hyp (t d : R) : R := sqrt (t * t + d * d).
Lemma hyp_pos t d : t <> 0 -> 0 < hyp t d.
Proof. intros T. apply sqrt_lt_R0. nra. Qed.
Lemma hyp_sq t d : hyp t d * hyp t d = t * t + d * d.
Proof. apply sqrt_sqrt. nra. Qed.
(** Downwash, times 4 pi, of a vortex that comes from the far right along the bound line and leaves downstream. *)
Definition HH (d : R) : R := hyp x d / (x * d) + (L - x) / (d * hyp (L - x) d).

Lemma HH_odd d : d <> 0 -> HH (- d) = - HH d.
Proof.
  intros D. unfold HH, hyp. replace (- d * - d) with (d * d) by ring. fold (hyp x d) (hyp (L - x) d).
  pose proof (hyp_pos x d ltac:(lra)). pose proof (hyp_pos (L - x) d ltac:(lra)). field. repeat split; lra.
Qed.
Lemma HH_pos d : 0 < d -> 0 < HH d.
Proof.
  intros D. unfold HH. pose proof (hyp_pos x d ltac:(lra)). pose proof (hyp_pos (L - x) d ltac:(lra)).
  apply Rplus_lt_0_compat; apply Rdiv_lt_0_compat; nra.
Qed.
Lemma HH_dec d e : 0 < d -> d < e -> HH e < HH d.
Proof.
  intros D E. pose proof (hyp_pos x d ltac:(lra)) as A. pose proof (hyp_pos (L - x) d ltac:(lra)) as B.
  pose proof (hyp_pos x e ltac:(lra)) as A'. pose proof (hyp_pos (L - x) e ltac:(lra)) as B'.
  unfold HH. apply Rplus_lt_compat.
  - pose proof (hyp_sq x d) as S. pose proof (hyp_sq x e) as S'. set (r := hyp x d) in *. set (s := hyp x e) in *.
    assert (K : s * d < r * e).
    { assert (Z : (s * d) * (s * d) < (r * e) * (r * e)).
      { replace (s * d * (s * d)) with (s * s * (d * d)) by ring. replace (r * e * (r * e)) with (r * r * (e * e)) by ring. rewrite S, S'.
        assert (d * d < e * e) by nra. assert (0 < x * x) by nra. nra. }
      assert (0 < r * e) by nra. nra. }
    apply (Rmult_lt_reg_r (x * d * e)); [apply Rmult_lt_0_compat; [apply Rmult_lt_0_compat|]; lra|].
    replace (s / (x * e) * (x * d * e)) with (s * d) by (field; split; lra). replace (r / (x * d) * (x * d * e)) with (r * e) by (field; split; lra). exact K.
  - assert (K : hyp (L - x) d < hyp (L - x) e) by (apply sqrt_lt_1; nra). set (r := hyp (L - x) d) in *. set (s := hyp (L - x) e) in *.
    unfold Rdiv. apply Rmult_lt_compat_l; [lra|]. apply Rinv_lt_contravar; [repeat apply Rmult_lt_0_compat; lra|].
    apply Rmult_gt_0_lt_compat; lra.
Qed.
Lemma HH_le d e : 0 < d -> d <= e -> HH e <= HH d.
Proof. intros D [E| ->]; [left; apply HH_dec; assumption|right; reflexivity]. Qed.

(** A trailing leg at the side [y]. *)
Lemma trail_off y : c <> y -> off_line p (mkV x0 y z0) (mkV (x0 + L) y z0).
Proof.
  intros C. unfold off_line. intro E. pose proof (f_equal vz E) as Z. unfold p in Z. vsimp. cbn [vz vzero] in Z. vsimp.
  assert (Z' : L * (c - y) = 0) by lra. apply Rmult_integral in Z'. lra.
Qed.
Lemma trail_z y : c <> y -> vz (leg_val 0 p (mkV x0 y z0) (mkV (x0 + L) y z0)) = / (4 * PI) * (((L - x) / hyp (L - x) (c - y) + x / hyp x (c - y)) / (c - y)).
Proof.
  intros C. pose proof (leg_exact 0 p _ _ (Rle_refl 0) (trail_off y C)) as E. set (d := mkV 1 0 0).
  assert (D : vnorm d = 1) by (unfold vnorm, d; cbn [vx vy vz]; replace (1 * 1 + 0 * 0 + 0 * 0) with 1 by ring; apply sqrt_1).
  assert (B : mkV (x0 + L) y z0 = vadd (mkV x0 y z0) (vscale L d)) by (apply vec_eq; unfold d; vsimp; ring).
  assert (O : vcross (vsub p (mkV x0 y z0)) d <> vzero).
  { intro F. pose proof (f_equal vz F) as Z. unfold p, d in Z. vsimp. cbn [vz vzero] in Z. vsimp. lra. }
  rewrite B in E. rewrite (ray_velocity p (mkV x0 y z0) d D O L ltac:(lra)) in E. apply some_inj in E. rewrite B, <- E.
  unfold near_part. cbn [vz vscale].
  assert (A1 : ahead p (mkV x0 y z0) d = x) by (unfold ahead, p, d, vdot; vsimp; ring).
  assert (A2 : aside p (mkV x0 y z0) d * aside p (mkV x0 y z0) d = (c - y) * (c - y)) by (unfold aside; rewrite vnorm_sq; unfold p, d, vdot; vsimp; ring).
  assert (A3 : vnorm (vsub p (mkV x0 y z0)) = hyp x (c - y)) by (unfold vnorm, hyp, p; vsimp; f_equal; ring).
  assert (A4 : vnorm (vsub p (vadd (mkV x0 y z0) (vscale L d))) = hyp (L - x) (c - y)) by (unfold vnorm, hyp, p, d; vsimp; f_equal; ring).
  rewrite A1, A2, A3, A4. pose proof PI_RGT_0. pose proof (hyp_pos x (c - y) ltac:(lra)). pose proof (hyp_pos (L - x) (c - y) ltac:(lra)).
  unfold p, d. vsimp. field. repeat split; lra.
Qed.
Lemma bound_off y1 y2 : y1 < y2 -> off_line p (mkV x0 y1 z0) (mkV x0 y2 z0).
Proof.
  intros C. unfold off_line. intro E. pose proof (f_equal vz E) as Z. unfold p in Z. vsimp. cbn [vz vzero] in Z. vsimp.
  assert (Z' : x * (y2 - y1) = 0) by lra. apply Rmult_integral in Z'. lra.
Qed.
Lemma bound_z y1 y2 : y1 < y2 -> vz (leg_val 0 p (mkV x0 y1 z0) (mkV x0 y2 z0)) = - / (4 * PI) * (((c - y1) / hyp x (c - y1) - (c - y2) / hyp x (c - y2)) / x).
Proof.
  intros C. pose proof (leg_exact 0 p _ _ (Rle_refl 0) (bound_off y1 y2 C)) as E. set (d := mkV 0 1 0).
  assert (D : vnorm d = 1) by (unfold vnorm, d; cbn [vx vy vz]; replace (0 * 0 + 1 * 1 + 0 * 0) with 1 by ring; apply sqrt_1).
  assert (B : mkV x0 y2 z0 = vadd (mkV x0 y1 z0) (vscale (y2 - y1) d)) by (apply vec_eq; unfold d; vsimp; ring).
  assert (O : vcross (vsub p (mkV x0 y1 z0)) d <> vzero).
  { intro F. pose proof (f_equal vz F) as Z. unfold p, d in Z. vsimp. cbn [vz vzero] in Z. vsimp. lra. }
  rewrite B in E. rewrite (ray_velocity p (mkV x0 y1 z0) d D O (y2 - y1) ltac:(lra)) in E. apply some_inj in E. rewrite B, <- E.
  unfold near_part. cbn [vz vscale].
  assert (A1 : ahead p (mkV x0 y1 z0) d = c - y1) by (unfold ahead, p, d, vdot; vsimp; ring).
  assert (A2 : aside p (mkV x0 y1 z0) d * aside p (mkV x0 y1 z0) d = x * x) by (unfold aside; rewrite vnorm_sq; unfold p, d, vdot; vsimp; ring).
  assert (A3 : vnorm (vsub p (mkV x0 y1 z0)) = hyp x (c - y1)) by (unfold vnorm, hyp, p; vsimp; f_equal; ring).
  assert (A4 : vnorm (vsub p (vadd (mkV x0 y1 z0) (vscale (y2 - y1) d))) = hyp x (c - y2)) by (unfold vnorm, hyp, p, d; vsimp; f_equal; ring).
  rewrite A1, A2, A3, A4. pose proof PI_RGT_0. pose proof (hyp_pos x (c - y1) ltac:(lra)). pose proof (hyp_pos x (c - y2) ltac:(lra)).
  replace (y2 - y1 - (c - y1)) with (- (c - y2)) by ring. unfold p, d. vsimp. field. repeat split; lra.
Qed.
Lemma leg_val_rev eps a b q : leg_val eps q b a = vscale (-1) (leg_val eps q a b).
Proof.
  unfold leg_val. cbv zeta. rewrite (vdot_comm (vsub q b)), (vcross_anti (vsub q b)), (Rmult_comm (vnorm (vsub q b))), (Rplus_comm (1 / vnorm (vsub q b))).
  apply vec_eq; vsimp; ring.
Qed.
(** The horseshoe. *)
Lemma shoe_z y1 y2 : y1 < y2 -> c <> y1 -> c <> y2 ->
  vz (vadd (vadd (leg_val 0 p (mkV (x0 + L) y1 z0) (mkV x0 y1 z0)) (leg_val 0 p (mkV x0 y1 z0) (mkV x0 y2 z0))) (leg_val 0 p (mkV x0 y2 z0) (mkV (x0 + L) y2 z0)))
  = / (4 * PI) * (HH (c - y2) - HH (c - y1)).
Proof.
  intros Y C1 C2. rewrite leg_val_rev. cbn [vz vadd vscale]. rewrite (trail_z y1 C1), (trail_z y2 C2), (bound_z y1 y2 Y).
  assert (K : forall d, d <> 0 -> HH d = d / (x * hyp x d) + x / (d * hyp x d) + (L - x) / (d * hyp (L - x) d)).
  { intros d D. unfold HH. pose proof (hyp_pos x d ltac:(lra)). pose proof (hyp_pos (L - x) d ltac:(lra)). f_equal.
    replace (hyp x d / (x * d)) with (hyp x d * hyp x d / (x * d * hyp x d)) by (field; repeat split; lra). rewrite hyp_sq. field. repeat split; lra. }
  rewrite (K (c - y1)), (K (c - y2)) by lra. pose proof PI_RGT_0.
  pose proof (hyp_pos x (c - y1) ltac:(lra)). pose proof (hyp_pos (L - x) (c - y1) ltac:(lra)).
  pose proof (hyp_pos x (c - y2) ltac:(lra)). pose proof (hyp_pos (L - x) (c - y2) ltac:(lra)).
  field. repeat split; lra.
Qed.
End Plane.

(** ** The entries of the matrix *)
Definition entry (eps : R) (i j : panel) : R :=
  vdot (vadd (vadd (leg_val eps (pC i) (pV1 j) (pV2 j)) (leg_val eps (pC i) (pV2 j) (pV3 j))) (leg_val eps (pC i) (pV3 j) (pV4 j))) (pN i).

Section Strips.
Variables L x0 z0 : R.
Definition strip (j : panel) (y1 y2 x c : R) : Prop :=
  y1 < c < y2 /\ 0 < x < L /\
  pV1 j = mkV (x0 + L) y1 z0 /\ pV2 j = mkV x0 y1 z0 /\ pV3 j = mkV x0 y2 z0 /\ pV4 j = mkV (x0 + L) y2 z0 /\
  pC j = mkV (x0 + x) c z0 /\ (exists b, y1 < b < y2 /\ pB j = mkV x0 b z0) /\ vz (pN j) < 0.
Definition kap (i : panel) : R := - vz (pN i) * / (4 * PI).

Lemma kap_pos i y1 y2 x c : strip i y1 y2 x c -> 0 < kap i.
Proof. intros (_ & _ & _ & _ & _ & _ & _ & _ & N). pose proof PI_RGT_0. apply Rmult_lt_0_compat; [lra|]. apply Rinv_0_lt_compat. lra. Qed.

Lemma plane_xy eps p a b : vz p = vz a -> vz p = vz b -> vx (leg_val eps p a b) = 0 /\ vy (leg_val eps p a b) = 0.
Proof. intros A B. unfold leg_val. cbv zeta. vsimp. rewrite <- A, <- B. split; ring. Qed.

Lemma entry_0 i j y1 y2 x c y1' y2' x' c' : strip i y1 y2 x c -> strip j y1' y2' x' c' -> c <> y1' -> c <> y2' ->
  entry 0 i j = kap i * (HH L x (c - y1') - HH L x (c - y2')).
Proof.
  intros (_ & X & _ & _ & _ & _ & Ci & _) (Y & _ & E1 & E2 & E3 & E4 & _) C1 C2. unfold entry. rewrite E1, E2, E3, E4, Ci.
  pose proof (shoe_z L x0 z0 x c X y1' y2' ltac:(lra) C1 C2) as Z.
  match goal with |- vdot ?v _ = _ => set (u := v) in * end.
  assert (UX : vx u = 0 /\ vy u = 0).
  { destruct (plane_xy 0 (mkV (x0 + x) c z0) (mkV (x0 + L) y1' z0) (mkV x0 y1' z0) eq_refl eq_refl) as [A1 A2].
    destruct (plane_xy 0 (mkV (x0 + x) c z0) (mkV x0 y1' z0) (mkV x0 y2' z0) eq_refl eq_refl) as [B1 B2].
    destruct (plane_xy 0 (mkV (x0 + x) c z0) (mkV x0 y2' z0) (mkV (x0 + L) y2' z0) eq_refl eq_refl) as [D1 D2].
    unfold u. cbn [vx vy vadd]. split; [rewrite A1, B1, D1|rewrite A2, B2, D2]; ring. }
  unfold vdot. rewrite (proj1 UX), (proj2 UX), Z. unfold kap. ring.
Qed.
Lemma off_shoe i j y1 y2 x c y1' y2' x' c' : strip i y1 y2 x c -> strip j y1' y2' x' c' -> c <> y1' -> c <> y2' ->
  off_line (pC i) (pV1 j) (pV2 j) /\ off_line (pC i) (pV2 j) (pV3 j) /\ off_line (pC i) (pV3 j) (pV4 j).
Proof.
  intros (_ & X & _ & _ & _ & _ & Ci & _) (Y & _ & E1 & E2 & E3 & E4 & _) C1 C2. rewrite E1, E2, E3, E4, Ci. split; [|split].
  - pose proof (trail_off L x0 z0 x c X y1' C1) as O. intro F. apply O. rewrite vcross_anti, F. apply vec_eq; vsimp; ring.
  - exact (bound_off L x0 z0 x c X y1' y2' ltac:(lra)).
  - exact (trail_off L x0 z0 x c X y2' C2).
Qed.
Lemma entry_cont i j : off_line (pC i) (pV1 j) (pV2 j) -> off_line (pC i) (pV2 j) (pV3 j) -> off_line (pC i) (pV3 j) (pV4 j) ->
  continuity_pt (fun e => entry e i j) 0.
Proof.
  intros A B C.
  pose proof (continuity_pt_plus _ _ 0 (continuity_pt_plus _ _ 0 (leg_continuous _ _ _ (pN i) A) (leg_continuous _ _ _ (pN i) B)) (leg_continuous _ _ _ (pN i) C)) as K.
  intros e E. destruct (K e E) as (al & AL & H). exists al. split; [exact AL|]. intros t T. specialize (H t T).
  assert (Q : forall e, entry e i j = ((fun e => vdot (leg_val e (pC i) (pV1 j) (pV2 j)) (pN i)) + (fun e => vdot (leg_val e (pC i) (pV2 j) (pV3 j)) (pN i)) + (fun e => vdot (leg_val e (pC i) (pV3 j) (pV4 j)) (pN i)))%F e).
  { intros e'. unfold entry, plus_fct, vdot. cbn [vadd vx vy vz]. ring. }
  rewrite !Q. exact H.
Qed.
Lemma entry_shoe eps i j : 0 <= eps -> off_line (pC i) (pV1 j) (pV2 j) -> off_line (pC i) (pV2 j) (pV3 j) -> off_line (pC i) (pV3 j) (pV4 j) ->
  (let* dw := horseshoe eps (pC i) j in Some (vdot dw (pN i))) = Some (entry eps i j).
Proof. intros E A B C. rewrite horseshoe_eq, !leg_exact by assumption. reflexivity. Qed.

(** Sums over the panels at the left and at the right of a panel. *)
Lemma strips_inv y j rest : strips L x0 z0 y (j :: rest) -> exists y1 y2 x c, strip j y1 y2 x c /\ y <= y1 /\ strips L x0 z0 y2 rest.
Proof. intro H. inversion H; subst. exists y1, y2, x, c. split; [|split; assumption]. unfold strip. assert (exists b, y1 < b < y2 /\ pB j = mkV x0 b z0) by (exists b; tauto). tauto. Qed.
Lemma strips_In y lat : strips L x0 z0 y lat -> forall j, In j lat -> exists y1 y2 x c, strip j y1 y2 x c /\ y <= y1.
Proof.
  revert y. induction lat as [|k lat IH]; intros y S j []; destruct (strips_inv _ _ _ S) as (y1 & y2 & x & c & K & Y & S').
  - subst j. exists y1, y2, x, c. split; assumption.
  - destruct (IH y2 S' j H) as (a & b & x' & c' & J & A). exists a, b, x', c'. split; [exact J|]. destruct K as (K & _). lra.
Qed.
Lemma strip_fun j y1 y2 x c a b x' c' : strip j y1 y2 x c -> strip j a b x' c' -> y1 = a /\ y2 = b /\ x = x' /\ c = c'.
Proof.
  intros (_ & _ & _ & A & B & _ & C & _) (_ & _ & _ & A' & B' & _ & C' & _).
  rewrite A in A'. rewrite B in B'. rewrite C in C'. injection A' as ?. injection B' as ?. injection C' as ? ?. repeat split; lra.
Qed.
Lemma strips_split pre : forall y i post, strips L x0 z0 y (pre ++ i :: post) -> forall y1 y2 x c, strip i y1 y2 x c ->
  y <= y1 /\ strips L x0 z0 y2 post /\ forall j, In j pre -> exists a b x' c', strip j a b x' c' /\ b <= y1.
Proof.
  induction pre as [|k pre IH]; intros y i post S y1 y2 x c I; cbn [app] in S; destruct (strips_inv _ _ _ S) as (a & b & x' & c' & K & Y & S').
  - destruct (strip_fun _ _ _ _ _ _ _ _ _ I K) as (-> & -> & -> & ->). split; [exact Y|]. split; [exact S'|]. intros j [].
  - destruct (IH b i post S' y1 y2 x c I) as (Y1 & P & H). destruct K as (K1 & K2). split; [lra|]. split; [exact P|].
    intros j [<-|J]; [|exact (H j J)]. exists a, b, x', c'. split; [split; assumption|exact Y1].
Qed.

Section Row.
Variables (i : panel) (y1 y2 x c : R).
Hypothesis I : strip i y1 y2 x c.
Lemma left_neg j a b x' c' : strip j a b x' c' -> b <= y1 -> entry 0 i j < 0.
Proof.
  intros J B. destruct I as (Y & X & _). pose proof J as (Y' & _). rewrite (entry_0 i j _ _ _ _ _ _ _ _ I J) by lra. pose proof (kap_pos _ _ _ _ _ I).
  pose proof (HH_dec L x X (c - b) (c - a) ltac:(lra) ltac:(lra)). nra.
Qed.
Lemma right_neg j a b x' c' : strip j a b x' c' -> y2 <= a -> entry 0 i j < 0.
Proof.
  intros J B. destruct I as (Y & X & _). pose proof J as (Y' & _). rewrite (entry_0 i j _ _ _ _ _ _ _ _ I J) by lra. pose proof (kap_pos _ _ _ _ _ I).
  replace (c - a) with (- (a - c)) by ring. replace (c - b) with (- (b - c)) by ring. rewrite !HH_odd by lra.
  pose proof (HH_dec L x X (a - c) (b - c) ltac:(lra) ltac:(lra)). nra.
Qed.
Lemma right_sum : forall post y, y2 <= y -> strips L x0 z0 y post -> - (kap i * HH L x (y - c)) < rsum (map (entry 0 i) post).
Proof.
  destruct I as (Y & X & _). pose proof (kap_pos _ _ _ _ _ I) as P.
  induction post as [|j post IH]; intros y Yy S.
  - pose proof (HH_pos L x X (y - c) ltac:(lra)). unfold rsum. cbn [map fold_right]. nra.
  - destruct (strips_inv _ _ _ S) as (a & b & x' & c' & J & A & S'). pose proof J as (Y' & _). pose proof (IH b ltac:(lra) S') as Q.
    unfold rsum in *. cbn [map fold_right]. rewrite (entry_0 i j _ _ _ _ _ _ _ _ I J) by lra.
    replace (c - a) with (- (a - c)) by ring. replace (c - b) with (- (b - c)) by ring. rewrite !HH_odd by lra.
    pose proof (HH_le L x X (y - c) (a - c) ltac:(lra) ltac:(lra)). nra.
Qed.
Lemma left_sum post : forall pre y, strips L x0 z0 y (pre ++ i :: post) -> kap i * (HH L x (c - y) - HH L x (c - y1)) <= rsum (map (entry 0 i) pre).
Proof.
  destruct I as (Y & X & _). pose proof (kap_pos _ _ _ _ _ I) as P.
  induction pre as [|j pre IH]; intros y S; destruct (strips_split _ _ _ _ S _ _ _ _ I) as (Yy & _).
  - unfold rsum. cbn [map fold_right]. pose proof (HH_le L x X (c - y1) (c - y) ltac:(lra) ltac:(lra)). nra.
  - cbn [app] in S. destruct (strips_inv _ _ _ S) as (a & b & x' & c' & J & A & S'). pose proof J as (Y' & _). pose proof (IH b S') as Q.
    destruct (strips_split _ _ _ _ S' _ _ _ _ I) as (Yb & _).
    unfold rsum in *. cbn [map fold_right]. rewrite (entry_0 i j _ _ _ _ _ _ _ _ I J) by lra.
    pose proof (HH_le L x X (c - a) (c - y) ltac:(lra) ltac:(lra)). nra.
Qed.
Lemma row_sum pre post y : strips L x0 z0 y (pre ++ i :: post) -> 0 < rsum (map (entry 0 i) (pre ++ i :: post)).
Proof.
  intros S. destruct (strips_split _ _ _ _ S _ _ _ _ I) as (Yy & S' & _). pose proof (left_sum post pre y S) as A. pose proof (right_sum post y2 (Rle_refl _) S') as B.
  destruct I as (Y & X & _). pose proof (kap_pos _ _ _ _ _ I) as P. rewrite map_app, rsum_app. cbn [map]. change (rsum (?a :: ?l)) with (a + rsum l).
  rewrite (entry_0 i i _ _ _ _ _ _ _ _ I I) by lra. replace (c - y2) with (- (y2 - c)) by ring. rewrite HH_odd by lra.
  pose proof (HH_pos L x X (c - y) ltac:(lra)). pose proof (HH_pos L x X (y2 - c) ltac:(lra)). nra.
Qed.
End Row.

(** ** The matrix *)
Variables (y : R) (lat : list panel).
Hypothesis S : strips L x0 z0 y lat.
Let n := length lat.
Let dflt := hd (mkPanel vzero vzero vzero vzero vzero vzero vzero vzero vzero vzero vzero 0) lat.
Let pan i := nth i lat dflt.
Let A eps i j := entry eps (pan i) (pan j).

Lemma lat_seq : lat = map pan (seq 0 n).
Proof.
  unfold n, pan. clear. generalize dflt. intro d. apply (nth_ext _ _ d d); [rewrite map_length, seq_length; reflexivity|].
  intros k K. rewrite (nth_indep (map _ _) d (nth 0 lat d)) by (rewrite map_length, seq_length; exact K). rewrite (map_nth (fun i => nth i lat d)), seq_nth by exact K. reflexivity.
Qed.
Lemma pan_strip i : (i < n)%nat -> exists y1 y2 x c, strip (pan i) y1 y2 x c.
Proof. intros I. destruct (strips_In y lat S (pan i) (nth_In _ _ I)) as (a & b & x & c & H & _). exists a, b, x, c. exact H. Qed.
Lemma pan_split i : (i < n)%nat -> exists pre post, lat = pre ++ pan i :: post /\ length pre = i.
Proof. intros I. exact (nth_split _ _ I). Qed.
(** Two different panels. *)
Lemma pan_order i j : (i < n)%nat -> (j < n)%nat -> (i < j)%nat -> forall y1 y2 x c a b x' c', strip (pan i) y1 y2 x c -> strip (pan j) a b x' c' -> y2 <= a.
Proof.
  intros I J IJ y1 y2 x c a b x' c' Hi Hj. destruct (pan_split j J) as (pre & post & E & Lp). pose proof S as S'. rewrite E in S'.
  destruct (strips_split _ _ _ _ S' _ _ _ _ Hj) as (_ & _ & H).
  assert (P : In (pan i) pre). { unfold pan. clearbody dflt. rewrite E, app_nth1 by lia. apply nth_In. lia. }
  destruct (H _ P) as (a' & b' & x'' & c'' & Q & B). destruct (strip_fun _ _ _ _ _ _ _ _ _ Hi Q) as (_ & -> & _). exact B.
Qed.
Lemma pan_off i j y1 y2 x c a b x' c' : (i < n)%nat -> (j < n)%nat -> strip (pan i) y1 y2 x c -> strip (pan j) a b x' c' -> c <> a /\ c <> b.
Proof.
  intros I J Hi Hj. pose proof (proj1 Hi) as Yi. pose proof (proj1 Hj) as Yj. destruct (lt_eq_lt_dec i j) as [[Lt|E]|Lt].
  - pose proof (pan_order i j I J Lt _ _ _ _ _ _ _ _ Hi Hj). lra.
  - subst j. destruct (strip_fun _ _ _ _ _ _ _ _ _ Hi Hj) as (-> & -> & _ & _). lra.
  - pose proof (pan_order j i J I Lt _ _ _ _ _ _ _ _ Hj Hi). lra.
Qed.
Lemma pan_off_shoe i j : (i < n)%nat -> (j < n)%nat ->
  off_line (pC (pan i)) (pV1 (pan j)) (pV2 (pan j)) /\ off_line (pC (pan i)) (pV2 (pan j)) (pV3 (pan j)) /\ off_line (pC (pan i)) (pV3 (pan j)) (pV4 (pan j)).
Proof.
  intros I J. destruct (pan_strip i I) as (y1 & y2 & x & c & Hi). destruct (pan_strip j J) as (a & b & x' & c' & Hj).
  destruct (pan_off i j _ _ _ _ _ _ _ _ I J Hi Hj) as (C1 & C2). exact (off_shoe _ _ _ _ _ _ _ _ _ _ Hi Hj C1 C2).
Qed.
Lemma A_cont i j : (i < n)%nat -> (j < n)%nat -> continuity_pt (fun e => A e i j) 0.
Proof. intros I J. destruct (pan_off_shoe i j I J) as (O1 & O2 & O3). exact (entry_cont _ _ O1 O2 O3). Qed.
Lemma A_neg i j : (i < n)%nat -> (j < n)%nat -> i <> j -> A 0 i j < 0.
Proof.
  intros I J N. destruct (pan_strip i I) as (y1 & y2 & x & c & Hi). destruct (pan_strip j J) as (a & b & x' & c' & Hj).
  destruct (lt_eq_lt_dec i j) as [[Lt|E]|Lt]; [|congruence|].
  - exact (right_neg _ _ _ _ _ Hi _ _ _ _ _ Hj (pan_order i j I J Lt _ _ _ _ _ _ _ _ Hi Hj)).
  - exact (left_neg _ _ _ _ _ Hi _ _ _ _ _ Hj (pan_order j i J I Lt _ _ _ _ _ _ _ _ Hj Hi)).
Qed.
Lemma A_sum i : (i < n)%nat -> 0 < sum n (A 0 i).
Proof.
  intros I. destruct (pan_strip i I) as (y1 & y2 & x & c & Hi). destruct (pan_split i I) as (pre & post & E & _).
  pose proof S as S'. rewrite E in S'. pose proof (row_sum _ _ _ _ _ Hi pre post y S') as P. rewrite <- E in P. rewrite lat_seq, map_map in P. exact P.
Qed.
Lemma sum_cont m (f : R -> nat -> R) : (forall j, (j < m)%nat -> continuity_pt (fun e => f e j) 0) -> continuity_pt (fun e => sum m (f e)) 0.
Proof.
  induction m as [|m IH]; intro H; [apply continuity_pt_const; intros a b; reflexivity|].
  pose proof (continuity_pt_plus _ _ 0 (IH ltac:(intros; apply H; lia)) (H m ltac:(lia))) as K.
  intros e E. destruct (K e E) as (al & AL & Q). exists al. split; [exact AL|]. intros t T. rewrite !sum_S. exact (Q t T).
Qed.
Lemma dominant : near0 (fun e => mm n (A e) /\ forall i j, (i < n)%nat -> (j < n)%nat -> i <> j -> A e i j < 0).
Proof.
  assert (N1 : near0 (fun e => forall i, (i < n)%nat -> forall j, (j < n)%nat -> i <> j -> A e i j < 0)).
  { apply near0_all. intros i I. apply near0_all. intros j J. destruct (Nat.eq_dec i j) as [<-|N]; [exists 1; split; [lra|]; congruence|].
    eapply near0_imp; [|exact (near0_pos (fun e => - A e i j) (continuity_pt_opp _ 0 (A_cont i j I J)) ltac:(pose proof (A_neg i j I J N); lra))].
    cbn beta. intros e _ P _. lra. }
  assert (N2 : near0 (fun e => forall i, (i < n)%nat -> 0 < sum n (A e i))).
  { apply near0_all. intros i I. apply (near0_pos (fun e => sum n (A e i))); [|exact (A_sum i I)]. apply (sum_cont n (fun e => A e i)). intros j J. exact (A_cont i j I J). }
  eapply near0_imp; [|exact (near0_and _ _ N1 N2)]. cbn beta. intros e _ (P & Q). split; [split|].
  - intros i j I J N. left. exact (P i I j J N).
  - exact Q.
  - intros i j I J. exact (P i I j J).
Qed.
Lemma the_matrix eps : 0 <= eps -> downwash eps lat = Some (matrix n (A eps)).
Proof.
  intros E. unfold downwash, matrix. rewrite (all_some_map _ (fun i => map (entry eps i) lat)).
  - f_equal. assert (R : forall B (f : panel -> B), map f lat = map (fun k => f (pan k)) (seq 0 n)).
    { intros B f. transitivity (map f (map pan (seq 0 n))); [f_equal; exact lat_seq|apply map_map]. }
    rewrite (R _ (fun i => map (entry eps i) lat)). apply map_ext. intros i. apply R.
  - intros i I. apply all_some_map. intros j J. apply (In_nth _ _ dflt) in I, J. destruct I as (k & K & <-). destruct J as (l & Ll & <-).
    destruct (pan_off_shoe k l K Ll) as (O1 & O2 & O3). exact (entry_shoe eps _ _ E O1 O2 O3).
Qed.
End Strips.
