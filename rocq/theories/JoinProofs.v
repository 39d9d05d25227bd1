(** Proofs about the continuity warnings (C119). *)
From Coq Require Import Reals List Bool Lra Lia Psatz.
From Verif Require Import Vec PanelModel JoinModel JoinSpec.
Import ListNotations.
Open Scope R_scope.

Lemma TOL_pos : 0 < TOL < 1. Proof. unfold TOL. lra. Qed.
Lemma near_refl u : near (Some u) (Some u) = true.
Proof.
  unfold near. destruct (Rlt_dec _ _) as [|H]; [reflexivity|]. exfalso. apply H. replace (vsub u u) with vzero by (apply vec_eq; unfold vsub, vzero; cbn [vx vy vz]; ring).
  rewrite (proj2 (vnorm_zero vzero) eq_refl). apply TOL_pos.
Qed.
Lemma Rcase_abs0 x : Rabs x = 0 -> x = 0.
Proof. intro H. destruct (Req_EM_T x 0) as [E|E]; [exact E|]. apply Rabs_no_R0 in E. contradiction. Qed.
Lemma absv_zero v : vnorm (absv v) = 0 <-> v = vzero.
Proof.
  rewrite vnorm_zero. split.
  - intro H. pose proof (f_equal vx H) as X. pose proof (f_equal vy H) as Y. pose proof (f_equal vz H) as Z. cbn [absv vzero vx vy vz] in X, Y, Z.
    apply vec_eq; cbn [vzero vx vy vz]; [revert X|revert Y|revert Z]; intro Q; revert Q; apply Rcase_abs0.
  - intros ->. apply vec_eq; cbn [absv vzero vx vy vz]; apply Rabs_R0.
Qed.
Lemma direction_some p q : p <> q -> exists u, edge_direction p q = Some u /\ cross_direction p q = Some u.
Proof.
  intro N. unfold edge_direction, cross_direction. destruct (Req_EM_T _ _) as [E|E]; [|eauto].
  exfalso. apply (proj1 (absv_zero _)) in E. apply N. pose proof (f_equal vx E) as X. pose proof (f_equal vy E) as Y. pose proof (f_equal vz E) as Z.
  cbn [vsub vzero vx vy vz] in X, Y, Z. apply vec_eq; lra.
Qed.

(** ** Indices *)
Lemma edges_in segs : forall k c i, In i (fst (check_edges k segs c)) <->
  exists j s1 s2, i = (k + j)%nat /\ neighbours segs j s1 s2 /\ segment_continuous s1 s2 = false.
Proof.
  induction segs as [|s1 segs IH]; intros k c i.
  - cbn. split; [intros []|intros (j & s1 & s2 & _ & (N & _) & _)]. destruct j; discriminate.
  - destruct segs as [|s2 segs].
    + cbn. split; [intros []|intros (j & t1 & t2 & _ & (_ & N) & _)]. destruct j as [|[|j]]; discriminate.
    + change (check_edges k (s1 :: s2 :: segs) c) with (let d := segment_continuous s1 s2 in
        let '(l, w) := check_edges (S k) (s2 :: segs) (c && d) in (if d then l else k :: l, w)).
      cbv zeta. specialize (IH (S k) (c && segment_continuous s1 s2)%bool i). destruct (check_edges (S k) (s2 :: segs) _) as [l w]. cbn [fst] in *.
      destruct (segment_continuous s1 s2) eqn:E.
      * rewrite IH. split; intros (j & t1 & t2 & A & (B & B') & C).
        -- exists (S j), t1, t2. split; [lia|]. split; [split; assumption|exact C].
        -- destruct j as [|j]; [injection B as <-; injection B' as <-; congruence|]. exists j, t1, t2. split; [lia|]. split; [split; assumption|exact C].
      * cbn [In]. rewrite IH. split.
        -- intros [<-|(j & t1 & t2 & A & (B & B') & C)].
           ++ exists O, s1, s2. split; [lia|]. split; [split; reflexivity|exact E].
           ++ exists (S j), t1, t2. split; [lia|]. split; [split; assumption|exact C].
        -- intros (j & t1 & t2 & A & (B & B') & C). destruct j as [|j]; [left; lia|]. right. exists j, t1, t2. split; [lia|]. split; [split; assumption|exact C].
Qed.
Lemma edges_wing segs : forall k c, snd (check_edges k segs c) = false <-> c = false \/ exists i, In i (fst (check_edges k segs c)).
Proof.
  induction segs as [|s1 segs IH]; intros k c.
  - cbn. split; [auto|intros [H|[i []]]; exact H].
  - destruct segs as [|s2 segs].
    + cbn. split; [auto|intros [H|[i []]]; exact H].
    + change (check_edges k (s1 :: s2 :: segs) c) with (let d := segment_continuous s1 s2 in
        let '(l, w) := check_edges (S k) (s2 :: segs) (c && d) in (if d then l else k :: l, w)).
      cbv zeta. specialize (IH (S k) (c && segment_continuous s1 s2)%bool). destruct (check_edges (S k) (s2 :: segs) _) as [l w]. cbn [fst snd] in *.
      rewrite IH. destruct (segment_continuous s1 s2).
      * rewrite andb_true_r. tauto.
      * rewrite andb_false_r. split; [intros _; right; exists k; left; reflexivity|auto].
Qed.
Lemma reported segs i : In i (w_edges (continuity segs)) <-> exists s1 s2, neighbours segs i s1 s2 /\ segment_continuous s1 s2 = false.
Proof.
  unfold continuity. pose proof (edges_in segs 0 true i) as H. destruct (check_edges 0 segs true) as [l c]. cbn [w_edges fst] in *. rewrite H. split.
  - intros (j & s1 & s2 & -> & A & B). exists s1, s2. auto.
  - intros (s1 & s2 & A & B). exists i, s1, s2. auto.
Qed.
Lemma wing_reported segs : w_wing (continuity segs) = true <-> exists i, In i (w_edges (continuity segs)).
Proof.
  unfold continuity. pose proof (edges_wing segs 0 true) as H. destruct (check_edges 0 segs true) as [l c]. cbn [w_edges w_wing fst snd] in *. rewrite negb_true_iff, H.
  split; [intros [E|E]; [discriminate|exact E]|auto].
Qed.
Lemma not_reported segs i s1 s2 : neighbours segs i s1 s2 -> ~ In i (w_edges (continuity segs)) <-> segment_continuous s1 s2 = true.
Proof.
  intros (A & B). rewrite reported. split.
  - intro H. apply not_false_iff_true. intro E. apply H. exists s1, s2. split; [split; assumption|exact E].
  - intros E (t1 & t2 & (A' & B') & F). congruence.
Qed.

(** ** Joined segments *)
Lemma joined_continuous s1 s2 : joined s1 s2 -> segment_continuous s1 s2 = true.
Proof.
  intros (A & B & N). destruct (direction_some _ _ N) as (u & E & C). unfold segment_continuous. rewrite <- A, <- B, E, C, !near_refl. reflexivity.
Qed.
Lemma joined_silent segs i s1 s2 : neighbours segs i s1 s2 -> joined s1 s2 -> ~ In i (w_edges (continuity segs)).
Proof. intros N J. apply (not_reported _ _ _ _ N). apply joined_continuous. exact J. Qed.

(** ** Chords along x *)
Definition ex : vec := mkV 1 0 0.
Lemma norm_x x : vnorm (mkV x 0 0) = Rabs x.
Proof. unfold vnorm. cbn [vx vy vz]. replace (x * x + 0 * 0 + 0 * 0) with (Rsqr x) by (unfold Rsqr; ring). apply sqrt_Rsqr_abs. Qed.
Lemma along_direction p q : vx p <> vx q -> vy p = vy q -> vz p = vz q -> edge_direction p q = Some ex /\ cross_direction p q = Some ex.
Proof.
  intros X Y Z. assert (V : absv (vsub q p) = mkV (Rabs (vx q - vx p)) 0 0).
  { apply vec_eq; cbn [absv vsub vx vy vz]; [reflexivity|rewrite Y, Rminus_diag_eq by reflexivity; apply Rabs_R0|rewrite Z, Rminus_diag_eq by reflexivity; apply Rabs_R0]. }
  assert (P : Rabs (vx q - vx p) <> 0) by (apply Rabs_no_R0; lra).
  unfold edge_direction, cross_direction. rewrite V, norm_x, Rabs_Rabsolu. destruct (Req_EM_T _ _) as [E|_]; [contradiction|].
  assert (W : vscale (1 / Rabs (vx q - vx p)) (mkV (Rabs (vx q - vx p)) 0 0) = ex) by (apply vec_eq; unfold vscale, ex; cbn [vx vy vz]; [field; exact P|ring|ring]).
  rewrite W. auto.
Qed.
Lemma straight_continuous s1 s2 : straight s1 -> straight s2 ->
  segment_continuous s1 s2 = (near (Some ex) (cross_direction (qb s1) (qd s2)) || near (Some ex) (cross_direction (qc s1) (qd s2)))%bool.
Proof.
  intros [_ (B1 & B2 & B3)] [(A1 & A2 & A3) _]. unfold segment_continuous.
  rewrite (proj1 (along_direction (qa s2) (qd s2) ltac:(lra) A2 A3)), (proj1 (along_direction (qb s1) (qc s1) ltac:(lra) B2 B3)), near_refl. reflexivity.
Qed.
Lemma near_sideways p q : near (Some ex) (cross_direction p q) = true -> sideways p q < TOL * vnorm (vsub q p).
Proof.
  unfold cross_direction. set (v := absv (vsub q p)). assert (NV : vnorm v = vnorm (vsub q p)).
  { unfold v, vnorm, absv. cbn [vx vy vz]. f_equal. rewrite <- !Rabs_mult, !Rabs_right; [reflexivity|apply Rle_ge, sq_nonneg..]. }
  assert (S : sideways p q = vnorm (mkV 0 (vy v) (vz v))).
  { unfold sideways, v, vnorm, absv, vsub. cbn [vx vy vz]. f_equal. rewrite <- !Rabs_mult, !Rabs_right; [reflexivity|apply Rle_ge, sq_nonneg..]. }
  assert (X0 : 0 <= vx v) by apply Rabs_pos. rewrite S, <- NV. clearbody v. clear NV S p q.
  destruct (Req_EM_T (vnorm v) 0) as [E|E].
  - unfold near. destruct (Rlt_dec _ _) as [H|]; [|discriminate]. intros _. exfalso. revert H. replace (vsub ex vzero) with ex by (apply vec_eq; unfold vsub, ex, vzero; cbn [vx vy vz]; ring).
    unfold ex. rewrite norm_x, Rabs_R1. pose proof TOL_pos. lra.
  - unfold near. destruct (Rlt_dec _ _) as [H|]; [|discriminate]. intros _.
    assert (P : 0 < vnorm v) by (pose proof (vnorm_nonneg v); lra). set (n := vnorm v) in *. assert (NN : n * n = vx v * vx v + vy v * vy v + vz v * vz v) by (exact (vnorm_sq v)).
    set (w := vsub ex (vscale (1 / n) v)) in *. assert (WW := vnorm_sq w). pose proof (vnorm_nonneg w) as W0.
    assert (Q : vdot w w * (n * n) = 2 * n * (n - vx v)).
    { unfold w, vdot, vsub, vscale, ex. cbn [vx vy vz]. replace (((1 - 1 / n * vx v) * (1 - 1 / n * vx v) + (0 - 1 / n * vy v) * (0 - 1 / n * vy v) + (0 - 1 / n * vz v) * (0 - 1 / n * vz v)) * (n * n))
        with ((n - vx v) * (n - vx v) + vy v * vy v + vz v * vz v) by (field; lra). nra. }
    pose proof TOL_pos as T. assert (L : vdot w w < TOL * TOL) by (rewrite <- WW; nra).
    apply Rsqr_incrst_0; [|apply vnorm_nonneg|nra]. unfold Rsqr. rewrite vnorm_sq. unfold vdot. cbn [vx vy vz].
    assert (XN : vx v <= n) by nra. assert (B : vdot w w * (n * n) < TOL * TOL * (n * n)) by (apply Rmult_lt_compat_r; nra). nra.
Qed.
Lemma apart segs i s1 s2 : neighbours segs i s1 s2 -> straight s1 -> straight s2 ->
  1 / 100 * vnorm (vsub (qd s2) (qb s1)) <= sideways (qb s1) (qa s2) -> 1 / 100 * vnorm (vsub (qd s2) (qc s1)) <= sideways (qb s1) (qa s2) ->
  In i (w_edges (continuity segs)).
Proof.
  intros N S1 S2 G1 G2. apply reported. exists s1, s2. split; [exact N|]. rewrite (straight_continuous _ _ S1 S2). destruct S1 as [_ (B1 & B2 & B3)]. destruct S2 as [(A1 & A2 & A3) _].
  apply orb_false_iff. split; apply not_true_is_false; intro H; apply near_sideways in H; unfold TOL, sideways in *.
  - rewrite A2, A3 in *. lra.
  - rewrite A2, A3, B2, B3 in *. lra.
Qed.
Lemma on_line segs i s1 s2 : neighbours segs i s1 s2 -> straight s1 -> straight s2 -> sideways (qb s1) (qa s2) = 0 -> ~ In i (w_edges (continuity segs)).
Proof.
  intros N S1 S2 G. apply (not_reported _ _ _ _ N). rewrite (straight_continuous _ _ S1 S2). destruct S1 as [_ (B1 & B2 & B3)]. destruct S2 as [(A1 & A2 & A3) _].
  unfold sideways in G. apply (proj1 (vnorm_zero _)) in G. pose proof (f_equal vy G) as Y. pose proof (f_equal vz G) as Z. cbn [vzero vx vy vz] in Y, Z.
  destruct (Req_EM_T (vx (qb s1)) (vx (qd s2))) as [E|E].
  - apply orb_true_iff. right. rewrite (proj2 (along_direction (qc s1) (qd s2) ltac:(lra) ltac:(lra) ltac:(lra))). apply near_refl.
  - apply orb_true_iff. left. rewrite (proj2 (along_direction (qb s1) (qd s2) ltac:(lra) ltac:(lra) ltac:(lra))). apply near_refl.
Qed.

(** ** Other common edges *)
Lemma absv_norm p q : vnorm (absv (vsub q p)) = vnorm (vsub q p).
Proof. unfold vnorm, absv. cbn [vx vy vz]. f_equal. rewrite <- !Rabs_mult, !Rabs_right; [reflexivity|apply Rle_ge, sq_nonneg..]. Qed.
Lemma edge_heading p q u : edge_direction p q = Some u <-> p <> q /\ u = heading p q.
Proof.
  assert (H : vscale (1 / vnorm (vsub q p)) (absv (vsub q p)) = heading p q).
  { unfold heading, absv, vscale. cbn [vsub vx vy vz]. apply vec_eq; cbn [vx vy vz]; unfold Rdiv; ring. }
  unfold edge_direction. destruct (Req_EM_T _ _) as [E|E].
  - split; [discriminate|]. intros [N _]. exfalso. apply N. apply (proj1 (absv_zero _)) in E. pose proof (f_equal vx E) as X. pose proof (f_equal vy E) as Y. pose proof (f_equal vz E) as Z.
    cbn [vsub vzero vx vy vz] in X, Y, Z. apply vec_eq; lra.
  - rewrite absv_norm, H. split; [|intros [_ ->]; reflexivity]. intro F. injection F as <-. split; [|reflexivity]. intros ->. apply E. apply absv_zero. apply vec_eq; unfold vsub, vzero; cbn [vx vy vz]; ring.
Qed.
Lemma near_similar p q p' q' : near (edge_direction p q) (edge_direction p' q') = true <-> similar p q p' q'.
Proof.
  unfold similar. destruct (edge_direction p q) as [u|] eqn:E.
  - apply edge_heading in E. destruct E as [N ->]. destruct (edge_direction p' q') as [u|] eqn:E.
    + apply edge_heading in E. destruct E as [N' ->]. unfold near. fold TOL. destruct (Rlt_dec _ _); intuition discriminate.
    + split; [discriminate|]. intros (_ & N' & _). rewrite (proj2 (edge_heading p' q' _) (conj N' eq_refl)) in E. discriminate.
  - split; [discriminate|]. intros (N & _). rewrite (proj2 (edge_heading p q _) (conj N eq_refl)) in E. discriminate.
Qed.
Lemma near_not p q p' q' : ~ similar p q p' q' -> near (edge_direction p q) (edge_direction p' q') = false.
Proof. intro H. apply not_true_is_false. intro E. apply H. apply near_similar. exact E. Qed.
Lemma back_silent segs i s1 s2 : neighbours segs i s1 s2 -> joined_back s1 s2 -> ~ similar_out_in s1 s2 -> ~ In i (w_edges (continuity segs)).
Proof.
  intros N (A & B & D) S. apply (not_reported _ _ _ _ N). unfold segment_continuous. rewrite (near_not _ _ _ _ S).
  destruct (direction_some _ _ D) as (u & E & C). rewrite <- A, <- B, E, C, !near_refl. reflexivity.
Qed.
Lemma outer_silent segs i s1 s2 : neighbours segs i s1 s2 -> joined_outer s1 s2 -> ~ similar_out_in s1 s2 -> ~ similar_in_out s1 s2 -> ~ In i (w_edges (continuity segs)).
Proof.
  intros N (A & B & D) S T. apply (not_reported _ _ _ _ N). unfold segment_continuous. rewrite (near_not _ _ _ _ S), (near_not _ _ _ _ T).
  destruct (direction_some _ _ D) as (u & E & C). rewrite <- A, <- B, E, C, !near_refl. reflexivity.
Qed.
Lemma inner_silent segs i s1 s2 : neighbours segs i s1 s2 -> joined_inner s1 s2 -> ~ similar_out_in s1 s2 -> ~ similar_in_out s1 s2 -> ~ similar_out_out s1 s2 -> ~ In i (w_edges (continuity segs)).
Proof.
  intros N (A & B & D) S T U. apply (not_reported _ _ _ _ N). unfold segment_continuous. rewrite (near_not _ _ _ _ S), (near_not _ _ _ _ T), (near_not _ _ _ _ U).
  destruct (direction_some _ _ D) as (u & E & C). rewrite <- A, <- B, E, C, !near_refl. reflexivity.
Qed.
Lemma turned segs i s1 s2 : neighbours segs i s1 s2 -> ~ similar_out_in s1 s2 -> ~ similar_in_out s1 s2 -> ~ similar_out_out s1 s2 -> ~ similar_in_in s1 s2 -> In i (w_edges (continuity segs)).
Proof.
  intros N S T U V. apply reported. exists s1, s2. split; [exact N|]. unfold segment_continuous.
  rewrite (near_not _ _ _ _ S), (near_not _ _ _ _ T), (near_not _ _ _ _ U), (near_not _ _ _ _ V). reflexivity.
Qed.

(** ** Witnesses *)
Definition rect (y x : R) : quad := mkQuad (mkV x y 0) (mkV x (y + 1) 0) (mkV (x + 1) (y + 1) 0) (mkV (x + 1) y 0).
Lemma rect_straight y x : straight (rect y x).
Proof. unfold straight, along_x, rect. cbn [qa qb qc qd vx vy vz]. repeat split; lra. Qed.
Lemma norm_ge v k : 0 <= k -> k * k <= vdot v v -> k <= vnorm v.
Proof. intros K H. pose proof (vnorm_nonneg v). pose proof (vnorm_sq v). nra. Qed.
Lemma norm_le v k : 0 <= k -> vdot v v <= k * k -> vnorm v <= k.
Proof. intros K H. pose proof (vnorm_nonneg v). pose proof (vnorm_sq v). nra. Qed.
Lemma back_reported : joined_back (rect 1 0) (rect 0 0) /\ In O (w_edges (continuity [rect 1 0; rect 0 0])).
Proof.
  split.
  - unfold joined_back, rect. cbn [qa qb qc qd]. split; [f_equal; ring|]. split; [f_equal; ring|]. intro H. apply (f_equal vx) in H. cbn [vx] in H. lra.
  - apply (apart _ _ (rect 1 0) (rect 0 0)); [split; reflexivity|apply rect_straight|apply rect_straight| |];
      (apply Rle_trans with 1; [apply Rle_trans with (1 / 100 * 100); [apply Rmult_le_compat_l; [lra|]; apply norm_le; [lra|]|lra]|apply norm_ge; [lra|]]);
      unfold vdot, vsub, rect; cbn [qa qb qc qd vx vy vz]; lra.
Qed.
Lemma gap_silent : straight (rect 0 0) /\ straight (rect 1 100) /\ behind (rect 0 0) (rect 1 100) /\ w_edges (continuity [rect 0 0; rect 1 100]) = [] /\ w_wing (continuity [rect 0 0; rect 1 100]) = false.
Proof.
  split; [apply rect_straight|]. split; [apply rect_straight|]. split; [unfold behind, rect; cbn [qa qc vx]; lra|].
  assert (E : w_edges (continuity [rect 0 0; rect 1 100]) = []).
  { destruct (w_edges _) as [|i l] eqn:E; [reflexivity|exfalso]. assert (I : In i (w_edges (continuity [rect 0 0; rect 1 100]))) by (rewrite E; left; reflexivity). pose proof I as J.
    apply reported in J. destruct J as (s1 & s2 & N & _). destruct i as [|[|i]]; [|destruct N; discriminate|destruct N as [N _]; destruct i; discriminate].
    revert I. apply (on_line _ _ (rect 0 0) (rect 1 100)); [split; reflexivity|apply rect_straight|apply rect_straight|].
    unfold sideways. apply vnorm_zero. unfold rect. cbn [qa qb vx vy vz]. apply vec_eq; cbn [vzero vx vy vz]; lra. }
  split; [exact E|]. apply not_true_is_false. intro H. apply wing_reported in H. rewrite E in H. destruct H as [i []].
Qed.
Lemma rects_joined : joined (rect 0 0) (rect 1 0) /\ neighbours [rect 0 0; rect 1 0] 0 (rect 0 0) (rect 1 0).
Proof.
  split; [|split; reflexivity]. unfold joined, rect. cbn [qa qb qc qd]. split; [f_equal; ring|]. split; [f_equal; ring|]. intro H. apply (f_equal vx) in H. cbn [vx] in H. lra.
Qed.
Lemma rects_apart : 1 / 100 * vnorm (vsub (qd (rect 2 0)) (qb (rect 0 0))) <= sideways (qb (rect 0 0)) (qa (rect 2 0)) /\
  1 / 100 * vnorm (vsub (qd (rect 2 0)) (qc (rect 0 0))) <= sideways (qb (rect 0 0)) (qa (rect 2 0)).
Proof.
  split; (apply Rle_trans with 1; [apply Rle_trans with (1 / 100 * 100); [apply Rmult_le_compat_l; [lra|]; apply norm_le; [lra|]|lra]|apply norm_ge; [lra|]]);
    unfold vdot, vsub, rect; cbn [qa qb qc qd vx vy vz]; lra.
Qed.

(** Three chords in different directions: a swept strip between two edges of different twist. *)
Definition twist (y z1 z2 : R) : quad := mkQuad (mkV 0 y 0) (mkV 0 (y + 1) 0) (mkV 1 (y + 1) z2) (mkV 1 y z1).
Lemma unlike p q p' q' : p <> q -> p' <> q' -> heading p q = mkV 1 0 0 -> vx (heading p' q') <= 99 / 100 -> ~ similar p q p' q'.
Proof.
  intros _ _ E L (_ & _ & H). rewrite E in H. assert (1 / 100 <= vnorm (vsub (mkV 1 0 0) (heading p' q'))); [|lra]. apply norm_ge; [lra|]. unfold vdot, vsub. cbn [vx vy vz]. nra.
Qed.
Lemma similar_sym p q p' q' : similar p q p' q' -> similar p' q' p q.
Proof.
  intros (A & B & C). split; [exact B|]. split; [exact A|]. eapply Rle_lt_trans; [|exact C]. apply Req_le. unfold vnorm. f_equal. unfold vsub. cbn [vx vy vz]. ring.
Qed.
Lemma heading_flat p q : vx p < vx q -> vy p = vy q -> vz p = vz q -> heading p q = mkV 1 0 0.
Proof.
  intros X Y Z. unfold heading. replace (vsub q p) with (mkV (vx q - vx p) 0 0) by (apply vec_eq; unfold vsub; cbn [vx vy vz]; lra). rewrite norm_x, (Rabs_right (vx q - vx p)) by lra.
  rewrite Y, Z, (Rminus_diag_eq (vy q) (vy q) eq_refl), (Rminus_diag_eq (vz q) (vz q) eq_refl), Rabs_R0. apply vec_eq; cbn [vx vy vz]; field; lra.
Qed.
Lemma heading_steep p q : vx q - vx p = 1 -> vz q - vz p = 2 -> vx (heading p q) <= 99 / 100.
Proof.
  intros X Z. unfold heading. cbn [vx]. rewrite X, Rabs_R1. assert (N : 2 <= vnorm (vsub q p)) by (apply norm_ge; [lra|unfold vdot, vsub; cbn [vx vy vz]; rewrite X, Z; pose proof (sq_nonneg (vy q - vy p)); lra]).
  apply (Rmult_le_reg_r (vnorm (vsub q p))); [lra|]. unfold Rdiv. rewrite Rmult_assoc, Rinv_l by lra. lra.
Qed.
Lemma back_witness : joined_back (twist 1 2 0) (twist 0 2 2) /\ ~ similar_out_in (twist 1 2 0) (twist 0 2 2).
Proof.
  assert (NE : forall a b c d e f, a <> d -> mkV a b c <> mkV d e f) by (intros; intro Q; apply (f_equal vx) in Q; cbn [vx] in Q; lra).
  split.
  - unfold joined_back, twist. cbn [qa qb qc qd]. split; [apply vec_eq; cbn [vx vy vz]; ring|]. split; [apply vec_eq; cbn [vx vy vz]; ring|]. apply NE. lra.
  - intro H. apply similar_sym in H. revert H. unfold twist. cbn [qa qb qc qd]. apply unlike; [apply NE; lra|apply NE; lra|apply heading_flat; cbn [vx vy vz]; lra|apply heading_steep; cbn [vx vz]; lra].
Qed.
