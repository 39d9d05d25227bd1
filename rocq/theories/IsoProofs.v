(** Proofs about images of lattices under isometries (C98-C101). *)
From Coq Require Import Reals List Lra Psatz Lia Permutation.
From Verif Require Import Vec PanelModel GeomSpec GeomProofs VlmModel VlmSpec VlmProofs VlmLaws VlmSymmetry IsoSpec.
Import ListNotations.
Open Scope R_scope.

Section Iso.
Variables (d : R) (Q : vec -> vec).
Hypothesis ISO : isometry d Q.

Lemma iso_dd : d * d = 1.
Proof. destruct ISO as ([->| ->] & _); ring. Qed.
Lemma iso_add u v : Q (vadd u v) = vadd (Q u) (Q v).
Proof. apply ISO. Qed.
Lemma iso_scale k u : Q (vscale k u) = vscale k (Q u).
Proof. apply ISO. Qed.
Lemma iso_dot u v : vdot (Q u) (Q v) = vdot u v.
Proof. apply ISO. Qed.
Lemma iso_cross u v : vcross (Q u) (Q v) = vscale d (Q (vcross u v)).
Proof. apply ISO. Qed.
Lemma iso_zero : Q vzero = vzero.
Proof. replace vzero with (vscale 0 vzero) at 1 by (apply vec_eq; vsimp; ring). rewrite iso_scale. apply vec_eq; vsimp; ring. Qed.
Lemma sub_add u v : vsub u v = vadd u (vscale (-1) v).
Proof. apply vec_eq; vsimp; ring. Qed.
Lemma iso_sub u v : Q (vsub u v) = vsub (Q u) (Q v).
Proof. rewrite !sub_add, iso_add, iso_scale. reflexivity. Qed.
Lemma norm_dot v : vnorm v = sqrt (vdot v v).
Proof. reflexivity. Qed.
Lemma iso_norm v : vnorm (Q v) = vnorm v.
Proof. rewrite !norm_dot, iso_dot. reflexivity. Qed.
Lemma iso_sum l : Q (vsum l) = vsum (map Q l).
Proof. induction l as [|x l IH]; cbn [vsum map fold_right]; [apply iso_zero|]. rewrite iso_add. f_equal. exact IH. Qed.

Lemma leg_iso eps p a b : leg_velocity eps (Q p) (Q a) (Q b) = option_map (fun v => vscale d (Q v)) (leg_velocity eps p a b).
Proof.
  unfold leg_velocity. rewrite <- !iso_sub, !iso_norm, iso_dot, iso_cross.
  destruct (cdiv _ _); [|reflexivity]. destruct (cdiv _ _); [|reflexivity]. destruct (cdiv _ _); [|reflexivity].
  cbn [option_map]. f_equal. rewrite iso_scale. apply vec_eq; vsimp; ring.
Qed.

(** Images with sign. *)
Definition image_sgn (f : R) (p p' : panel) : Prop :=
  pC p' = Q (pC p) /\ pB p' = Q (pB p) /\ pA p' = pA p /\ pN p' = vscale f (Q (pN p)) /\
  ((f = - d /\ pV1 p' = Q (pV4 p) /\ pV2 p' = Q (pV3 p) /\ pV3 p' = Q (pV2 p) /\ pV4 p' = Q (pV1 p)) \/
   (f = d /\ pV1 p' = Q (pV1 p) /\ pV2 p' = Q (pV2 p) /\ pV3 p' = Q (pV3 p) /\ pV4 p' = Q (pV4 p))).
Lemma image_sgn_of p p' : image_by d Q p p' -> exists f, image_sgn f p p'.
Proof.
  intros (A & B & C & [(D & E & F & G & H)|(D & E & F & G & H)]); [exists (- d)|exists d]; unfold image_sgn; do 4 (split; [assumption|]); [left|right]; auto 6.
Qed.
Lemma image_sgn_sq f p p' : image_sgn f p p' -> f * f = 1.
Proof. pose proof iso_dd. intros (_ & _ & _ & _ & [(-> & _)|(-> & _)]); lra. Qed.
Lemma horseshoe_iso eps f p j j' : image_sgn f j j' -> horseshoe eps (Q p) j' = option_map (fun v => vscale f (Q v)) (horseshoe eps p j).
Proof.
  intros (_ & _ & _ & _ & [(-> & A & B & C & D)|(-> & A & B & C & D)]); rewrite !horseshoe_eq, A, B, C, D, !leg_iso.
  - rewrite (leg_rev eps p (pV3 j) (pV4 j)), (leg_rev eps p (pV2 j) (pV3 j)), (leg_rev eps p (pV1 j) (pV2 j)).
    destruct (leg_velocity eps p (pV1 j) (pV2 j)); destruct (leg_velocity eps p (pV2 j) (pV3 j));
      destruct (leg_velocity eps p (pV3 j) (pV4 j)); try reflexivity.
    cbn [option_map]. f_equal. rewrite !iso_scale, !iso_add. apply vec_eq; vsimp; ring.
  - destruct (leg_velocity eps p (pV1 j) (pV2 j)); [|reflexivity]. destruct (leg_velocity eps p (pV2 j) (pV3 j)); [|reflexivity].
    destruct (leg_velocity eps p (pV3 j) (pV4 j)); [|reflexivity].
    cbn [option_map]. f_equal. rewrite !iso_add. apply vec_eq; vsimp; ring.
Qed.

Lemma inj_perm n sg : (forall i, (i < n)%nat -> (sg i < n)%nat) -> (forall i j, (i < n)%nat -> (j < n)%nat -> sg i = sg j -> i = j) ->
  Permutation (map sg (seq 0 n)) (seq 0 n).
Proof.
  intros B I. apply NoDup_Permutation_bis.
  - assert (G : forall l, (forall i, In i l -> (i < n)%nat) -> NoDup l -> NoDup (map sg l)).
    { induction l as [|x l IH]; intros H N; [constructor|]. inversion N as [|? ? N1 N2]; subst. simpl. constructor.
      - intro X. apply in_map_iff in X as (y & E & Y). apply I in E; [subst; contradiction|apply H; right; exact Y|apply H; left; reflexivity].
      - apply IH; [|exact N2]. intros i X. apply H. right. exact X. }
    apply G; [intros i X; apply in_seq in X; lia|apply seq_NoDup].
  - rewrite map_length. lia.
  - intros x X. apply in_map_iff in X as (i & <- & X). apply in_seq in X. apply in_seq. pose proof (B i). lia.
Qed.

Section Lattice.
Variables (eps : R) (lat lat' : list panel) (sg : nat -> nat) (f : nat -> R) (s s' : flow) (r r' : refs).
Variable dp : panel.
Let n := length lat.
Let pan j := nth j lat dp.
Let pan' j := nth j lat' dp.
Hypothesis LEN : length lat' = length lat.
Hypothesis SB : forall i, (i < n)%nat -> (sg i < n)%nat.
Hypothesis SI : forall i j, (i < n)%nat -> (j < n)%nat -> sg i = sg j -> i = j.
Hypothesis IM : forall i, (i < n)%nat -> image_sgn (f i) (pan i) (pan' (sg i)).
Hypothesis FL : flow_image d Q s s'.
Hypothesis RF : refs_image Q r r'.

Lemma perm : Permutation (map sg (seq 0 n)) (seq 0 n).
Proof. apply inj_perm; assumption. Qed.
Lemma onto i : (i < n)%nat -> exists j, (j < n)%nat /\ i = sg j.
Proof.
  intro I. assert (X : In i (map sg (seq 0 n))) by (eapply Permutation_in; [symmetry; apply perm|apply in_seq; lia]).
  apply in_map_iff in X as (j & E & J). apply in_seq in J. exists j. split; [lia|auto].
Qed.
Lemma rsum_sg (h : nat -> R) : rsum (map h (seq 0 n)) = rsum (map (fun j => h (sg j)) (seq 0 n)).
Proof. rewrite <- (map_map sg h). symmetry. apply rsum_perm, Permutation_map, perm. Qed.
Lemma vsum_sg (h : nat -> vec) : vsum (map h (seq 0 n)) = vsum (map (fun j => h (sg j)) (seq 0 n)).
Proof. rewrite <- (map_map sg h). symmetry. apply vsum_perm, Permutation_map, perm. Qed.
Lemma f_sq i : (i < n)%nat -> f i * f i = 1.
Proof. intro I. exact (image_sgn_sq _ _ _ (IM i I)). Qed.
Lemma pan_in i : (i < n)%nat -> In (pan i) lat.
Proof. intro I. apply nth_In. exact I. Qed.
Lemma in_pan p : In p lat -> exists i, (i < n)%nat /\ p = pan i.
Proof. intro I. destruct (In_nth lat p dp I) as (k & K & E). exists k. split; [exact K|]. symmetry. exact E. Qed.
Lemma in_pan' p : In p lat' -> exists i, (i < n)%nat /\ p = pan' (sg i).
Proof.
  intro I. destruct (In_nth lat' p dp I) as (k & K & E). rewrite LEN in K. destruct (onto k K) as (j & J & ->). exists j. split; [exact J|]. symmetry. exact E.
Qed.
Lemma pan'_in i : (i < n)%nat -> In (pan' (sg i)) lat'.
Proof. intro I. apply nth_In. rewrite LEN. apply SB. exact I. Qed.

Lemma onset_iso p : onset s' (r_CG r') (Q p) = Q (onset s (r_CG r) p).
Proof.
  destruct FL as (_ & _ & W & RT). destruct RF as (_ & _ & _ & CG & _). unfold onset. rewrite W, RT, CG, <- (iso_sub p), (iso_sub (wind s)).
  f_equal. assert (X : forall u v, vcross (vscale d u) v = vscale d (vcross u v)) by (intros; apply vec_eq; vsimp; ring).
  rewrite X, iso_cross. pose proof iso_dd as DD.
  assert (Y : forall v, vscale d (vscale d v) = v) by (intro v; apply vec_eq; vsimp; rewrite <- Rmult_assoc, DD; ring).
  apply Y.
Qed.
Lemma hs_iso p j : (j < n)%nat -> hs eps (Q p) (pan' (sg j)) = vscale (f j) (Q (hs eps p (pan j))).
Proof.
  intro J. unfold hs. rewrite (horseshoe_iso eps (f j) p (pan j) _ (IM j J)).
  destruct (horseshoe eps p (pan j)); cbn [option_map]; [reflexivity|]. rewrite iso_zero. apply vec_eq; vsimp; ring.
Qed.

Lemma downwash_iso m : downwash eps lat = Some m -> exists m', downwash eps lat' = Some m'.
Proof.
  intro D. destruct (downwash_inv _ _ _ D) as (_ & H). eexists. apply downwash_ok. intros i j I J.
  apply in_pan' in I as (a & A & ->). apply in_pan' in J as (b & B & ->). destruct (IM a A) as (C & _). rewrite C, (horseshoe_iso eps (f b) _ (pan b) _ (IM b B)).
  rewrite (H (pan a) (pan b) (pan_in a A) (pan_in b B)). eexists. reflexivity.
Qed.

Definition wt (i j : nat) : R := vdot (hs eps (pC (pan i)) (pan j)) (pN (pan i)).
Definition wt' (i j : nat) : R := vdot (hs eps (pC (pan' i)) (pan' j)) (pN (pan' i)).
Lemma wt_iso i j : (i < n)%nat -> (j < n)%nat -> wt' (sg i) (sg j) = f i * f j * wt i j.
Proof.
  intros I J. unfold wt, wt'. destruct (IM i I) as (C & _ & _ & N & _). rewrite C, N, hs_iso by exact J.
  rewrite vdot_scale_l, vdot_comm, vdot_scale_l, iso_dot, vdot_comm. ring.
Qed.
Lemma tangent_idx h i : length h = n ->
  tangent eps lat s r h (pan i) <-> rsum (map (fun j => wt i j * nth j h 0) (seq 0 n)) = vdot (vscale (-1) (onset s (r_CG r) (pC (pan i)))) (pN (pan i)).
Proof. intro L. unfold tangent. rewrite (combine_seq dp 0 lat h L), map_map, vel_onset. reflexivity. Qed.
Lemma tangent_idx' h i : length h = n ->
  tangent eps lat' s' r' h (pan' i) <-> rsum (map (fun j => wt' i j * nth j h 0) (seq 0 n)) = vdot (vscale (-1) (onset s' (r_CG r') (pC (pan' i)))) (pN (pan' i)).
Proof. intro L. unfold tangent. rewrite (combine_seq dp 0 lat' h) by (rewrite LEN; exact L). rewrite map_map, vel_onset, LEN. reflexivity. Qed.

(** Circulations that belong to each other. *)
Definition gamma_image (g g' : list R) : Prop := length g = n /\ length g' = n /\ forall i, (i < n)%nat -> nth (sg i) g' 0 = f i * nth i g 0.
Lemma tangent_image g g' i : gamma_image g g' -> (i < n)%nat -> tangent eps lat s r g (pan i) <-> tangent eps lat' s' r' g' (pan' (sg i)).
Proof.
  intros (L & L' & G) I. rewrite tangent_idx, tangent_idx' by assumption.
  rewrite (rsum_sg (fun j => wt' (sg i) j * nth j g' 0)).
  assert (E : rsum (map (fun j => wt' (sg i) (sg j) * nth (sg j) g' 0) (seq 0 n)) = f i * rsum (map (fun j => wt i j * nth j g 0) (seq 0 n))).
  { assert (X : forall l, (forall j, In j l -> (j < n)%nat) ->
      rsum (map (fun j => wt' (sg i) (sg j) * nth (sg j) g' 0) l) = f i * rsum (map (fun j => wt i j * nth j g 0) l)).
    { induction l as [|j l IH]; intro B; cbn [map]; rewrite ?rsum_cons; [unfold rsum; cbn; ring|].
      rewrite IH by (intros x X; apply B; right; exact X). assert (J : (j < n)%nat) by (apply B; left; reflexivity).
      rewrite wt_iso, (G j J) by assumption. pose proof (f_sq j J) as F.
      transitivity (f i * wt i j * nth j g 0 * (f j * f j) + f i * rsum (map (fun j => wt i j * nth j g 0) l)); [ring|rewrite F; ring]. }
    apply X. intros j J. apply in_seq in J. lia. }
  rewrite E. destruct (IM i I) as (C & _ & _ & N & _). rewrite C, N, onset_iso.
  assert (Y : vdot (vscale (-1) (Q (onset s (r_CG r) (pC (pan i))))) (vscale (f i) (Q (pN (pan i)))) = f i * vdot (vscale (-1) (onset s (r_CG r) (pC (pan i)))) (pN (pan i))).
  { rewrite <- iso_scale, vdot_comm, vdot_scale_l, iso_dot, vdot_comm. reflexivity. }
  rewrite Y. pose proof (f_sq i I) as F. split; intro H; [rewrite H; reflexivity|].
  clear E Y.
  assert (X : forall x, f i * (f i * x) = x) by (intro x; rewrite <- Rmult_assoc, F; ring). rewrite <- (X (rsum _)), H. apply X.
Qed.
Lemma solves_image g g' m m' : downwash eps lat = Some m -> downwash eps lat' = Some m' -> gamma_image g g' ->
  solves m (boundary lat s r) g <-> solves m' (boundary lat' s' r') g'.
Proof.
  intros D D' G. rewrite (solves_iff eps lat s r g m D), (solves_iff eps lat' s' r' g' m' D').
  split; intros (_ & T); (split; [first [rewrite LEN; apply G|apply G]|]).
  - intros p P. apply in_pan' in P as (i & I & ->). apply (tangent_image g g' i G I), T, pan_in, I.
  - intros p P. apply in_pan in P as (i & I & ->). apply (tangent_image g g' i G I), T, pan'_in, I.
Qed.
Lemma inverse_exists : exists iv, forall i, (i < n)%nat -> (iv (sg i) < n)%nat /\ iv (sg i) = i.
Proof.
  destruct (finite_choice (fun k j => (j < n)%nat /\ k = sg j) 0%nat n onto) as (iv & V). exists iv. intros i I.
  destruct (V (sg i) (SB i I)) as (A & B). split; [exact A|]. symmetry. apply SI; assumption.
Qed.
Lemma nth_map_seq (h : nat -> R) i : (i < n)%nat -> nth i (map h (seq 0 n)) 0 = h i.
Proof.
  intro I. rewrite (nth_indep _ 0 (h 0%nat)) by (rewrite map_length, seq_length; exact I). rewrite map_nth, seq_nth by exact I. reflexivity.
Qed.
Lemma image_exists g : length g = n -> exists g', gamma_image g g'.
Proof.
  intro L. destruct inverse_exists as (iv & V). exists (map (fun k => f (iv k) * nth (iv k) g 0) (seq 0 n)).
  split; [exact L|]. split; [rewrite map_length, seq_length; reflexivity|]. intros i I. rewrite nth_map_seq by (apply SB; exact I).
  rewrite (proj2 (V i I)). reflexivity.
Qed.
Lemma preimage_exists g' : length g' = n -> exists g, gamma_image g g'.
Proof.
  intro L. exists (map (fun i => f i * nth (sg i) g' 0) (seq 0 n)).
  split; [rewrite map_length, seq_length; reflexivity|]. split; [exact L|]. intros i I. rewrite nth_map_seq by exact I. rewrite <- Rmult_assoc, f_sq by exact I. ring.
Qed.
Lemma image_unique g g' h : gamma_image g g' -> gamma_image g h -> g' = h.
Proof.
  intros (_ & L & G) (_ & L' & G'). apply (nth_ext _ _ 0 0); [congruence|]. intros k K. rewrite L in K. destruct (onto k K) as (j & J & ->).
  rewrite (G j J), (G' j J). reflexivity.
Qed.
Lemma unique_image m m' : downwash eps lat = Some m -> downwash eps lat' = Some m' ->
  unique_solution m (boundary lat s r) -> unique_solution m' (boundary lat' s' r').
Proof.
  intros D D' U h h' S S'.
  destruct (proj1 (solves_iff _ _ _ _ _ _ D') S) as (L & _). destruct (proj1 (solves_iff _ _ _ _ _ _ D') S') as (L' & _). rewrite LEN in L, L'.
  destruct (preimage_exists h L) as (g & G). destruct (preimage_exists h' L') as (g2 & G2).
  assert (E : g = g2) by (apply U; [apply (solves_image g h m m' D D' G); exact S|apply (solves_image g2 h' m m' D D' G2); exact S']).
  subst g2. exact (image_unique g h h' G G2).
Qed.

Section Forces.
Variables (g g' : list R).
Hypothesis G : gamma_image g g'.
Lemma induced_iso p : induced eps (Q p) (combine lat' g') = Q (induced eps p (combine lat g)).
Proof.
  destruct G as (L & L' & GG). unfold induced. rewrite (combine_seq dp 0 lat g L), (combine_seq dp 0 lat' g') by (rewrite LEN; exact L').
  rewrite LEN, !map_map, iso_sum, map_map. cbn [fst snd]. fold n. rewrite (vsum_sg (fun x => vscale (nth x g' 0) (hs eps (Q p) (nth x lat' dp)))).
  apply vsum_map_ext. intros j J. apply in_seq in J. assert (K : (j < n)%nat) by lia.
  change (nth (sg j) lat' dp) with (pan' (sg j)). rewrite hs_iso, (GG j K) by exact K. rewrite iso_scale. pose proof (f_sq j K) as F.
  change (nth j lat dp) with (pan j). set (v := Q _). clearbody v.
  assert (X : forall a w, f j * f j = 1 -> vscale (f j * a) (vscale (f j) w) = vscale a w).
  { intros a w H. apply vec_eq; vsimp; [transitivity (f j * f j * (a * vx w))|transitivity (f j * f j * (a * vy w))|transitivity (f j * f j * (a * vz w))]; try ring; rewrite H; ring. }
  apply X. exact F.
Qed.
Lemma kj_iso i : (i < n)%nat -> kj_force eps lat' g' s' r' (pan' (sg i)) (nth (sg i) g' 0) = Q (kj_force eps lat g s r (pan i) (nth i g 0)).
Proof.
  intro I. destruct (IM i I) as (_ & HB & _ & _ & HV). unfold kj_force, local_vel. rewrite HB, induced_iso, onset_iso, <- iso_add.
  destruct FL as (_ & RHO & _). rewrite RHO. destruct G as (_ & _ & GG). rewrite (GG i I). set (v := vadd _ _).
  assert (O : exists o, f i = d * o /\ vsub (pV3 (pan' (sg i))) (pV2 (pan' (sg i))) = vscale o (Q (vsub (pV3 (pan i)) (pV2 (pan i))))).
  { destruct HV as [(E & _ & V2 & V3 & _)|(E & _ & V2 & V3 & _)]; rewrite V2, V3, <- iso_sub.
    - exists (-1). split; [rewrite E; ring|]. rewrite <- iso_scale. f_equal. apply vec_eq; vsimp; ring.
    - exists 1. split; [rewrite E; ring|]. apply vec_eq; vsimp; ring. }
  destruct O as (o & E & ->). set (l := vsub _ _).
  assert (X : vcross (Q v) (vscale o (Q l)) = vscale (o * d) (Q (vcross v l))).
  { transitivity (vscale o (vcross (Q v) (Q l))); [apply vec_eq; vsimp; ring|]. rewrite iso_cross. apply vec_eq; vsimp; ring. }
  rewrite X, iso_scale. replace (o * d) with (f i) by (rewrite E; ring). pose proof (f_sq i I) as F. set (c := Q _). clearbody c.
  apply vec_eq; vsimp; [transitivity (f i * f i * (f_rho s * nth i g 0 * vx c))|transitivity (f i * f i * (f_rho s * nth i g 0 * vy c))|transitivity (f i * f i * (f_rho s * nth i g 0 * vz c))]; try ring; rewrite F; ring.
Qed.
Lemma force_iso : o_F (results_val eps lat' s' r' g') = Q (o_F (results_val eps lat s r g)).
Proof.
  destruct G as (L & L' & _). unfold results_val. cbn [o_F]. rewrite (combine_seq dp 0 lat g L), (combine_seq dp 0 lat' g') by (rewrite LEN; exact L').
  rewrite LEN, !map_map, iso_sum, map_map. cbn [fst snd]. fold n. rewrite (vsum_sg (fun x => kj_force eps lat' g' s' r' (nth x lat' dp) (nth x g' 0))).
  apply vsum_map_ext. intros j J. apply in_seq in J. apply kj_iso. lia.
Qed.
Lemma moment_iso : o_M (results_val eps lat' s' r' g') = vscale d (Q (o_M (results_val eps lat s r g))).
Proof.
  destruct G as (L & L' & _). unfold results_val. cbn [o_M]. rewrite (combine_seq dp 0 lat g L), (combine_seq dp 0 lat' g') by (rewrite LEN; exact L').
  rewrite LEN, !map_map, iso_sum, map_map, <- vsum_scale, map_map. cbn [fst snd]. fold n.
  rewrite (vsum_sg (fun x => vcross (vsub (pB (nth x lat' dp)) (r_RP r')) (kj_force eps lat' g' s' r' (nth x lat' dp) (nth x g' 0)))).
  apply vsum_map_ext. intros j J. apply in_seq in J. assert (K : (j < n)%nat) by lia.
  change (nth (sg j) lat' dp) with (pan' (sg j)). rewrite kj_iso by exact K. destruct (IM j K) as (_ & HB & _). rewrite HB.
  destruct RF as (_ & _ & _ & _ & RP). rewrite RP, <- iso_sub, iso_cross. reflexivity.
Qed.
Lemma finite_iso : finite_at eps lat g -> finite_at eps lat' g'.
Proof.
  intros FA i x y I Y. destruct G as (L & L' & _).
  assert (P : forall k z, In (k, z) (combine lat' g') -> exists j, (j < n)%nat /\ k = pan' (sg j)) by (intros k z K; apply in_combine_l in K; apply in_pan'; exact K).
  destruct y as [q y]. destruct (P _ _ I) as (a & A & ->). destruct (P _ _ Y) as (b & B & ->). cbn [fst].
  destruct (IM a A) as (_ & HB & _). rewrite HB, (horseshoe_iso eps (f b) _ (pan b) _ (IM b B)).
  assert (C : forall k, (k < n)%nat -> In (pan k, nth k g 0) (combine lat g)).
  { intros k K. rewrite (combine_seq dp 0 lat g L). apply in_map_iff. exists k. split; [reflexivity|apply in_seq; fold n; lia]. }
  destruct (FA _ _ _ (C a A) (C b B)) as (v & V). cbn [fst] in V. rewrite V. eexists. reflexivity.
Qed.
Lemma panels_iso i pr : nth_error (o_panels (results_val eps lat s r g)) i = Some pr ->
  exists pr', nth_error (o_panels (results_val eps lat' s' r' g')) (sg i) = Some pr' /\ o_f pr' = Q (o_f pr) /\ o_iw pr' = Q (o_iw pr) /\ (o_cp pr' = o_cp pr \/ o_cp pr' = option_map Ropp (o_cp pr)) /\
    (f i = 1 -> o_cp pr' = o_cp pr).
Proof.
  destruct G as (L & L' & GG). unfold results_val. cbn [o_panels]. rewrite (combine_seq dp 0 lat g L), (combine_seq dp 0 lat' g') by (rewrite LEN; exact L').
  rewrite LEN, !map_map. cbn [fst snd]. fold n. intro H.
  assert (I : (i < n)%nat).
  { assert (X : nth_error (map (fun x => fst (loads_val eps lat g s r (nth x lat dp) (nth x g 0))) (seq 0 n)) i <> None) by (rewrite H; discriminate).
    apply nth_error_Some in X. rewrite map_length, seq_length in X. exact X. }
  assert (SQ : forall k, (k < n)%nat -> nth_error (seq 0 n) k = Some k).
  { intros k K. rewrite (nth_error_nth' _ k 0%nat) by (rewrite seq_length; exact K). rewrite seq_nth by exact K. reflexivity. }
  rewrite nth_error_map, (SQ i I) in H. injection H as <-. rewrite nth_error_map, (SQ _ (SB i I)). cbn [option_map]. eexists. split; [reflexivity|].
  unfold loads_val. cbn [fst o_f o_iw o_cp]. change (nth (sg i) lat' dp) with (pan' (sg i)). change (nth i lat dp) with (pan i). rewrite kj_iso by exact I.
  destruct (IM i I) as (_ & HB & HA & HN & HV). rewrite HB, induced_iso, HA, HN. split; [reflexivity|]. split; [reflexivity|].
  rewrite vdot_comm, vdot_scale_l, iso_dot, vdot_comm. destruct FL as (AS & RHO & _). unfold dyn_pressure. rewrite AS, RHO.
  split; [|intros ->; rewrite Rmult_1_l; reflexivity].
  assert (FV : f i = 1 \/ f i = -1) by (destruct ISO as ([->| ->] & _); destruct HV as [(E & _)|(E & _)]; rewrite E; [right|left|left|right]; ring).
  destruct FV as [E|E]; rewrite E; [left; rewrite Rmult_1_l; reflexivity|right].
  unfold cdiv. destruct (Req_EM_T _ _) as [Z|Z]; [reflexivity|]. cbn [option_map]. f_equal. unfold Rdiv. ring.
Qed.
End Forces.
End Lattice.
End Iso.

Lemma iso_loads d Q eps lat lat' sg s s' r r' g o : isometry d Q -> images d Q sg lat lat' -> flow_image d Q s s' -> refs_image Q r r' ->
  loads eps lat s r g o -> exists g' o', loads eps lat' s' r' g' o' /\ o_F o' = Q (o_F o) /\ o_M o' = vscale d (Q (o_M o)) /\
    (forall i x, nth_error g i = Some x -> exists x', nth_error g' (sg i) = Some x' /\ (x' = x \/ x' = - x)) /\
    (forall i pr, nth_error (o_panels o) i = Some pr ->
      exists pr', nth_error (o_panels o') (sg i) = Some pr' /\ o_f pr' = Q (o_f pr) /\ o_iw pr' = Q (o_iw pr)).
Proof.
  intros ISO (LEN & SI & IM) FL RF (m & D & U & S & H).
  set (dp := mkPanel vzero vzero vzero vzero vzero vzero vzero vzero vzero vzero vzero 0).
  set (n := length lat).
  assert (PF : forall i, (i < n)%nat -> exists p', nth_error lat' (sg i) = Some p' /\ image_by d Q (nth i lat dp) p').
  { intros i I. apply IM. apply nth_error_nth'. exact I. }
  assert (SB : forall i, (i < n)%nat -> (sg i < n)%nat).
  { intros i I. destruct (PF i I) as (p' & N & _). assert (X : nth_error lat' (sg i) <> None) by (rewrite N; discriminate).
    apply nth_error_Some in X. unfold n. rewrite <- LEN. exact X. }
  assert (FE : forall i, (i < n)%nat -> exists f, image_sgn d Q f (nth i lat dp) (nth (sg i) lat' dp)).
  { intros i I. destruct (PF i I) as (p' & N & IB). rewrite (nth_error_nth' lat' (sg i) dp) in N by (rewrite LEN; apply SB; exact I).
    injection N as <-. apply image_sgn_of; assumption. }
  destruct (finite_choice (fun i f => image_sgn d Q f (nth i lat dp) (nth (sg i) lat' dp)) 0 n FE) as (f & F).
  destruct (downwash_iso d Q ISO eps lat lat' sg f dp LEN SB SI F m D) as (m' & D').
  assert (L : length g = n) by (destruct (proj1 (solves_iff _ _ _ _ _ _ D) S) as (L & _); exact L).
  destruct (image_exists lat lat' sg f LEN SB SI g L) as (g' & G).
  destruct (vlm_results_inv _ _ _ _ _ _ H) as (-> & FA).
  pose proof (finite_iso d Q ISO eps lat lat' sg f dp LEN SB SI F g g' G FA) as FA'.
  exists g', (results_val eps lat' s' r' g'). split.
  { exists m'. split; [exact D'|]. split; [exact (unique_image d Q ISO eps lat lat' sg f s s' r r' dp LEN SB SI F FL RF m m' D D' U)|].
    split; [apply (solves_image d Q ISO eps lat lat' sg f s s' r r' dp LEN SB SI F FL RF g g' m m' D D' G); exact S|].
    apply vlm_results_ok. exact FA'. }
  split; [exact (force_iso d Q ISO eps lat lat' sg f s s' r r' dp LEN SB SI F FL RF g g' G)|].
  split; [exact (moment_iso d Q ISO eps lat lat' sg f s s' r r' dp LEN SB SI F FL RF g g' G)|]. split.
  - intros i x X. assert (I : (i < n)%nat) by (rewrite <- L; apply nth_error_Some; rewrite X; discriminate).
    destruct G as (_ & L' & GG). exists (nth (sg i) g' 0). split; [apply nth_error_nth'; rewrite L'; apply SB; exact I|].
    rewrite (GG i I). rewrite (nth_error_nth' g i 0) in X by (rewrite L; exact I). injection X as ->.
    destruct ISO as ([E|E] & _); destruct (F i I) as (_ & _ & _ & _ & [(-> & _)|(-> & _)]); rewrite E; [right|left|left|right]; ring.
  - intros i pr P. destruct (panels_iso d Q ISO eps lat lat' sg f s s' r r' dp LEN SB SI F FL RF g g' G i pr P) as (pr' & N & A & B & _).
    exists pr'. auto.
Qed.

(** ** Mirror *)
Lemma mir_iso : isometry (-1) mir.
Proof. split; [right; reflexivity|]. repeat split; intros; unfold mir, vdot; first [vsimp; ring | apply vec_eq; vsimp; ring]. Qed.
Lemma flow_mirror s : flow_image (-1) mir s (mirrored_flow s).
Proof.
  split; [reflexivity|]. split; [reflexivity|]. unfold wind, rates, mirrored_flow, mir, rad. cbn [f_airspeed f_alpha f_beta f_P f_Q f_R].
  replace (- f_beta s * PI / 180) with (- (f_beta s * PI / 180)) by (unfold Rdiv; ring). rewrite sin_neg, cos_neg. split; apply vec_eq; vsimp; ring.
Qed.
Lemma refs_mirror r : refs_image mir r (mirrored_refs r).
Proof. repeat split. Qed.
Lemma cdiv_opp a b : opposite (cdiv a b) (cdiv (- a) b).
Proof. unfold opposite, cdiv. destruct (Req_EM_T b 0); [reflexivity|]. cbn. f_equal. unfold Rdiv. ring. Qed.

Lemma mirror_coeffs s r F M :
  let c := vlm_coeffs s r F M in let c' := vlm_coeffs (mirrored_flow s) (mirrored_refs r) (mir F) (vscale (-1) (mir M)) in
  c_D c' = c_D c /\ c_C c' = - c_C c /\ c_L c' = c_L c /\
  c_Cx c' = c_Cx c /\ c_Cz c' = c_Cz c /\ c_CD c' = c_CD c /\ c_CL c' = c_CL c /\ c_Cm c' = c_Cm c /\
  opposite (c_Cy c) (c_Cy c') /\ opposite (c_CC c) (c_CC c') /\ opposite (c_Cl c) (c_Cl c') /\ opposite (c_Cn c) (c_Cn c').
Proof.
  cbv zeta. unfold vlm_coeffs, dyn_pressure. cbn [mirrored_flow mirrored_refs f_alpha f_beta f_rho f_airspeed r_area r_span r_chord].
  unfold deg2rad. replace (- f_beta s * (PI / 180)) with (- (f_beta s * (PI / 180))) by ring. rewrite sin_neg, cos_neg.
  set (sb := sin (f_beta s * _)). set (cb := cos (f_beta s * _)). set (sa := sin _). set (ca := cos _). clearbody sb cb sa ca.
  set (q := if Req_EM_T _ 0 then 1 else _). clearbody q. cbn [c_D c_C c_L c_Cx c_Cy c_Cz c_CD c_CC c_CL c_Cl c_Cm c_Cn].
  assert (ED : cb * ca * vx (mir F) + - - sb * vy (mir F) + cb * sa * vz (mir F) = cb * ca * vx F + - sb * vy F + cb * sa * vz F) by (unfold mir; vsimp; ring).
  assert (EC : - sb * ca * vx (mir F) + cb * vy (mir F) + - sb * sa * vz (mir F) = - (sb * ca * vx F + cb * vy F + sb * sa * vz F)) by (unfold mir; vsimp; ring).
  assert (EL : - sa * vx (mir F) + 0 * vy (mir F) + ca * vz (mir F) = - sa * vx F + 0 * vy F + ca * vz F) by (unfold mir; vsimp; ring).
  rewrite ED, EC, EL.
  split; [reflexivity|]. split; [reflexivity|]. split; [reflexivity|]. split; [reflexivity|]. split; [reflexivity|]. split; [reflexivity|]. split; [reflexivity|].
  split; [f_equal; unfold mir; vsimp; ring|]. split; [apply cdiv_opp|]. split; [apply cdiv_opp|].
  split.
  - replace (vx (vscale (-1) (mir M))) with (- vx M) by (unfold mir; vsimp; ring). apply cdiv_opp.
  - replace (vz (vscale (-1) (mir M))) with (- vz M) by (unfold mir; vsimp; ring). apply cdiv_opp.
Qed.
Lemma results_co eps lat s r g o : vlm_results eps lat s r g = Some o -> o_co o = vlm_coeffs s r (o_F o) (o_M o).
Proof. intro H. destruct (vlm_results_inv _ _ _ _ _ _ H) as (-> & _). reflexivity. Qed.

Lemma mirrored_loads eps lat lat' sg s r g o : images (-1) mir sg lat lat' -> loads eps lat s r g o ->
  exists g' o', loads eps lat' (mirrored_flow s) (mirrored_refs r) g' o' /\
    o_F o' = mir (o_F o) /\ o_M o' = vscale (-1) (mir (o_M o)) /\
    (forall i pr, nth_error (o_panels o) i = Some pr ->
      exists pr', nth_error (o_panels o') (sg i) = Some pr' /\ o_f pr' = mir (o_f pr) /\ o_iw pr' = mir (o_iw pr)) /\
    let c := o_co o in let c' := o_co o' in
    c_D c' = c_D c /\ c_C c' = - c_C c /\ c_L c' = c_L c /\
    c_Cx c' = c_Cx c /\ c_Cz c' = c_Cz c /\ c_CD c' = c_CD c /\ c_CL c' = c_CL c /\ c_Cm c' = c_Cm c /\
    opposite (c_Cy c) (c_Cy c') /\ opposite (c_CC c) (c_CC c') /\ opposite (c_Cl c) (c_Cl c') /\ opposite (c_Cn c) (c_Cn c').
Proof.
  intros IM H. destruct (iso_loads _ _ _ _ _ _ _ _ _ _ _ _ mir_iso IM (flow_mirror s) (refs_mirror r) H) as (g' & o' & H' & A & B & _ & C).
  exists g', o'. split; [exact H'|]. split; [exact A|]. split; [exact B|]. split; [exact C|]. cbv zeta.
  destruct H as (m & _ & _ & _ & H). destruct H' as (m' & _ & _ & _ & H'). rewrite (results_co _ _ _ _ _ _ H), (results_co _ _ _ _ _ _ H'), A, B.
  apply mirror_coeffs.
Qed.

(** ** Pitch *)
Lemma pitch_cs t : cos (rad t) * cos (rad t) + sin (rad t) * sin (rad t) = 1.
Proof. pose proof (sin2_cos2 (rad t)) as H. unfold Rsqr in H. lra. Qed.
Lemma pitch_iso t : isometry 1 (pitch t).
Proof.
  pose proof (pitch_cs t) as E. unfold pitch. set (c := cos _) in *. set (s := sin _) in *. clearbody c s.
  split; [left; reflexivity|]. split; [intros; apply vec_eq; vsimp; ring|]. split; [intros; apply vec_eq; vsimp; ring|]. split.
  - intros u v. unfold vdot. vsimp. transitivity ((c * c + s * s) * (vx u * vx v + vz u * vz v) + vy u * vy v); [ring|rewrite E; ring].
  - intros u v. apply vec_eq; vsimp; [ring| |ring].
    transitivity ((c * c + s * s) * (vz u * vx v - vx u * vz v)); [ring|rewrite E; ring].
Qed.
Lemma rad_plus a t : rad (a + t) = rad a + rad t.
Proof. unfold rad. field. Qed.
Lemma flow_pitch t s : flow_image 1 (pitch t) s (pitched_flow t s).
Proof.
  split; [reflexivity|]. split; [reflexivity|]. unfold wind, pitched_flow. cbn [f_airspeed f_alpha f_beta]. rewrite rad_plus, sin_plus, cos_plus.
  split; [unfold pitch; apply vec_eq; vsimp; ring|]. unfold rates at 1. cbn [f_P f_Q f_R]. apply vec_eq; vsimp; ring.
Qed.
Lemma refs_pitch t r : refs_image (pitch t) r (pitched_refs t r).
Proof. repeat split. Qed.
Lemma pitch_coeffs t s r F M :
  let c := vlm_coeffs s r F M in let c' := vlm_coeffs (pitched_flow t s) (pitched_refs t r) (pitch t F) (vscale 1 (pitch t M)) in
  c_D c' = c_D c /\ c_C c' = c_C c /\ c_L c' = c_L c /\ c_CD c' = c_CD c /\ c_CC c' = c_CC c /\ c_CL c' = c_CL c /\ c_Cm c' = c_Cm c /\ c_Cy c' = c_Cy c.
Proof.
  cbv zeta. unfold vlm_coeffs, dyn_pressure. cbn [pitched_flow pitched_refs f_alpha f_beta f_rho f_airspeed r_area r_span r_chord].
  rewrite !deg2rad_rad, rad_plus, sin_plus, cos_plus. pose proof (pitch_cs t) as E. unfold pitch.
  set (sb := sin (rad (f_beta s))). set (cb := cos (rad (f_beta s))). set (sa := sin (rad (f_alpha s))). set (ca := cos (rad (f_alpha s))).
  set (st := sin (rad t)) in *. set (ct := cos (rad t)) in *. clearbody sb cb sa ca st ct.
  set (q := if Req_EM_T _ 0 then 1 else _). clearbody q. cbn [c_D c_C c_L c_Cx c_Cy c_Cz c_CD c_CC c_CL c_Cl c_Cm c_Cn].
  set (F' := mkV _ _ _).
  assert (ED : cb * (ca * ct - sa * st) * vx F' + - sb * vy F' + cb * (sa * ct + ca * st) * vz F' = cb * ca * vx F + - sb * vy F + cb * sa * vz F).
  { unfold F'. vsimp. transitivity ((ct * ct + st * st) * (cb * ca * vx F + cb * sa * vz F) + - sb * vy F); [ring|rewrite E; ring]. }
  assert (EC : sb * (ca * ct - sa * st) * vx F' + cb * vy F' + sb * (sa * ct + ca * st) * vz F' = sb * ca * vx F + cb * vy F + sb * sa * vz F).
  { unfold F'. vsimp. transitivity ((ct * ct + st * st) * (sb * ca * vx F + sb * sa * vz F) + cb * vy F); [ring|rewrite E; ring]. }
  assert (EL : - (sa * ct + ca * st) * vx F' + 0 * vy F' + (ca * ct - sa * st) * vz F' = - sa * vx F + 0 * vy F + ca * vz F).
  { unfold F'. vsimp. transitivity ((ct * ct + st * st) * (- sa * vx F + ca * vz F)); [ring|rewrite E; ring]. }
  rewrite ED, EC, EL. do 6 (split; [reflexivity|]). split; [|reflexivity]. f_equal. vsimp. ring.
Qed.

Lemma pitched_loads t eps lat lat' sg s r g o : images 1 (pitch t) sg lat lat' -> loads eps lat s r g o ->
  exists g' o', loads eps lat' (pitched_flow t s) (pitched_refs t r) g' o' /\
    o_F o' = pitch t (o_F o) /\ o_M o' = pitch t (o_M o) /\
    (forall i pr, nth_error (o_panels o) i = Some pr ->
      exists pr', nth_error (o_panels o') (sg i) = Some pr' /\ o_f pr' = pitch t (o_f pr) /\ o_iw pr' = pitch t (o_iw pr)) /\
    let c := o_co o in let c' := o_co o' in
    c_D c' = c_D c /\ c_C c' = c_C c /\ c_L c' = c_L c /\ c_CD c' = c_CD c /\ c_CC c' = c_CC c /\ c_CL c' = c_CL c /\ c_Cm c' = c_Cm c /\ c_Cy c' = c_Cy c.
Proof.
  intros IM H. destruct (iso_loads _ _ _ _ _ _ _ _ _ _ _ _ (pitch_iso t) IM (flow_pitch t s) (refs_pitch t r) H) as (g' & o' & H' & A & B & _ & C).
  exists g', o'. split; [exact H'|]. split; [exact A|]. split; [rewrite B; apply vec_eq; vsimp; ring|]. split; [exact C|]. cbv zeta.
  destruct H as (m & _ & _ & _ & H). destruct H' as (m' & _ & _ & _ & H'). rewrite (results_co _ _ _ _ _ _ H), (results_co _ _ _ _ _ _ H'), A, B.
  apply pitch_coeffs.
Qed.
