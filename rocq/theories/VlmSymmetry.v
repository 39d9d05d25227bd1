(** Symmetric aircraft (C24), moved aircraft (C54), scaled aircraft (C55). *)
From Coq Require Import Reals List Lra Psatz Lia Permutation.
From Verif Require Import Vec PanelModel GeomSpec GeomProofs VlmModel VlmSpec VlmProofs VlmLaws.
Import ListNotations.
Open Scope R_scope.

(** ** Sums over indices *)
Lemma rsum_perm l l' : Permutation l l' -> rsum l = rsum l'.
Proof. unfold rsum. induction 1; simpl; lra. Qed.
Lemma vsum_perm l l' : Permutation l l' -> vsum l = vsum l'.
Proof.
  unfold vsum. induction 1; simpl; try congruence. rewrite !vadd_assoc, (vadd_comm y x). reflexivity.
Qed.

Lemma finite_choice {A} (P : nat -> A -> Prop) (d : A) n :
  (forall i, (i < n)%nat -> exists x, P i x) -> exists f, forall i, (i < n)%nat -> P i (f i).
Proof.
  induction n as [|n IH]; intro H.
  - exists (fun _ => d). intros i I. lia.
  - destruct IH as (f & F); [intros i I; apply H; lia|]. destruct (H n) as (x & X); [lia|].
    exists (fun i => if Nat.eqb i n then x else f i). intros i I. destruct (Nat.eqb i n) eqn:E.
    + apply Nat.eqb_eq in E. subst. exact X.
    + apply Nat.eqb_neq in E. apply F. lia.
Qed.

Lemma involution_perm n sg : (forall i, (i < n)%nat -> (sg i < n)%nat /\ sg (sg i) = i) -> Permutation (map sg (seq 0 n)) (seq 0 n).
Proof.
  intro H. apply NoDup_Permutation_bis.
  - assert (G : forall l, (forall i, In i l -> (i < n)%nat) -> NoDup l -> NoDup (map sg l)).
    { induction l as [|x l IH]; intros B N; [constructor|]. inversion N as [|? ? N1 N2]; subst. simpl. constructor.
      - intro I. apply in_map_iff in I. destruct I as (y & E & Y). apply (f_equal sg) in E.
        rewrite (proj2 (H x (B x (or_introl eq_refl)))) in E. rewrite (proj2 (H y (B y (or_intror Y)))) in E. subst. contradiction.
      - apply IH; [|exact N2]. intros i I. apply B. right. exact I. }
    apply G; [intros i I; apply in_seq in I; lia|apply seq_NoDup].
  - rewrite map_length. lia.
  - intros x I. apply in_map_iff in I. destruct I as (i & <- & I). apply in_seq in I. apply in_seq. destruct (H i); lia.
Qed.

Lemma combine_seq {A B} (da : A) (db : B) (l : list A) : forall m, length m = length l ->
  combine l m = map (fun j => (nth j l da, nth j m db)) (seq 0 (length l)).
Proof.
  induction l as [|a l IH]; intros [|b m] L; simpl in *; try discriminate; [reflexivity|].
  f_equal. rewrite (IH m) by lia. rewrite <- seq_shift, map_map. reflexivity.
Qed.

Section Symmetric.
  Variables (eps : R) (lat : list panel) (sg : nat -> nat) (f : nat -> R) (s : flow) (r : refs) (g : list R) (m : list (list R)).
  Variable dp : panel.
  Let n := length lat.
  Let pan j := nth j lat dp.
  Let gam j := nth j g 0.
  Hypothesis SG : forall i, (i < n)%nat -> (sg i < n)%nat /\ sg (sg i) = i.
  Hypothesis IM : forall i, (i < n)%nat -> image (f i) (pan i) (pan (sg i)).
  Hypothesis B0 : f_beta s = 0.
  Hypothesis P0 : f_P s = 0.
  Hypothesis R0 : f_R s = 0.
  Hypothesis D : downwash eps lat = Some m.
  Hypothesis U : unique_solution m (boundary lat s r).
  Hypothesis S : solves m (boundary lat s r) g.

  Lemma sum_perm (h : nat -> R) : rsum (map (fun j => h (sg j)) (seq 0 n)) = rsum (map h (seq 0 n)).
  Proof. rewrite <- (map_map sg h). apply rsum_perm, Permutation_map, involution_perm, SG. Qed.
  Lemma vsum_perm_sg (h : nat -> vec) : vsum (map (fun j => h (sg j)) (seq 0 n)) = vsum (map h (seq 0 n)).
  Proof. rewrite <- (map_map sg h). apply vsum_perm, Permutation_map, involution_perm, SG. Qed.

  Lemma onset_mir p : onset s (r_CG r) (mir p) = mir (onset s (r_CG r) p).
  Proof.
    unfold onset, wind, rates, mir. rewrite B0, P0, R0. unfold rad.
    replace (0 * PI / 180) with 0 by field. rewrite sin_0. apply vec_eq; vsimp; ring.
  Qed.

  Lemma hs_image p j : (j < n)%nat -> hs eps (mir p) (pan (sg j)) = vscale (f j) (mir (hs eps p (pan j))).
  Proof.
    intro J. unfold hs. rewrite (horseshoe_image eps (f j) p (pan j) (pan (sg j)) (IM j J)).
    destruct (horseshoe eps p (pan j)); cbn [option_map]; [reflexivity|]. unfold mir. apply vec_eq; vsimp; ring.
  Qed.

  Lemma f_sq i : (i < n)%nat -> f i * f i = 1.
  Proof. intro I. apply (image_sq _ (pan i) (pan (sg i)) (IM i I)). Qed.

  Lemma lat_pan i : In i lat <-> exists k, (k < n)%nat /\ i = pan k.
  Proof.
    split.
    - intro I. destruct (In_nth lat i dp I) as (k & K & E). exists k. split; [exact K|]. symmetry. exact E.
    - intros (k & K & ->). apply nth_In. exact K.
  Qed.

  Lemma g_len : length g = length lat.
  Proof. destruct (proj1 (solves_iff eps lat s r g m D) S) as (L & _). exact L. Qed.

  Definition w (i j : nat) : R := vdot (hs eps (pC (pan i)) (pan j)) (pN (pan i)).

  Lemma tangent_seq h i : length h = length lat ->
    tangent eps lat s r h (pan i) <->
    rsum (map (fun j => w i j * nth j h 0) (seq 0 n)) = vdot (vscale (-1) (onset s (r_CG r) (pC (pan i)))) (pN (pan i)).
  Proof. intro L. unfold tangent. rewrite (combine_seq dp 0 lat h L), map_map, vel_onset. unfold w, pan, n. reflexivity. Qed.

  Lemma w_image i j : (i < n)%nat -> (j < n)%nat -> w i j * f j = f i * w (sg i) (sg j).
  Proof.
    intros I J. unfold w. destruct (IM i I) as (C & _ & _ & N & _). rewrite C, N, hs_image by exact J.
    set (h := hs eps (pC (pan i)) (pan j)). rewrite !vdot_scale_l, (vdot_comm (mir h)), vdot_scale_l, vdot_mir, (vdot_comm (pN (pan i)) h).
    pose proof (f_sq i I). transitivity (f i * f i * (f j * vdot h (pN (pan i)))); [rewrite H; ring|]. ring.
  Qed.

  Definition g' : list R := map (fun j => f j * gam (sg j)) (seq 0 n).

  Lemma g'_nth j : (j < n)%nat -> nth j g' 0 = f j * gam (sg j).
  Proof.
    intro J. unfold g'. rewrite (nth_indep _ 0 ((fun j => f j * gam (sg j)) 0%nat)) by (rewrite map_length, seq_length; exact J).
    rewrite (map_nth (fun j => f j * gam (sg j))), seq_nth by exact J. reflexivity.
  Qed.

  Lemma g'_solves : solves m (boundary lat s r) g'.
  Proof.
    apply (solves_iff eps lat s r g' m D). assert (L : length g' = length lat) by (unfold g'; rewrite map_length, seq_length; reflexivity).
    split; [exact L|]. intros i I. apply lat_pan in I. destruct I as (k & K & ->).
    apply tangent_seq; [exact L|].
    destruct (proj1 (solves_iff eps lat s r g m D) S) as (_ & T).
    destruct (SG k K) as (SK & SSK).
    specialize (T (pan (sg k))). rewrite tangent_seq in T by exact g_len.
    assert (T' := T (proj2 (lat_pan _) (ex_intro _ (sg k) (conj SK eq_refl)))). clear T.
    transitivity (f k * rsum (map (fun j => w (sg k) j * nth j g 0) (seq 0 n))).
    - rewrite <- (sum_perm (fun j => w (sg k) j * nth j g 0)).
      assert (E : forall l, (forall j, In j l -> (j < n)%nat) ->
        rsum (map (fun j => w k j * nth j g' 0) l) = f k * rsum (map (fun j => w (sg k) (sg j) * nth (sg j) g 0) l)).
      { induction l as [|j l IH]; intro B; simpl; [ring|].
        change (fold_right Rplus 0) with rsum. rewrite IH by (intros x X; apply B; right; exact X).
        rewrite g'_nth by (apply B; left; reflexivity). pose proof (w_image k j K (B j (or_introl eq_refl))) as W. unfold gam.
        transitivity (w k j * f j * nth (sg j) g 0 + f k * rsum (map (fun j => w (sg k) (sg j) * nth (sg j) g 0) l)); [ring|].
        rewrite W. ring. }
      apply E. intros j J. apply in_seq in J. lia.
    - rewrite T'. destruct (IM k K) as (C & _ & _ & N & _). rewrite C, N, onset_mir.
      set (o := onset s (r_CG r) (pC (pan k))). rewrite <- mir_scale. rewrite (vdot_comm _ (vscale (f k) _)), vdot_scale_l, vdot_mir, (vdot_comm (pN (pan k))).
      transitivity (f k * f k * vdot (vscale (-1) o) (pN (pan k))); [ring|]. rewrite (f_sq k K). ring.
  Qed.

  Lemma gamma_sym i : (i < n)%nat -> gam i = f i * gam (sg i).
  Proof.
    intro I. rewrite <- g'_nth by exact I. unfold gam. f_equal. exact (U _ _ S g'_solves).
  Qed.

  Definition kj (i : nat) : vec := kj_force eps lat g s r (pan i) (gam i).

  Lemma induced_mir p : induced eps (mir p) (combine lat g) = mir (induced eps p (combine lat g)).
  Proof.
    unfold induced. rewrite (combine_seq dp 0 lat g g_len), !map_map. cbn [fst snd]. fold n.
    change (fun x => vscale (nth x g 0) (hs eps (mir p) (nth x lat dp))) with (fun x => vscale (gam x) (hs eps (mir p) (pan x))).
    rewrite <- (vsum_perm_sg (fun x => vscale (gam x) (hs eps (mir p) (pan x)))).
    assert (E : forall l, (forall j, In j l -> (j < n)%nat) ->
      vsum (map (fun j => vscale (gam (sg j)) (hs eps (mir p) (pan (sg j)))) l) = mir (vsum (map (fun j => vscale (gam j) (hs eps p (pan j))) l))).
    { induction l as [|j l IH]; intro B; simpl; [unfold mir; apply vec_eq; vsimp; ring|].
      change (fold_right vadd vzero) with vsum. rewrite IH by (intros x X; apply B; right; exact X).
      assert (J : (j < n)%nat) by (apply B; left; reflexivity). rewrite hs_image by exact J.
      rewrite <- mir_add. f_equal. rewrite (gamma_sym j J), mir_scale. apply vec_eq; vsimp; ring. }
    apply E. intros j J. apply in_seq in J. lia.
  Qed.

  Lemma kj_mir i : (i < n)%nat -> kj (sg i) = mir (kj i).
  Proof.
    intro I. pose proof (IM i I) as X. destruct X as (_ & HB & _ & _ & HV).
    unfold kj, kj_force, local_vel. rewrite HB, induced_mir, onset_mir, mir_add.
    set (v := vadd _ _).
    assert (L : vsub (pV3 (pan (sg i))) (pV2 (pan (sg i))) = vscale (- f i) (mir (vsub (pV3 (pan i)) (pV2 (pan i))))).
    { destruct HV as [(E & _ & V2 & V3 & _)|(E & _ & V2 & V3 & _)]; rewrite E, V2, V3; unfold mir; apply vec_eq; vsimp; ring. }
    rewrite L, (gamma_sym i I). set (l := vsub _ _). clearbody v l. unfold mir. apply vec_eq; vsimp; ring.
  Qed.

  Lemma force_sum : vsum (map (fun x => kj_force eps lat g s r (fst x) (snd x)) (combine lat g)) = vsum (map kj (seq 0 n)).
  Proof. rewrite (combine_seq dp 0 lat g g_len), map_map. reflexivity. Qed.

  Lemma vsum_mir l : vsum (map mir l) = mir (vsum l).
  Proof. induction l as [|x l IH]; simpl; [unfold mir; apply vec_eq; vsimp; ring|]. rewrite IH, mir_add. reflexivity. Qed.

  Lemma no_side_force : vy (vsum (map (fun x => kj_force eps lat g s r (fst x) (snd x)) (combine lat g))) = 0.
  Proof.
    rewrite force_sum. assert (E : vsum (map kj (seq 0 n)) = mir (vsum (map kj (seq 0 n)))).
    { rewrite <- vsum_perm_sg at 1. rewrite <- vsum_mir, map_map. apply vsum_map_ext. intros x X. apply in_seq in X. apply kj_mir. lia. }
    apply (f_equal vy) in E. unfold mir in E at 1. cbn [vy] in E. lra.
  Qed.

  Lemma no_roll_yaw : vy (r_RP r) = 0 ->
    let M := vsum (map (fun x => vcross (vsub (pB (fst x)) (r_RP r)) (kj_force eps lat g s r (fst x) (snd x))) (combine lat g)) in
    vx M = 0 /\ vz M = 0.
  Proof.
    intro RP. cbv zeta. set (M := vsum _).
    assert (EM : M = vsum (map (fun i => vcross (vsub (pB (pan i)) (r_RP r)) (kj i)) (seq 0 n))).
    { unfold M. rewrite (combine_seq dp 0 lat g g_len), map_map. reflexivity. }
    assert (E : M = vscale (-1) (mir M)).
    { rewrite EM at 1. rewrite <- vsum_perm_sg. rewrite EM, <- vsum_mir, <- vsum_scale, !map_map. apply vsum_map_ext.
      intros x X. apply in_seq in X. rewrite kj_mir by lia. destruct (IM x ltac:(lia)) as (_ & HB & _). rewrite HB.
      assert (HR : r_RP r = mir (r_RP r)) by (unfold mir; apply vec_eq; cbn [vx vy vz]; lra).
      rewrite HR at 1. rewrite mir_sub, mir_cross. reflexivity. }
    pose proof (f_equal vx E) as X. pose proof (f_equal vz E) as Z. unfold mir in X, Z. cbn [vx vy vz vscale] in X, Z. lra.
  Qed.
End Symmetric.

Lemma nth_error_nth' {A} (l : list A) i d : (i < length l)%nat -> nth_error l i = Some (nth i l d).
Proof. revert i. induction l as [|x l IH]; intros [|i] H; simpl in *; try lia; [reflexivity|]. apply IH. lia. Qed.

Lemma symmetric_results eps lat sg s r g m o :
  symmetric_lattice sg lat -> f_beta s = 0 -> f_P s = 0 -> f_R s = 0 -> vy (r_RP r) = 0 ->
  downwash eps lat = Some m -> unique_solution m (boundary lat s r) ->
  solves m (boundary lat s r) g -> vlm_results eps lat s r g = Some o ->
  (forall i x, nth_error g i = Some x -> exists x', nth_error g (sg i) = Some x' /\ (x' = x \/ x' = - x)) /\
  (forall i p p' x x', nth_error lat i = Some p -> nth_error lat (sg i) = Some p' -> nth_error g i = Some x -> nth_error g (sg i) = Some x' ->
     (pV2 p' = mir (pV3 p) -> pV2 p <> pV3 p -> x' = x) /\ (pV2 p' = mir (pV2 p) -> pV2 p <> pV3 p -> x' = - x)) /\
  vy (o_F o) = 0 /\ c_C (o_co o) = 0 /\ vx (o_M o) = 0 /\ vz (o_M o) = 0 /\
  (r_area r <> 0 -> r_span r <> 0 ->
   is (c_Cy (o_co o)) 0 /\ is (c_CC (o_co o)) 0 /\ is (c_Cl (o_co o)) 0 /\ is (c_Cn (o_co o)) 0).
Proof.
  intros SL B0 P0 R0 RP D U S H.
  assert (GL : length g = length lat).
  { destruct (proj1 (solves_iff eps lat s r g m D) S) as (L & _). exact L. }
  apply vlm_results_inv in H. destruct H as (-> & _).
  set (dp := mkPanel vzero vzero vzero vzero vzero vzero vzero vzero vzero vzero vzero 0).
  assert (SG : forall i, (i < length lat)%nat -> (sg i < length lat)%nat /\ sg (sg i) = i).
  { intros i I. destruct (SL i _ (nth_error_nth' lat i dp I)) as (E & p' & N & _). split; [|exact E].
    apply nth_error_Some. rewrite N. discriminate. }
  destruct (finite_choice (fun i x => image x (nth i lat dp) (nth (sg i) lat dp)) 0 (length lat)) as (f & F).
  { intros i I. destruct (SL i _ (nth_error_nth' lat i dp I)) as (_ & p' & N & IM).
    rewrite (nth_error_nth' lat (sg i) dp (proj1 (SG i I))) in N. injection N as N. rewrite N. apply image_of_image. exact IM. }
  assert (G : forall i, (i < length lat)%nat -> nth i g 0 = f i * nth (sg i) g 0).
  { intros i I. exact (gamma_sym eps lat sg f s r g m dp SG F B0 P0 R0 D U S i I). }
  assert (X : forall i x, nth_error g i = Some x -> (i < length lat)%nat /\ x = nth i g 0).
  { intros i x N. assert (I : (i < length g)%nat) by (apply nth_error_Some; rewrite N; discriminate). split; [lia|].
    rewrite (nth_error_nth' g i 0 I) in N. congruence. }
  assert (FS : forall i, (i < length lat)%nat -> f i = 1 \/ f i = -1).
  { intros i I. destruct (F i I) as (_ & _ & _ & _ & [(E & _)|(E & _)]); auto. }
  split.
  { intros i x N. destruct (X i x N) as (I & ->). exists (nth (sg i) g 0). split.
    - apply nth_error_nth'. rewrite GL. apply SG. exact I.
    - pose proof (G i I) as E. destruct (FS i I) as [K|K]; rewrite K in E; [left|right]; lra. }
  split.
  { intros i p p' x x' N N' Y Y'. destruct (X i x Y) as (I & ->). destruct (X _ x' Y') as (_ & ->).
    pose proof (G i I) as E. pose proof (F i I) as IM.
    assert (EP : nth i lat dp = p) by (rewrite (nth_error_nth' lat i dp I) in N; congruence).
    assert (EP' : nth (sg i) lat dp = p') by (rewrite (nth_error_nth' lat (sg i) dp (proj1 (SG i I))) in N'; congruence).
    rewrite EP, EP' in IM. destruct IM as (_ & _ & _ & _ & IM).
    assert (MI : forall u v, mir u = mir v -> u = v) by (intros u v Q; rewrite <- (mir_mir u), Q, mir_mir; reflexivity).
    split; intros V NE.
    - destruct IM as [(K & _)|(K & _ & V2 & _)]; [rewrite K in E; lra|].
      exfalso. apply NE, MI. congruence.
    - destruct IM as [(K & _ & V2 & _)|(K & _)]; [|rewrite K in E; lra].
      exfalso. apply NE, MI. congruence. }
  assert (Y : vy (o_F (results_val eps lat s r g)) = 0) by exact (no_side_force eps lat sg f s r g m dp SG F B0 P0 R0 D U S).
  destruct (no_roll_yaw eps lat sg f s r g m dp SG F B0 P0 R0 D U S RP) as (MX & MZ).
  change (vx (o_M (results_val eps lat s r g)) = 0) in MX. change (vz (o_M (results_val eps lat s r g)) = 0) in MZ.
  change (o_co (results_val eps lat s r g)) with (vlm_coeffs s r (o_F (results_val eps lat s r g)) (o_M (results_val eps lat s r g))).
  set (FF := o_F _) in *. set (MM := o_M _) in *. clearbody FF MM.
  split; [exact Y|].
  assert (CC : forall x z, sin (deg2rad (f_beta s)) * x * vx FF + cos (deg2rad (f_beta s)) * vy FF + sin (deg2rad (f_beta s)) * z * vz FF = 0).
  { intros x z. rewrite B0, Y. unfold deg2rad. rewrite Rmult_0_l, sin_0. ring. }
  unfold vlm_coeffs. cbn [c_C c_Cy c_CC c_Cl c_Cn]. rewrite CC, Y, MX, MZ.
  repeat (split; [reflexivity|]). intros A SP. unfold is.
  assert (Q : (if Req_EM_T (dyn_pressure s) 0 then 1 else dyn_pressure s) <> 0) by (destruct (Req_EM_T (dyn_pressure s) 0); lra).
  revert Q. generalize (if Req_EM_T (dyn_pressure s) 0 then 1 else dyn_pressure s). intros q Q.
  assert (Z : forall x, x <> 0 -> cdiv 0 x = Some 0) by (intros x NZ; rewrite cdiv_some by exact NZ; f_equal; field; exact NZ).
  rewrite !Z by (repeat apply Rmult_integral_contrapositive_currified; assumption). auto.
Qed.


Lemma all_some_comp {A B C} (f : B -> option C) (h : A -> B) l : all_some f (map h l) = all_some (fun x => f (h x)) l.
Proof. induction l as [|x l IH]; simpl; [reflexivity|]. rewrite IH. reflexivity. Qed.
Lemma all_some_ext {A B} (f h : A -> option B) l : (forall x, In x l -> f x = h x) -> all_some f l = all_some h l.
Proof.
  induction l as [|x l IH]; intro H; simpl; [reflexivity|]. rewrite IH by (intros y Y; apply H; right; exact Y).
  rewrite (H x (or_introl eq_refl)). reflexivity.
Qed.

Lemma onset_move d s cg p : onset s (vadd cg d) (vadd p d) = onset s cg p.
Proof. unfold onset. f_equal. f_equal. apply vec_eq; vsimp; ring. Qed.

Lemma boundary_move d lat s r : boundary (map (move d) lat) s (moved d r) = boundary lat s r.
Proof.
  unfold boundary. rewrite map_map. apply map_ext. intro i. rewrite !vel_onset. cbn [move moved pC pN r_CG].
  rewrite onset_move. reflexivity.
Qed.

Lemma downwash_move eps d lat : downwash eps (map (move d) lat) = downwash eps lat.
Proof.
  unfold downwash. rewrite all_some_comp. apply all_some_ext. intros i _. rewrite all_some_comp. apply all_some_ext.
  intros j _. cbn [move pC pN]. rewrite horseshoe_move. reflexivity.
Qed.

Lemma combine_map_l {A B C} (h : A -> C) (l : list A) (m : list B) : combine (map h l) m = map (fun x => (h (fst x), snd x)) (combine l m).
Proof. revert m. induction l as [|a l IH]; intros [|b m]; simpl; try reflexivity. f_equal. apply IH. Qed.

Lemma results_move eps d lat s r g o : vlm_results eps lat s r g = Some o ->
  vlm_results eps (map (move d) lat) s (moved d r) g = Some o.
Proof.
  intro H. apply vlm_results_inv in H. destruct H as (-> & F).
  rewrite vlm_results_ok.
  2:{ intros i x y I Y. rewrite combine_map_l in I, Y. apply in_map_iff in I, Y. destruct I as ([i' x'] & E1 & I').
      destruct Y as ([j y'] & <- & Y'). injection E1 as <- _. cbn [fst move pB]. rewrite horseshoe_move. exact (F i' x' _ I' Y'). }
  f_equal.
  assert (LV : forall i, local_vel eps (map (move d) lat) g s (moved d r) (move d i) = local_vel eps lat g s r i).
  { intro i. unfold local_vel. cbn [moved r_CG move pB]. rewrite onset_move. f_equal. unfold induced. rewrite combine_map_l, map_map.
    apply vsum_map_ext. intros x _. cbn [fst snd]. f_equal. unfold hs. rewrite horseshoe_move. reflexivity. }
  assert (KJ : forall i x, kj_force eps (map (move d) lat) g s (moved d r) (move d i) x = kj_force eps lat g s r i x).
  { intros i x. unfold kj_force. rewrite LV. f_equal. f_equal. cbn [move pV2 pV3]. apply vec_eq; vsimp; ring. }
  assert (IN : forall i, induced eps (pB (move d i)) (combine (map (move d) lat) g) = induced eps (pB i) (combine lat g)).
  { intro i. cbn [move pB]. unfold induced. rewrite combine_map_l, map_map. apply vsum_map_ext. intros x _. cbn [fst snd].
    f_equal. unfold hs. rewrite horseshoe_move. reflexivity. }
  unfold results_val. rewrite (combine_map_l (move d)), !map_map. cbn [fst snd].
  assert (EF : map (fun x : panel * R => kj_force eps (map (move d) lat) g s (moved d r) (move d (fst x)) (snd x)) (combine lat g) =
               map (fun x => kj_force eps lat g s r (fst x) (snd x)) (combine lat g)) by (apply map_ext; intro x; apply KJ).
  rewrite EF.
  assert (EM : map (fun x : panel * R => vcross (vsub (pB (move d (fst x))) (r_RP (moved d r))) (kj_force eps (map (move d) lat) g s (moved d r) (move d (fst x)) (snd x))) (combine lat g) =
               map (fun x => vcross (vsub (pB (fst x)) (r_RP r)) (kj_force eps lat g s r (fst x) (snd x))) (combine lat g)).
  { apply map_ext. intro x. rewrite KJ. f_equal. cbn [moved r_RP move pB]. apply vec_eq; vsimp; ring. }
  rewrite EM. f_equal.
  apply map_ext. intro x. unfold loads_val. cbn [fst]. rewrite KJ, IN. reflexivity.
Qed.


Lemma onset_scale k s cg p : k <> 0 -> onset (scaled_flow k s) (vscale k cg) (vscale k p) = onset s cg p.
Proof. intro K. unfold onset, wind, rates, scaled_flow. cbn [f_airspeed f_alpha f_beta f_P f_Q f_R]. apply vec_eq; vsimp; field; exact K. Qed.

Lemma boundary_scale k lat s r : k <> 0 -> boundary (map (scale k) lat) (scaled_flow k s) (scaled_refs k r) = boundary lat s r.
Proof.
  intro K. unfold boundary. rewrite map_map. apply map_ext. intro i. rewrite !vel_onset. cbn [scale scaled_refs pC pN r_CG].
  rewrite onset_scale by exact K. reflexivity.
Qed.

Lemma downwash_scale eps k lat m : 0 < k -> downwash eps lat = Some m ->
  downwash eps (map (scale k) lat) = Some (map (map (Rmult (/ k))) m).
Proof.
  intros K H. destruct (downwash_inv _ _ _ H) as (-> & R). unfold downwash. rewrite all_some_comp, map_map. apply all_some_map.
  intros i I. rewrite all_some_comp, map_map. apply all_some_map. intros j J. cbn [scale pC pN].
  rewrite horseshoe_scale by exact K. rewrite (R i j I J). cbn [option_map]. f_equal. apply vdot_scale_l.
Qed.

Lemma dot_row_scale c row g : dot (map (Rmult c) row) g = c * dot row g.
Proof.
  revert g. induction row as [|x row IH]; intros [|y g]; unfold dot in *; simpl; try ring. rewrite IH. ring.
Qed.

Lemma solves_scaled k m rhs g : 0 < k -> solves m rhs g <-> solves (map (map (Rmult (/ k))) m) rhs (map (Rmult k) g).
Proof.
  intro K. unfold solves. rewrite !map_length, map_map.
  assert (E : forall row, dot (map (Rmult (/ k)) row) (map (Rmult k) g) = dot row g).
  { intro row. rewrite dot_row_scale, dot_scale. field. lra. }
  rewrite (map_ext _ _ E). reflexivity.
Qed.

Lemma hs_scale eps k p j : 0 < k -> hs eps (vscale k p) (scale k j) = vscale (/ k) (hs eps p j).
Proof.
  intro K. unfold hs. rewrite horseshoe_scale by exact K. destruct (horseshoe eps p j); [reflexivity|].
  cbn [option_map]. apply vec_eq; vsimp; ring.
Qed.

Lemma results_scale eps k lat s r g o : 0 < k -> dyn_pressure s <> 0 -> vlm_results eps lat s r g = Some o ->
  exists o', vlm_results eps (map (scale k) lat) (scaled_flow k s) (scaled_refs k r) (map (Rmult k) g) = Some o' /\
    o_F o' = vscale (k * k) (o_F o) /\ o_M o' = vscale (k * k * k) (o_M o) /\
    same_coeffs (o_co o) (o_co o') /\ map o_cp (o_panels o') = map o_cp (o_panels o) /\ map o_iw (o_panels o') = map o_iw (o_panels o).
Proof.
  intros K DN H. apply vlm_results_inv in H. destruct H as (-> & F).
  eexists. split.
  { apply vlm_results_ok. intros i x y I Y. rewrite combine_map_l, combine_map_r, map_map in I, Y. cbn [fst snd] in I, Y.
    apply in_map_iff in I, Y. destruct I as ([i' x'] & E1 & I'). destruct Y as ([j y'] & <- & Y'). injection E1 as <- _.
    cbn [fst scale pB]. rewrite horseshoe_scale by exact K. destruct (F i' x' _ I' Y') as (v & E). cbn [fst] in E. rewrite E. eexists. reflexivity. }
  assert (IN : forall i, induced eps (pB (scale k i)) (combine (map (scale k) lat) (map (Rmult k) g)) = induced eps (pB i) (combine lat g)).
  { intro i. cbn [scale pB]. unfold induced. rewrite combine_map_l, combine_map_r, !map_map. cbn [fst snd].
    apply vsum_map_ext. intros x _. rewrite hs_scale by exact K. apply vec_eq; vsimp; field; lra. }
  assert (LV : forall i, local_vel eps (map (scale k) lat) (map (Rmult k) g) (scaled_flow k s) (scaled_refs k r) (scale k i) = local_vel eps lat g s r i).
  { intro i. unfold local_vel. rewrite IN. cbn [scaled_refs r_CG scale pB]. rewrite onset_scale by lra. reflexivity. }
  assert (KJ : forall i x, kj_force eps (map (scale k) lat) (map (Rmult k) g) (scaled_flow k s) (scaled_refs k r) (scale k i) (k * x)
                         = vscale (k * k) (kj_force eps lat g s r i x)).
  { intros i x. unfold kj_force. rewrite LV. cbn [scaled_flow f_rho scale pV2 pV3]. apply vec_eq; vsimp; ring. }
  unfold results_val. rewrite (combine_map_l (scale k)), combine_map_r, !map_map. cbn [fst snd o_F o_M o_co o_panels].
  assert (EF : vsum (map (fun x : panel * R => kj_force eps (map (scale k) lat) (map (Rmult k) g) (scaled_flow k s) (scaled_refs k r) (scale k (fst x)) (k * snd x)) (combine lat g)) =
    vscale (k * k) (vsum (map (fun x => kj_force eps lat g s r (fst x) (snd x)) (combine lat g)))).
  { rewrite <- vsum_scale, map_map. apply vsum_map_ext. intros x _. apply KJ. }
  assert (EM : vsum (map (fun x : panel * R => vcross (vsub (pB (scale k (fst x))) (r_RP (scaled_refs k r))) (kj_force eps (map (scale k) lat) (map (Rmult k) g) (scaled_flow k s) (scaled_refs k r) (scale k (fst x)) (k * snd x))) (combine lat g)) =
    vscale (k * k * k) (vsum (map (fun x => vcross (vsub (pB (fst x)) (r_RP r)) (kj_force eps lat g s r (fst x) (snd x))) (combine lat g)))).
  { rewrite <- vsum_scale, map_map. apply vsum_map_ext. intros x _. rewrite KJ. cbn [scaled_refs r_RP scale pB]. apply vec_eq; vsimp; ring. }
  rewrite EF, EM. split; [reflexivity|]. split; [reflexivity|]. split.
  { set (FF := vsum _). set (MM := vsum _).
    replace (k * k) with (1 * (k * k)) at 1 by ring. replace (k * k * k) with (1 * (k * k) * k) by ring.
    assert (0 < k * k) by nra.
    apply coeffs_scaled; try lra; try reflexivity; try exact DN. unfold dyn_pressure, scaled_flow. cbn [f_rho f_airspeed]. ring. }
  rewrite !map_map. split; apply map_ext; intro x; unfold loads_val; cbn [fst o_cp o_iw].
  - rewrite KJ, vdot_scale_l. cbn [scale pN pA].
    replace (dyn_pressure (scaled_flow k s) * (k * k * pA (fst x))) with (k * k * (dyn_pressure s * pA (fst x))) by (unfold dyn_pressure, scaled_flow; cbn [f_rho f_airspeed]; ring).
    apply cdiv_same. nra.
  - apply IN.
Qed.
