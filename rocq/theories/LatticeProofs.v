(** Proofs about panel counts, bookkeeping and array accesses (C08, C09, C10, C45). *)
From Coq Require Import List String ZArith QArith Qround Bool Permutation Lia Lqa Arith.
From Verif Require Import PyBase PyFacts StripModel StripSpec StripChord StripRun StripControl
  AircraftModel LatticeModel LatticeSpec EnumProofs.
Import ListNotations.
Open Scope Z_scope.

(** ** Counts *)

Lemma Qceiling_spec x : (inject_Z (Qceiling x - 1) < x)%Q /\ (x <= inject_Z (Qceiling x))%Q.
Proof. split; [apply Qceiling_lt|apply Qle_ceiling]. Qed.

Lemma chord_inv_subs s k v : chord_inv s -> In (k, v) (st_subs s) ->
  (k = ASegment /\ sa_type v = ASegment /\ sa_ctrl v = None /\ (0 < rel_length v)%Q /\ (rel_length v <= 1)%Q) \/
  (exists d c, k = ADev d /\ sa_type v = ADev d /\ sa_ctrl v = Some c).
Proof.
  intros (os & of & (Fm & Fs & Ff & Fn) & L) I. apply In_sget in I; [|exact Fn].
  destruct k as [|[|]].
  - left. rewrite Fm in I. injection I as <-. split; [reflexivity|].
    split; [reflexivity|]. split; [reflexivity|].
    destruct L as (L1 & L2 & L3). unfold rel_length, main_sub; simpl.
    destruct os as [d1|], of as [d2|]; simpl in *;
      try specialize (L1 _ eq_refl); try specialize (L2 _ eq_refl); try specialize (L3 _ _ eq_refl eq_refl);
      unfold dev_ok in *;
      repeat match goal with H : _ /\ _ |- _ => destruct H end; split; lra.
  - right. rewrite Fs in I. destruct os as [d|]; [|discriminate]. injection I as <-.
    exists Slat, (dv_c d). auto.
  - right. rewrite Ff in I. destruct of as [d|]; [|discriminate]. injection I as <-.
    exists Flap, (dv_c d). auto.
Qed.

Definition visit_ok (v : subarea_visit) : Prop :=
  exists n, num_chordwise v = Ok n /\ 1 <= n /\ right_count v n /\
    (sa_ctrl (v_sub v) = None -> exists m, ws_num_c (v_seg v) = Some m /\ n <= m).

Lemma visits_ok a : panelled a -> counts_set a -> Forall visit_ok (all_subareas a).
Proof.
  intros P C. apply Forall_forall. intros x I.
  destruct x as [[[[[na ka] v] [[nd kd] d]] [[ns ks] s]] [[nw kw] w]].
  apply all_subareas_In in I. destruct I as (Iw & Is & Id & -> & Ia).
  apply nth_error_In in Iw, Is, Id, Ia.
  destruct (P _ _ _ _ Iw Is) as [(interp & ops & SS & ER) R].
  destruct (C _ _ Iw) as [C1 C2].
  assert (CI : chord_inv d) by (apply (sound_chord interp ops SS); rewrite <- ER; exact Id).
  unfold visit_ok, num_chordwise, right_count, v_sub, v_seg, v_wing. simpl.
  destruct (chord_inv_subs d ka v CI Ia) as [(-> & T & Cn & L0 & L1)|(k & c & -> & T & Cn)].
  - destruct (C1 _ _ Is) as (m & M & M1). rewrite Cn, M, T. simpl.
    destruct (Qceiling_spec (rel_length v * inject_Z m)) as [Q1 Q2].
    assert (MQ : (1 <= inject_Z m)%Q) by (replace 1%Q with (inject_Z 1) by reflexivity; rewrite <- Zle_Qle; exact M1).
    assert (0 < rel_length v * inject_Z m)%Q by nra.
    assert (rel_length v * inject_Z m <= inject_Z m)%Q by nra.
    eexists. split; [reflexivity|]. split; [|split].
    + apply Z.lt_pred_le. replace (Z.pred 1) with 0 by reflexivity.
      rewrite Zlt_Qlt. replace (inject_Z 0) with 0%Q by reflexivity. lra.
    + exists m. split; [reflexivity|].
      assert (E : ((1 # 2) * (xsi_d v - xsi_a v + (xsi_c v - xsi_b v)) * inject_Z m == rel_length v * inject_Z m)%Q)
        by (unfold rel_length; ring).
      cbv zeta. rewrite E. auto.
    + intros _. exists m. split; [reflexivity|].
      assert (G : (inject_Z (Qceiling (rel_length v * inject_Z m) - 1) < inject_Z m)%Q) by lra.
      rewrite <- Zlt_Qlt in G. lia.
  - destruct (R _ _ _ _ Id Ia Cn) as (wc & G).
    destruct (C2 _ _ (dget_In _ _ _ G)) as (n & N & N1).
    rewrite Cn, G. simpl. rewrite N, T. exists n. split; [reflexivity|]. split; [exact N1|].
    split; [eauto|discriminate].
Qed.

(** ** The counting loop *)

Definition entries_for (p : Z) (v : subarea_visit) (n : Z) : list entry :=
  if Z.eqb (w_symmetry (v_wing v)) 0 then [mkEntry v p (p + n) n false]
  else [mkEntry v p (p + n) n false; mkEntry v (p + n) (p + n + n) n true].

Lemma consecutive_app p es q es' r : consecutive p es q -> consecutive q es' r -> consecutive p (es ++ es') r.
Proof.
  revert p. induction es as [|e es IH]; simpl; intros p H1 H2; [subst; exact H2|].
  destruct H1 as (A & B & C). auto.
Qed.

Lemma recorded_app vs es vs' es' : recorded vs es -> recorded vs' es' -> recorded (vs ++ vs') (es ++ es').
Proof. induction 1; simpl; intros; auto using recorded. Qed.

Definition st_inv (st : cnt) (vs : list subarea_visit) : Prop :=
  consecutive 0 (bk_list (c_book st)) (c_p st) /\ recorded vs (bk_list (c_book st)) /\
  c_r st = c_p st /\ c_subareas st = Z.of_nat (List.length (bk_list (c_book st))) /\
  (forall e, In e (bk_list (c_book st)) ->
     e_hi e = e_lo e + e_num_c e /\ 1 <= e_num_c e /\ right_count (e_visit e) (e_num_c e) /\
     (sa_ctrl (v_sub (e_visit e)) = None -> exists m, ws_num_c (v_seg (e_visit e)) = Some m /\ e_num_c e <= m)) /\
  c_p st = zsum (map e_num_c (bk_list (c_book st))) /\
  c_book st = fold_left update_book (bk_list (c_book st)) clean_book.

Lemma update_book_list b e : bk_list (update_book b e) = bk_list b ++ [e].
Proof. unfold update_book. destruct (e_mirror e); reflexivity. Qed.

Lemma zsum_app l l' : zsum (l ++ l') = zsum l + zsum l'.
Proof. unfold zsum. induction l; simpl; lia. Qed.

Lemma count_step_inv st vs v : st_inv st vs -> visit_ok v ->
  exists st', count_step st v = Ok st' /\ st_inv st' (vs ++ [v]).
Proof.
  intros (I1 & I2 & I3 & I4 & I5 & I6 & I7) (n & N & N1 & R & S).
  unfold count_step. rewrite N. simpl.
  destruct (Z.eqb_spec (w_symmetry (v_wing v)) 0) as [E|E].
  - eexists. split; [reflexivity|]. unfold st_inv. cbn [c_book c_p c_r c_subareas]. rewrite !update_book_list.
    set (e := mkEntry v (c_p st) (c_p st + n) n false) in *.
    split; [|split; [|split; [|split; [|split; [|split]]]]].
    + apply consecutive_app with (q := c_p st); [exact I1|]. simpl. lia.
    + apply recorded_app; [exact I2|]. apply rec_plain; try reflexivity; [|constructor].
      unfold has_symmetry. congruence.
    + lia.
    + rewrite app_length. simpl. lia.
    + intros e' I. apply in_app_iff in I. destruct I as [I|[<-|[]]]; [auto|].
      simpl. split; [lia|]. auto.
    + rewrite map_app, zsum_app, <- I6. simpl. lia.
    + rewrite fold_left_app, <- I7. reflexivity.
  - eexists. split; [reflexivity|]. unfold st_inv. cbn [c_book c_p c_r c_subareas]. rewrite !update_book_list.
    set (e := mkEntry v (c_p st) (c_p st + n) n false) in *.
    set (e2 := mkEntry v (c_p st + n) (c_p st + n + n) n true) in *.
    rewrite <- app_assoc. simpl.
    split; [|split; [|split; [|split; [|split; [|split]]]]].
    + apply consecutive_app with (q := c_p st); [exact I1|]. simpl. lia.
    + apply recorded_app; [exact I2|]. apply rec_sym; auto; constructor.
    + lia.
    + rewrite app_length. simpl. lia.
    + intros e' I. apply in_app_iff in I. destruct I as [I|[<-|[<-|[]]]]; [auto| |];
        simpl; (split; [lia|]; auto).
    + rewrite map_app, zsum_app, <- I6. simpl. lia.
    + rewrite fold_left_app, <- I7. reflexivity.
Qed.

Lemma count_loop_inv vs' : forall st vs, st_inv st vs -> Forall visit_ok vs' ->
  exists st', count_loop st vs' = Ok st' /\ st_inv st' (vs ++ vs').
Proof.
  induction vs' as [|v vs' IH]; intros st vs I F; simpl.
  - exists st. rewrite app_nil_r. auto.
  - inversion F as [|? ? F1 F2]; subst.
    destruct (count_step_inv st vs v I F1) as (st1 & E1 & I1).
    destruct (IH st1 (vs ++ [v]) I1 F2) as (st2 & E2 & I2).
    exists st2. rewrite E1. simpl. split; [exact E2|]. rewrite <- app_assoc in I2. exact I2.
Qed.

Lemma panel_count_inv a : panelled a -> counts_set a ->
  exists st, panel_count a = Ok st /\ st_inv st (all_subareas a).
Proof.
  intros P C. apply (count_loop_inv (all_subareas a) _ []); [|apply visits_ok; assumption].
  unfold st_inv, clean_book; simpl. split; [reflexivity|]. split; [constructor|].
  split; [reflexivity|]. split; [reflexivity|]. split; [tauto|]. split; reflexivity.
Qed.

Lemma consecutive_le p es q : consecutive p es q -> p <= q.
Proof. revert p. induction es as [|e es IH]; simpl; intros p H; [lia|]. destruct H as (A & B & C). apply IH in C. lia. Qed.

(** Every panel belongs to exactly one record. *)
Lemma consecutive_unique es : forall p q i, consecutive p es q -> p <= i < q ->
  exists k e, nth_error es k = Some e /\ e_lo e <= i < e_hi e /\
    forall k' e', nth_error es k' = Some e' -> e_lo e' <= i < e_hi e' -> k' = k.
Proof.
  induction es as [|e es IH]; simpl; intros p q i C B; [lia|].
  destruct C as (E & L & C).
  destruct (Z_lt_le_dec i (e_hi e)) as [Hi|Hi].
  - exists 0%nat, e. split; [reflexivity|]. split; [lia|].
    intros [|k'] e' N R; [reflexivity|]. exfalso. simpl in N.
    assert (G : forall es p q, consecutive p es q -> forall x, In x es -> p <= e_lo x).
    { clear. induction es as [|y es IH]; simpl; intros p q C x I; [tauto|].
      destruct C as (A & B & C). destruct I as [<-|I]; [lia|].
      specialize (IH _ _ C x I). lia. }
    apply nth_error_In in N. specialize (G _ _ _ C _ N). lia.
  - destruct (IH _ _ i C) as (k & e1 & N & R & U); [lia|].
    exists (S k), e1. split; [exact N|]. split; [exact R|].
    intros [|k'] e' N' R'; simpl in N'.
    + injection N' as <-. lia.
    + f_equal. eauto.
Qed.

(** ** C09 *)

Lemma filter_app' {A} (f : A -> bool) l x : filter f (l ++ [x]) = filter f l ++ (if f x then [x] else []).
Proof. rewrite filter_app. simpl. destruct (f x); reflexivity. Qed.

Lemma dappend_lookup d k e uid :
  lookup (dappend d k e) uid = lookup d uid ++ (if String.eqb k uid then [e] else []).
Proof.
  unfold lookup, dappend. destruct (String.eqb_spec k uid) as [->|NE].
  - rewrite dget_dset_same. destruct (dget d uid); reflexivity.
  - rewrite dget_dset_other by congruence. rewrite app_nil_r. reflexivity.
Qed.

Lemma dappend_keys d k e : (forall u l, dget d u = Some l -> l <> []) ->
  forall u l, dget (dappend d k e) u = Some l -> l <> [].
Proof.
  intros H u l. unfold dappend. destruct (string_dec u k) as [->|NE].
  - rewrite dget_dset_same. intro E. injection E as <-. destruct (dget d k) as [l'|]; [|discriminate].
    destruct l'; discriminate.
  - rewrite dget_dset_other by exact NE. apply H.
Qed.

Lemma book_split es :
  let b := fold_left update_book es clean_book in
  bk_list b = es /\
  (forall uid, lookup (bk_wing b) uid = entries_of uid false es) /\
  (forall uid, lookup (bk_wing_mirror b) uid = entries_of uid true es) /\
  (NoDup (dkeys (bk_wing b)) /\ NoDup (dkeys (bk_wing_mirror b))) /\
  (forall u l, dget (bk_wing b) u = Some l -> l <> []) /\
  (forall u l, dget (bk_wing_mirror b) u = Some l -> l <> []).
Proof.
  induction es as [|e es IH] using rev_ind; cbv zeta.
  - simpl. do 3 (split; [reflexivity|]). split; [split; constructor|]. split; discriminate.
  - cbv zeta in IH. rewrite fold_left_app. simpl. revert IH.
    generalize (fold_left update_book es clean_book). intros b (I1 & I2 & I3 & [I4 I5] & I6 & I7).
    split; [rewrite update_book_list, I1; reflexivity|].
    unfold entries_of, update_book in *.
    destruct (e_mirror e) eqn:M; simpl.
    + split; [intro uid; rewrite filter_app', I2, M; simpl; rewrite app_nil_r; reflexivity|].
      split; [intro uid; rewrite filter_app', dappend_lookup, I3, M; simpl; reflexivity|].
      split; [split; [exact I4|apply dset_NoDup; exact I5]|].
      split; [exact I6|apply dappend_keys; exact I7].
    + split; [intro uid; rewrite filter_app', dappend_lookup, I2, M; simpl; reflexivity|].
      split; [intro uid; rewrite filter_app', I3, M; simpl; rewrite app_nil_r; reflexivity|].
      split; [split; [apply dset_NoDup; exact I4|exact I5]|].
      split; [apply dappend_keys; exact I6|exact I7].
Qed.

(** The lists of the dictionary together are the records of that side. *)
Lemma dset_perm d k (e : entry) :
  Permutation (flat_map snd (dappend d k e)) (flat_map snd d ++ [e]).
Proof.
  unfold dappend. induction d as [|[k' l'] d IH]; simpl; [reflexivity|].
  destruct (String.eqb k k') eqn:E; simpl.
  - rewrite <- app_assoc. rewrite <- app_assoc. apply Permutation_app_head. apply Permutation_app_comm.
  - destruct (dget d k); simpl in *; rewrite IH, app_assoc; reflexivity.
Qed.

Lemma book_perm es :
  let b := fold_left update_book es clean_book in
  Permutation (flat_map snd (bk_wing b)) (filter (fun e => negb (e_mirror e)) es) /\
  Permutation (flat_map snd (bk_wing_mirror b)) (filter e_mirror es).
Proof.
  induction es as [|e es IH] using rev_ind; cbv zeta; [simpl; auto|].
  cbv zeta in IH. rewrite fold_left_app. simpl. rewrite !filter_app'. revert IH.
  generalize (fold_left update_book es clean_book). intros b [I1 I2].
  unfold update_book. destruct (e_mirror e) eqn:M; simpl.
  - rewrite app_nil_r. split; [exact I1|]. rewrite dset_perm. apply Permutation_app_tail. exact I2.
  - rewrite app_nil_r. split; [|exact I2]. rewrite dset_perm. apply Permutation_app_tail. exact I1.
Qed.

Lemma filter_split_perm {A} (f : A -> bool) l :
  Permutation (filter (fun x => negb (f x)) l ++ filter f l) l.
Proof.
  induction l as [|x l IH]; simpl; [reflexivity|]. destruct (f x); simpl.
  - rewrite <- Permutation_middle. constructor. exact IH.
  - constructor. exact IH.
Qed.

Lemma book_all es :
  let b := fold_left update_book es clean_book in
  bk_list b = es /\
  (forall uid, lookup (bk_wing b) uid = entries_of uid false es) /\
  (forall uid, lookup (bk_wing_mirror b) uid = entries_of uid true es) /\
  (NoDup (dkeys (bk_wing b)) /\ NoDup (dkeys (bk_wing_mirror b))) /\
  (forall u l, dget (bk_wing b) u = Some l -> l <> []) /\
  (forall u l, dget (bk_wing_mirror b) u = Some l -> l <> []) /\
  Permutation (flat_map snd (bk_wing b) ++ flat_map snd (bk_wing_mirror b)) es.
Proof.
  cbv zeta. destruct (book_split es) as (A & B & C & D & E & F). destruct (book_perm es) as [P Q].
  repeat (split; [assumption|]). rewrite P, Q. apply filter_split_perm.
Qed.

Lemma recorded_In vs es e : recorded vs es -> In e es ->
  In (e_visit e) vs /\ (e_mirror e = true -> has_symmetry (e_visit e)).
Proof.
  induction 1 as [|v vs x es NS Ev Em R IH|v vs x x' es S Ev Em Ev' Em' En R IH]; intro I.
  - destruct I.
  - destruct I as [<-|I]; [split; [left; auto|congruence]|]. destruct (IH I). split; [right|]; auto.
  - destruct I as [<-|[<-|I]].
    + split; [left; auto|congruence].
    + split; [left; auto|]. intros _. rewrite Ev'. exact S.
    + destruct (IH I). split; [right|]; auto.
Qed.

Lemma book_aircraft a : panelled a -> counts_set a ->
  exists st, panel_count a = Ok st /\
    let es := bk_list (c_book st) in
    (forall uid, lookup (bk_wing (c_book st)) uid = entries_of uid false es) /\
    (forall uid, lookup (bk_wing_mirror (c_book st)) uid = entries_of uid true es) /\
    (forall uid, lookup (bk_wing_mirror (c_book st)) uid <> [] ->
       exists wn w, In (wn, w) (a_wings a) /\ w_uid w = uid /\ w_symmetry w <> 0).
Proof.
  intros P C. destruct (panel_count_inv a P C) as (st & E & I1 & I2 & I3 & I4 & I5 & I6 & I7).
  exists st. split; [exact E|]. cbv zeta. destruct (book_split (bk_list (c_book st))) as (A & B & D & _).
  cbv zeta in B, D. rewrite <- I7 in B, D. split; [exact B|]. split; [exact D|].
  intros uid NE. rewrite D in NE. unfold entries_of in NE.
  destruct (filter _ _) as [|e l] eqn:F in NE; [congruence|].
  assert (I : In e (e :: l)) by (left; reflexivity). rewrite <- F in I. apply filter_In in I.
  destruct I as [I T]. apply andb_prop in T. destruct T as [T1 T2]. apply eqb_prop in T1.
  apply String.eqb_eq in T2. destruct (recorded_In _ _ _ I2 I) as [V S].
  destruct (e_visit e) as [[[[[na ka] v] [[nd kd] d]] [[ns ks] s]] [[nw kw] w]].
  apply all_subareas_In in V. destruct V as (V & _). apply nth_error_In in V.
  exists kw, w. split; [exact V|]. split; [exact T2|]. apply S. exact T1.
Qed.

(** Total number of panels: the records of one subarea have the same size, so the total is the
    sum over the subareas, mirrored ones counted twice. *)
Lemma recorded_total f vs es : recorded vs es -> (forall e, In e es -> e_num_c e = f (e_visit e)) ->
  zsum (map e_num_c es) = zsum (map (fun v => if Z.eqb (w_symmetry (v_wing v)) 0 then f v else 2 * f v) vs).
Proof.
  unfold zsum. induction 1 as [|v vs x es NS Ev Em R IH|v vs x x' es S Ev Em Ev' Em' En R IH]; intro F.
  - reflexivity.
  - cbn [map fold_right]. rewrite IH by (intros; apply F; right; assumption).
    rewrite (F x (or_introl eq_refl)), Ev. unfold has_symmetry in NS.
    destruct (Z.eqb_spec (w_symmetry (v_wing v)) 0); [lia|tauto].
  - cbn [map fold_right]. rewrite IH by (intros; apply F; right; right; assumption).
    rewrite En, (F x (or_introl eq_refl)), Ev. unfold has_symmetry in S.
    destruct (Z.eqb_spec (w_symmetry (v_wing v)) 0); [tauto|lia].
Qed.

Lemma right_count_unique v n n' : right_count v n -> right_count v n' -> n = n'.
Proof.
  unfold right_count. destruct (sa_ctrl (v_sub v)) as [c|].
  - intros (wc & G & E) (wc' & G' & E'). congruence.
  - intros (m & M & L1 & L2) (m' & M' & L1' & L2'). assert (m' = m) by congruence. subst m'.
    assert (H1 := Qlt_le_trans _ _ _ L1 L2'). assert (H2 := Qlt_le_trans _ _ _ L1' L2).
    rewrite <- Zlt_Qlt in H1, H2. lia.
Qed.

Lemma panel_totals a : panelled a -> counts_set a ->
  exists st, panel_count a = Ok st /\
    let es := bk_list (c_book st) in
    (forall e, In e es ->
       1 <= e_num_c e /\ right_count (e_visit e) (e_num_c e) /\
       (sa_ctrl (v_sub (e_visit e)) = None ->
          exists m, ws_num_c (v_seg (e_visit e)) = Some m /\ e_num_c e <= m)) /\
    c_p st = zsum (map e_num_c es) /\ c_subareas st = Z.of_nat (List.length es) /\
    exists f : subarea_visit -> Z,
      (forall e, In e es -> e_num_c e = f (e_visit e)) /\
      c_p st = zsum (map (fun v => if Z.eqb (w_symmetry (v_wing v)) 0 then f v else 2 * f v) (all_subareas a)).
Proof.
  intros P C. destruct (panel_count_inv a P C) as (st & E & I1 & I2 & I3 & I4 & I5 & I6 & I7).
  exists st. split; [exact E|]. cbv zeta. split; [intros e I; exact (proj2 (I5 e I))|].
  split; [exact I6|]. split; [exact I4|].
  exists (fun v => match num_chordwise v with Ok n => n | Err _ => 0 end).
  assert (F : forall e, In e (bk_list (c_book st)) ->
    e_num_c e = match num_chordwise (e_visit e) with Ok n => n | Err _ => 0 end).
  { intros e I. destruct (recorded_In _ _ _ I2 I) as [V _].
    pose proof (visits_ok a P C) as VO. rewrite Forall_forall in VO. destruct (VO _ V) as (n & N & _ & R & _).
    rewrite N. apply (right_count_unique (e_visit e)); [apply I5; exact I|exact R]. }
  split; [exact F|]. rewrite I6. apply (recorded_total _ _ _ I2 F).
Qed.
