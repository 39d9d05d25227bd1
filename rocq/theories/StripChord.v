(** Proofs about the chordwise structure of strips (properties C04, C05, C06). *)
From Coq Require Import List String ZArith QArith Bool Arith Lia Lqa Permutation.
From Verif Require Import PyBase PyFacts StripModel StripSpec StripSpan.
Import ListNotations.
Open Scope Q_scope.

(** A device as it was requested. *)
Record dev := mkDev { dv_c : control; dv_x1 : Q; dv_x2 : Q; dv_h1 : Q; dv_h2 : Q }.

Definition dev_sub (k : dkind) (d : dev) : subarea :=
  match k with
  | Slat => mkSub (ADev Slat) 0 0 (dv_x2 d) (dv_x1 d) (Some (dv_h1 d, dv_h2 d)) (Some (dv_c d))
  | Flap => mkSub (ADev Flap) (dv_x1 d) (dv_x2 d) 1 1 (Some (dv_h1 d, dv_h2 d)) (Some (dv_c d))
  end.

Definition main_sub (os of : option dev) : subarea :=
  mkSub ASegment
    (match os with Some d => dv_x1 d | None => 0 end)
    (match os with Some d => dv_x2 d | None => 0 end)
    (match of with Some d => dv_x2 d | None => 1 end)
    (match of with Some d => dv_x1 d | None => 1 end) None None.

(** The dictionary of subareas is exactly: main surface, slat [os], flap [of]. *)
Definition form (s : strip) (os of : option dev) : Prop :=
  sget (st_subs s) ASegment = Some (main_sub os of) /\
  sget (st_subs s) (ADev Slat) = option_map (dev_sub Slat) os /\
  sget (st_subs s) (ADev Flap) = option_map (dev_sub Flap) of /\
  NoDup (map fst (st_subs s)).

(** ** Facts about [sget]/[sset] *)

Lemma akind_eqb_spec a b : reflect (a = b) (akind_eqb a b).
Proof. destruct a as [|[|]], b as [|[|]]; simpl; constructor; congruence. Qed.

Lemma sget_sset_same l k v : sget (sset l k v) k = Some v.
Proof.
  induction l as [|[k' v'] l IH]; simpl.
  - destruct (akind_eqb_spec k k); congruence.
  - destruct (akind_eqb k k') eqn:E; simpl; rewrite E; auto.
Qed.

Lemma sget_sset_other l k k2 v : k2 <> k -> sget (sset l k v) k2 = sget l k2.
Proof.
  intro N. induction l as [|[k' v'] l IH]; simpl.
  - destruct (akind_eqb_spec k2 k); congruence.
  - destruct (akind_eqb_spec k k'); simpl.
    + subst. destruct (akind_eqb_spec k2 k'); congruence.
    + rewrite IH. reflexivity.
Qed.

Lemma sset_NoDup l k v : NoDup (map fst l) -> NoDup (map fst (sset l k v)).
Proof.
  intro N.
  assert (H : map fst (sset l k v) = map fst l \/
              (~ In k (map fst l) /\ map fst (sset l k v) = map fst l ++ [k])).
  { clear N. induction l as [|[k' v'] l IH]; simpl; [right; tauto|].
    destruct (akind_eqb_spec k k'); simpl; [left; reflexivity|].
    destruct IH as [->|[N1 ->]]; [left; reflexivity|right].
    split; [intros [C|C]; [congruence|tauto]|reflexivity]. }
  destruct H as [->|[N1 ->]]; [exact N|].
  apply NoDup_Add with (a := k) (l := map fst l).
  - rewrite <- (app_nil_r (map fst l)) at 1. apply Add_app.
  - auto.
Qed.

Lemma sget_In l k v : sget l k = Some v -> In (k, v) l.
Proof.
  induction l as [|[k' v'] l IH]; simpl; [discriminate|].
  destruct (akind_eqb_spec k k'); [|auto]. intro H. injection H as ->. left. congruence.
Qed.

Lemma sget_none l k : sget l k = None -> forall v, ~ In (k, v) l.
Proof.
  induction l as [|[k' v'] l IH]; simpl; intros H v; [tauto|].
  destruct (akind_eqb_spec k k'); [discriminate|]. intros [C|C]; [congruence|].
  exact (IH H v C).
Qed.

Lemma In_sget l k v : NoDup (map fst l) -> In (k, v) l -> sget l k = Some v.
Proof.
  induction l as [|[k' v'] l IH]; simpl; intros N I; [tauto|].
  inversion N as [|? ? N1 N2]; subst. destruct I as [I|I].
  - injection I as -> ->. destruct (akind_eqb_spec k k); congruence.
  - destruct (akind_eqb_spec k k') as [->|]; [|auto].
    exfalso. apply N1. apply in_map_iff. exists (k', v). auto.
Qed.

(** ** The decision of [_add_subarea] *)

Definition set_dev (k : dkind) (d : dev) (os of : option dev) : option dev * option dev :=
  match k with Slat => (Some d, of) | Flap => (os, Some d) end.

Definition dev_of (k : dkind) (os of : option dev) : option dev :=
  match k with Slat => os | Flap => of end.

(** When a device may be added (declarative). *)
Definition acceptable (os of : option dev) (k : dkind) (x1 x2 h1 h2 : Q) : Prop :=
  dev_of k os of = None /\
  (0 < x1 /\ x1 < 1) /\ (0 < x2 /\ x2 < 1) /\ (0 <= h1 /\ h1 <= 1) /\ (0 <= h2 /\ h2 <= 1) /\
  match k with
  | Flap => forall d, os = Some d -> dv_x1 d + (1#100) <= x1 /\ dv_x2 d + (1#100) <= x2
  | Slat => forall d, of = Some d -> x1 + (1#100) <= dv_x1 d /\ x2 + (1#100) <= dv_x2 d
  end.

Lemma xsi_bad_false x : xsi_bad x = false <-> 0 < x /\ x < 1.
Proof.
  unfold xsi_bad. rewrite orb_false_iff, !Qleb_false. tauto.
Qed.

Lemma hinge_bad_false x : hinge_bad x = false <-> 0 <= x /\ x <= 1.
Proof.
  unfold hinge_bad. rewrite orb_false_iff, !Qltb_false. tauto.
Qed.

Lemma bool_cases (b : bool) : b = true \/ b = false.
Proof. destruct b; auto. Qed.

Lemma upd_sub_ok s k f v : sget (st_subs s) k = Some v ->
  upd_sub s k f = (set_subs s (sset (st_subs s) k (f v)), Ok tt).
Proof. intro H. unfold upd_sub. rewrite H. reflexivity. Qed.

Lemma opt_def (o : option Q) (x : Q) : exists h, match o with Some h => h | None => x end = h.
Proof. eauto. Qed.

Lemma add_subarea_accepts s os of c k x1 x2 o1 o2 h1 h2 :
  form s os of -> ct_type c = Some k ->
  h1 = match o1 with Some h => h | None => x1 end ->
  h2 = match o2 with Some h => h | None => x2 end ->
  acceptable os of k x1 x2 h1 h2 ->
  exists s', add_subarea s c x1 x2 o1 o2 = (s', Ok tt) /\ quad s' = quad s /\
    form s' (fst (set_dev k (mkDev c x1 x2 h1 h2) os of)) (snd (set_dev k (mkDev c x1 x2 h1 h2) os of)).
Proof.
  intros (Fm & Fs & Ff & Fn) Tk H1 H2 (An & Ax1 & Ax2 & Ah1 & Ah2 & Ao).
  unfold add_subarea. rewrite Tk. cbv zeta. rewrite <- H1, <- H2.
  assert (E1 : smem (st_subs s) (ADev k) = false).
  { unfold smem. destruct k; simpl in An; subst; [rewrite Fs|rewrite Ff]; reflexivity. }
  rewrite E1.
  rewrite (proj2 (xsi_bad_false x2) Ax2), (proj2 (xsi_bad_false x1) Ax1). cbn [orb].
  rewrite (proj2 (hinge_bad_false h1) Ah1), (proj2 (hinge_bad_false h2) Ah2). cbn [orb].
  rewrite Fs, Ff. unfold MIN_XSI_LIMIT.
  destruct k; simpl in An; subst; cbn [option_map].
  - (* slat *)
    assert (E3 : match option_map (dev_sub Flap) of with
                 | Some v => Qltb (xsi_a v) (x1 + (1#100)) || Qltb (xsi_b v) (x2 + (1#100))
                 | None => false end = false).
    { destruct of as [d|]; simpl; [|reflexivity]. destruct (Ao d eq_refl) as [A1 A2].
      apply orb_false_iff. split; apply Qltb_false; assumption. }
    rewrite E3. set (s1 := set_subs s (sset _ _ _)).
    assert (G1 : sget (st_subs s1) ASegment = Some (main_sub None of)).
    { unfold s1. simpl. rewrite sget_sset_other by congruence. exact Fm. }
    rewrite (upd_sub_ok _ _ _ _ G1). cbn [then_].
    set (s2 := set_subs s1 _).
    assert (G2 : sget (st_subs s2) (ADev Slat) = Some (new_subarea 0 0 x1 x2 (ADev Slat))).
    { unfold s2, s1. simpl. rewrite sget_sset_other by congruence. apply sget_sset_same. }
    rewrite (upd_sub_ok _ _ _ _ G2).
    eexists. split; [reflexivity|]. split; [reflexivity|].
    unfold form. simpl. split; [|split; [|split]].
    + rewrite sget_sset_other by congruence. rewrite sget_sset_same. reflexivity.
    + rewrite sget_sset_same. reflexivity.
    + rewrite !sget_sset_other by congruence. exact Ff.
    + apply sset_NoDup, sset_NoDup, sset_NoDup. exact Fn.
  - (* flap *)
    assert (E3 : match option_map (dev_sub Slat) os with
                 | Some v => Qltb x1 (xsi_d v + (1#100)) || Qltb x2 (xsi_c v + (1#100))
                 | None => false end = false).
    { destruct os as [d|]; simpl; [|reflexivity]. destruct (Ao d eq_refl) as [A1 A2].
      apply orb_false_iff. split; apply Qltb_false; assumption. }
    rewrite E3. set (s1 := set_subs s (sset _ _ _)).
    assert (G1 : sget (st_subs s1) ASegment = Some (main_sub os None)).
    { unfold s1. simpl. rewrite sget_sset_other by congruence. exact Fm. }
    rewrite (upd_sub_ok _ _ _ _ G1). cbn [then_].
    set (s2 := set_subs s1 _).
    assert (G2 : sget (st_subs s2) (ADev Flap) = Some (new_subarea x1 x2 1 1 (ADev Flap))).
    { unfold s2, s1. simpl. rewrite sget_sset_other by congruence. apply sget_sset_same. }
    rewrite (upd_sub_ok _ _ _ _ G2).
    eexists. split; [reflexivity|]. split; [reflexivity|].
    unfold form. simpl. split; [|split; [|split]].
    + rewrite sget_sset_other by congruence. rewrite sget_sset_same. reflexivity.
    + rewrite !sget_sset_other by congruence. exact Fs.
    + rewrite sget_sset_same. reflexivity.
    + apply sset_NoDup, sset_NoDup, sset_NoDup. exact Fn.
Qed.

Lemma add_subarea_rejects s os of c x1 x2 o1 o2 h1 h2 :
  form s os of ->
  h1 = match o1 with Some h => h | None => x1 end ->
  h2 = match o2 with Some h => h | None => x2 end ->
  (forall k, ct_type c = Some k -> ~ acceptable os of k x1 x2 h1 h2) ->
  add_subarea s c x1 x2 o1 o2 = (s, Err ValueError).
Proof.
  intros (Fm & Fs & Ff & Fn) H1 H2 R. unfold add_subarea. cbv zeta. rewrite <- H1, <- H2.
  destruct (ct_type c) as [k|] eqn:Tk; [|reflexivity]. specialize (R k eq_refl).
  destruct (smem (st_subs s) (ADev k)) eqn:E1; [reflexivity|].
  destruct (xsi_bad x2 || xsi_bad x1) eqn:E2; [reflexivity|].
  destruct (hinge_bad h1 || hinge_bad h2) eqn:E3; [reflexivity|].
  rewrite Fs, Ff.
  match goal with |- (if ?b then _ else _) = _ => destruct b eqn:E4; [reflexivity|] end.
  match goal with |- (if ?b then _ else _) = _ => destruct b eqn:E5; [reflexivity|] end.
  exfalso. apply R.
  apply orb_false_iff in E2. destruct E2 as [E2 E2']. apply xsi_bad_false in E2, E2'.
  apply orb_false_iff in E3. destruct E3 as [E3 E3']. apply hinge_bad_false in E3, E3'.
  unfold acceptable. split; [|do 4 (split; [tauto|])].
  - unfold smem in E1. destruct k; simpl.
    + rewrite Fs in E1. destruct os; [discriminate|reflexivity].
    + rewrite Ff in E1. destruct of; [discriminate|reflexivity].
  - unfold MIN_XSI_LIMIT in *. destruct k; intros d ->; simpl in *; qbool; auto.
Qed.

Lemma acceptable_dec os of k x1 x2 h1 h2 :
  acceptable os of k x1 x2 h1 h2 \/ ~ acceptable os of k x1 x2 h1 h2.
Proof.
  unfold acceptable.
  destruct (Qlt_le_dec 0 x1); [|right; intros H; destruct H as (_ & H & _); lra].
  destruct (Qlt_le_dec x1 1); [|right; intros H; destruct H as (_ & H & _); lra].
  destruct (Qlt_le_dec 0 x2); [|right; intros H; destruct H as (_ & _ & H & _); lra].
  destruct (Qlt_le_dec x2 1); [|right; intros H; destruct H as (_ & _ & H & _); lra].
  destruct (Qlt_le_dec h1 0); [right; intros H; destruct H as (_ & _ & _ & H & _); lra|].
  destruct (Qlt_le_dec 1 h1); [right; intros H; destruct H as (_ & _ & _ & H & _); lra|].
  destruct (Qlt_le_dec h2 0); [right; intros H; destruct H as (_ & _ & _ & _ & H & _); lra|].
  destruct (Qlt_le_dec 1 h2); [right; intros H; destruct H as (_ & _ & _ & _ & H & _); lra|].
  destruct (dev_of k os of) eqn:E; [right; intros H; destruct H as [H _]; discriminate|].
  destruct k; simpl in *.
  - destruct of as [d|].
    + destruct (Qlt_le_dec (dv_x1 d) (x1 + (1#100)));
        [right; intros (_ & _ & _ & _ & _ & H); destruct (H d eq_refl); lra|].
      destruct (Qlt_le_dec (dv_x2 d) (x2 + (1#100)));
        [right; intros (_ & _ & _ & _ & _ & H); destruct (H d eq_refl); lra|].
      left. do 5 (split; [auto|]). intros d' Hd. injection Hd as <-. auto.
    + left. do 5 (split; [auto|]). intros d' Hd. discriminate.
  - destruct os as [d|].
    + destruct (Qlt_le_dec x1 (dv_x1 d + (1#100)));
        [right; intros (_ & _ & _ & _ & _ & H); destruct (H d eq_refl); lra|].
      destruct (Qlt_le_dec x2 (dv_x2 d + (1#100)));
        [right; intros (_ & _ & _ & _ & _ & H); destruct (H d eq_refl); lra|].
      left. do 5 (split; [auto|]). intros d' Hd. injection Hd as <-. auto.
    + left. do 5 (split; [auto|]). intros d' Hd. discriminate.
Qed.

(** ** Update *)

Lemma update_subarea_form s os of k d x1 x2 h1 h2 :
  form s os of -> dev_of k os of = Some d ->
  exists s', update_subarea s k x1 x2 h1 h2 = (s', Ok tt) /\ quad s' = quad s /\
    form s' (fst (set_dev k (mkDev (dv_c d) x1 x2 h1 h2) os of))
            (snd (set_dev k (mkDev (dv_c d) x1 x2 h1 h2) os of)).
Proof.
  intros (Fm & Fs & Ff & Fn) D. unfold update_subarea.
  destruct k; simpl in D; subst; simpl in Fs, Ff.
  - rewrite (upd_sub_ok _ _ _ _ Fs). cbn [then_]. set (s1 := set_subs s _).
    assert (G1 : sget (st_subs s1) ASegment = Some (main_sub (Some d) of)).
    { unfold s1. simpl. rewrite sget_sset_other by congruence. exact Fm. }
    rewrite (upd_sub_ok _ _ _ _ G1). cbn [then_]. set (s2 := set_subs s1 _).
    assert (G2 : sget (st_subs s2) (ADev Slat) = Some (set_cd (dev_sub Slat d) x2 x1)).
    { unfold s2, s1. simpl. rewrite sget_sset_other by congruence. apply sget_sset_same. }
    rewrite (upd_sub_ok _ _ _ _ G2).
    eexists. split; [reflexivity|]. split; [reflexivity|].
    unfold form. simpl. split; [|split; [|split]].
    + rewrite sget_sset_other by congruence. rewrite sget_sset_same. reflexivity.
    + rewrite sget_sset_same. reflexivity.
    + rewrite !sget_sset_other by congruence. exact Ff.
    + apply sset_NoDup, sset_NoDup, sset_NoDup. exact Fn.
  - rewrite (upd_sub_ok _ _ _ _ Ff). cbn [then_]. set (s1 := set_subs s _).
    assert (G1 : sget (st_subs s1) ASegment = Some (main_sub os (Some d))).
    { unfold s1. simpl. rewrite sget_sset_other by congruence. exact Fm. }
    rewrite (upd_sub_ok _ _ _ _ G1). cbn [then_]. set (s2 := set_subs s1 _).
    assert (G2 : sget (st_subs s2) (ADev Flap) = Some (set_ab (dev_sub Flap d) x1 x2)).
    { unfold s2, s1. simpl. rewrite sget_sset_other by congruence. apply sget_sset_same. }
    rewrite (upd_sub_ok _ _ _ _ G2).
    eexists. split; [reflexivity|]. split; [reflexivity|].
    unfold form. simpl. split; [|split; [|split]].
    + rewrite sget_sset_other by congruence. rewrite sget_sset_same. reflexivity.
    + rewrite !sget_sset_other by congruence. exact Fs.
    + rewrite sget_sset_same. reflexivity.
    + apply sset_NoDup, sset_NoDup, sset_NoDup. exact Fn.
Qed.

(** ** Validity of the lines *)

Definition dev_ok (k : dkind) (d : dev) : Prop :=
  ct_type (dv_c d) = Some k /\
  (0 < dv_x1 d /\ dv_x1 d < 1) /\ (0 < dv_x2 d /\ dv_x2 d < 1) /\
  (0 <= dv_h1 d /\ dv_h1 d <= 1) /\ (0 <= dv_h2 d /\ dv_h2 d <= 1).

Definition lines_ok (os of : option dev) : Prop :=
  (forall d, os = Some d -> dev_ok Slat d) /\
  (forall d, of = Some d -> dev_ok Flap d) /\
  (forall d e, os = Some d -> of = Some e ->
     dv_x1 d + (1#100) <= dv_x1 e /\ dv_x2 d + (1#100) <= dv_x2 e).

(** The chordwise invariant of a strip. *)
Definition chord_inv (s : strip) : Prop := exists os of, form s os of /\ lines_ok os of.

Lemma lines_ok_set os of k c x1 x2 h1 h2 :
  lines_ok os of -> ct_type c = Some k -> acceptable os of k x1 x2 h1 h2 ->
  lines_ok (fst (set_dev k (mkDev c x1 x2 h1 h2) os of))
           (snd (set_dev k (mkDev c x1 x2 h1 h2) os of)).
Proof.
  intros (L1 & L2 & L3) Tk (An & Ax1 & Ax2 & Ah1 & Ah2 & Ao).
  destruct k; simpl; split; [|split| |split].
  - intros d E; injection E as <-; unfold dev_ok; simpl; auto.
  - exact L2.
  - intros d e E F; injection E as <-; simpl; apply Ao; exact F.
  - exact L1.
  - intros d E; injection E as <-; unfold dev_ok; simpl; auto.
  - intros d e E F; injection F as <-; simpl; apply Ao; exact E.
Qed.

Lemma chord_inv_new a b c d : chord_inv (new_strip a b c d).
Proof.
  exists None, None. split.
  - unfold form. simpl. repeat split; auto. constructor; [intros []|constructor].
  - repeat split; intros; discriminate.
Qed.

Lemma add_subarea_chord_inv s c x1 x2 o1 o2 :
  chord_inv s -> chord_inv (fst (add_subarea s c x1 x2 o1 o2)).
Proof.
  intros (os & of & F & L).
  destruct (ct_type c) as [k|] eqn:Tk.
  - destruct (acceptable_dec os of k x1 x2 (match o1 with Some h => h | None => x1 end)
                (match o2 with Some h => h | None => x2 end)) as [A|A].
    + destruct (add_subarea_accepts s os of c k x1 x2 o1 o2 _ _ F Tk eq_refl eq_refl A)
        as (s' & E & _ & F').
      rewrite E. simpl. eexists; eexists; split; [exact F'|]. apply lines_ok_set; auto.
    + rewrite (add_subarea_rejects s os of c x1 x2 o1 o2 _ _ F eq_refl eq_refl);
        [exists os, of; auto|]. intros k' E. congruence.
  - rewrite (add_subarea_rejects s os of c x1 x2 o1 o2 _ _ F eq_refl eq_refl);
      [exists os, of; auto|]. intros k' E. congruence.
Qed.

(** ** From the invariant to the specification *)

Lemma form_perm s os of : form s os of ->
  Permutation (st_subs s)
    (map (fun d => (ADev Slat, dev_sub Slat d)) (opt_list os) ++ [(ASegment, main_sub os of)] ++
     map (fun d => (ADev Flap, dev_sub Flap d)) (opt_list of)).
Proof.
  intros (Fm & Fs & Ff & Fn). apply NoDup_Permutation.
  - eapply NoDup_map_inv. exact Fn.
  - destruct os, of; simpl; repeat constructor; simpl; intuition congruence.
  - intros [k v]. rewrite !in_app_iff. split.
    + intro I. apply In_sget in I; [|exact Fn]. destruct k as [|[|]].
      * right; left. left. congruence.
      * left. rewrite Fs in I. destruct os; [|discriminate]. left. simpl in *. congruence.
      * right; right. rewrite Ff in I. destruct of; [|discriminate]. left. simpl in *. congruence.
    + intro I. apply sget_In. destruct I as [I|[I|I]].
      * destruct os; [|destruct I]. destruct I as [I|[]]. injection I as <- <-. exact Fs.
      * destruct I as [I|[]]. injection I as <- <-. exact Fm.
      * destruct of; [|destruct I]. destruct I as [I|[]]. injection I as <- <-. exact Ff.
Qed.

Lemma form_tiles s os of : form s os of -> lines_ok os of -> tiles_chord s.
Proof.
  intros (Fm & Fs & Ff & Fn) (L1 & L2 & L3).
  exists (option_map (dev_sub Slat) os), (option_map (dev_sub Flap) of), (main_sub os of).
  assert (Hall : forall k v, In (k, v) (st_subs s) ->
      (k = ASegment /\ v = main_sub os of) \/
      (k = ADev Slat /\ option_map (dev_sub Slat) os = Some v) \/
      (k = ADev Flap /\ option_map (dev_sub Flap) of = Some v)).
  { intros k v I. apply In_sget in I; [|exact Fn].
    destruct k as [|[|]]; [left|right; left|right; right]; split; auto; congruence. }
  split.
  { intros k v I. apply Hall in I. destruct I as [[-> ->]|[[-> E]|[-> E]]]; [reflexivity| |].
    - destruct os; simpl in E; [injection E as <-; reflexivity|discriminate].
    - destruct of; simpl in E; [injection E as <-; reflexivity|discriminate]. }
  split; [eapply Permutation_trans; [apply Permutation_map; exact (form_perm _ _ _ (conj Fm (conj Fs (conj Ff Fn))))|]|].
  { destruct os, of; apply Permutation_refl. }
  split; [reflexivity|].
  split. { intros v E. destruct os; simpl in E; [injection E as <-; reflexivity|discriminate]. }
  split. { intros v E. destruct of; simpl in E; [injection E as <-; reflexivity|discriminate]. }
  destruct os as [d|], of as [e|]; simpl;
    try (pose proof (L1 d eq_refl) as Ld; destruct Ld as (_ & Ld1 & Ld2 & _));
    try (pose proof (L2 e eq_refl) as Le; destruct Le as (_ & Le1 & Le2 & _));
    try (pose proof (L3 d e eq_refl eq_refl) as [G1 G2]);
    (split; repeat (split; [lra|]); lra).
Qed.

Definition Qsum (l : list Q) : Q := fold_right Qplus 0 l.

Lemma Qsum_app l1 l2 : Qsum (l1 ++ l2) == Qsum l1 + Qsum l2.
Proof. induction l1; simpl; [lra|]. rewrite IHl1. lra. Qed.

Lemma Qsum_perm l1 l2 : Permutation l1 l2 -> Qsum l1 == Qsum l2.
Proof. intro P. induction P; simpl; lra. Qed.

Lemma form_rel_lengths s os of : form s os of ->
  Qsum (map (fun kv => rel_length (snd kv)) (st_subs s)) == 1.
Proof.
  intro F. apply form_perm in F.
  rewrite (Qsum_perm _ _ (Permutation_map _ F)).
  destruct os, of; simpl; unfold rel_length; simpl; lra.
Qed.

(** ** Reading off devices *)

Lemma form_has_device s os of k c x1 x2 h1 h2 : form s os of ->
  (has_device s k c x1 x2 h1 h2 <-> dev_of k os of = Some (mkDev c x1 x2 h1 h2)).
Proof.
  intros (Fm & Fs & Ff & Fn). unfold has_device. split.
  - intros (v & I & C & H & X). apply In_sget in I; [|exact Fn].
    destruct k; simpl.
    + rewrite Fs in I. destruct os as [d|]; [|discriminate]. injection I as <-.
      simpl in *. destruct X. destruct d; simpl in *. congruence.
    + rewrite Ff in I. destruct of as [d|]; [|discriminate]. injection I as <-.
      simpl in *. destruct X. destruct d; simpl in *. congruence.
  - intro E. exists (dev_sub k (mkDev c x1 x2 h1 h2)). destruct k; simpl in E; subst; simpl in *.
    + split; [apply sget_In; exact Fs|]. auto.
    + split; [apply sget_In; exact Ff|]. auto.
Qed.

Lemma form_no_device s os of k : form s os of -> (no_device s k <-> dev_of k os of = None).
Proof.
  intros (Fm & Fs & Ff & Fn). unfold no_device. split.
  - intro H. destruct k; simpl.
    + destruct os as [d|]; [|reflexivity]. exfalso. eapply H. apply sget_In. exact Fs.
    + destruct of as [d|]; [|reflexivity]. exfalso. eapply H. apply sget_In. exact Ff.
  - intro E. destruct k; simpl in E; subst; apply sget_none; assumption.
Qed.

Lemma form_carries s os of c : form s os of ->
  (carries s c <-> exists k d, dev_of k os of = Some d /\ dv_c d = c).
Proof.
  intro F. pose proof F as (Fm & Fs & Ff & Fn). unfold carries. split.
  - intros (k & v & I & C). apply In_sget in I; [|exact Fn]. exists k. destruct k; simpl.
    + rewrite Fs in I. destruct os as [d|]; [|discriminate]. injection I as <-. exists d.
      split; [reflexivity|]. simpl in C. congruence.
    + rewrite Ff in I. destruct of as [d|]; [|discriminate]. injection I as <-. exists d.
      split; [reflexivity|]. simpl in C. congruence.
  - intros (k & d & E & <-). exists k, (dev_sub k d).
    destruct k; simpl in E; subst; (split; [apply sget_In; assumption|reflexivity]).
Qed.

Lemma dev_of_set k k' d os of :
  dev_of k' (fst (set_dev k d os of)) (snd (set_dev k d os of)) =
  if dkind_eqb k k' then Some d else dev_of k' os of.
Proof. destruct k, k'; reflexivity. Qed.

Lemma form_det s os of os' of' : form s os of -> form s os' of' -> os = os' /\ of = of'.
Proof.
  intros (_ & A & B & _) (_ & A' & B' & _).
  rewrite A in A'. rewrite B in B'.
  split.
  - destruct os as [[? ? ? ? ?]|], os' as [[? ? ? ? ?]|]; simpl in *; congruence.
  - destruct of as [[? ? ? ? ?]|], of' as [[? ? ? ? ?]|]; simpl in *; congruence.
Qed.
