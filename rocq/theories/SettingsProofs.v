(** Proofs about settings. *)
From Coq Require Import Ascii List String ZArith QArith Bool Lia Lqa.
From Verif Require Import PyBase PyFacts PyVal SettingsModel SettingsSpec.
Import ListNotations.
Open Scope string_scope.

(** ** Types and templates *)
Lemma instance1_iff v ty : is_instance1 v ty = true <-> of_type v ty.
Proof.
  split.
  - destruct ty, v; cbn; try discriminate; intros _; constructor.
  - intro H. destruct H; reflexivity.
Qed.
Lemma instance_iff v tys : is_instance v tys = true <-> exists ty, In (Some ty) tys /\ of_type v ty.
Proof.
  unfold is_instance. rewrite existsb_exists. split.
  - intros ([ty|] & I & H); [|discriminate]. exists ty. split; [exact I|apply instance1_iff; exact H].
  - intros (ty & I & H). exists (Some ty). split; [exact I|apply instance1_iff; exact H].
Qed.
Lemma has_none_iff tys : has_none tys = true <-> In None tys.
Proof.
  unfold has_none. rewrite existsb_exists. split.
  - intros ([ty|] & I & H); [discriminate|exact I].
  - intro I. exists None. auto.
Qed.
Lemma first_dict_iff tys : first_is_dict tys = true <-> exists rest, tys = Some TyDict :: rest.
Proof.
  split.
  - destruct tys as [|[[]|] tys]; try discriminate. eauto.
  - intros (rest & ->). reflexivity.
Qed.
Lemma getitem_iff v k x : getitem v k = Ok x <-> item v k x.
Proof.
  unfold item. destruct v; cbn; try (split; [discriminate|intros (? & ? & ?); discriminate]).
  destruct (dget d k) eqn:E; split.
  - intros [= <-]. eauto.
  - intros (d' & [= <-] & E'). congruence.
  - discriminate.
  - intros (d' & [= <-] & E'). congruence.
Qed.

Section TvalInd.
Variable P : tval -> Prop.
Hypothesis H0 : forall v, P (TPlain v).
Hypothesis H1 : forall t, Forall (fun e => P (fst (snd e))) t -> P (TNest t).
Fixpoint tval_nested (tv : tval) : P tv :=
  match tv with
  | TPlain v => H0 v
  | TNest t => H1 t ((fix go (t : template) : Forall (fun e => P (fst (snd e))) t :=
      match t with [] => Forall_nil _ | e :: t' => Forall_cons e (tval_nested (fst (snd e))) (go t') end) t)
  end.
End TvalInd.

Definition check_entry (v : pyval) (key : string) (value : tval) (dtype : list (option pytype)) : res unit :=
  let? _ := (if has_none dtype then Ok tt
             else let? x := getitem v key in if is_instance x dtype then Ok tt else Err TypeError) in
  if first_is_dict dtype then let? x := getitem v key in check_dict value x else Ok tt.

Lemma check_nil v : check_dict (TNest []) v = Ok tt.
Proof. reflexivity. Qed.
Lemma check_cons key value dtype t v : check_dict (TNest ((key, (value, dtype)) :: t)) v =
  let? _ := check_entry v key value dtype in check_dict (TNest t) v.
Proof.
  unfold check_entry. cbn [check_dict]. destruct (if has_none dtype then _ else _); cbn [bind]; [|reflexivity]. reflexivity.
Qed.

Lemma check_entry_iff v key value dtype :
  (forall x, check_dict value x = Ok tt <-> fits value x) ->
  check_entry v key value dtype = Ok tt <->
  (~ In None dtype -> exists x ty, item v key x /\ In (Some ty) dtype /\ of_type x ty) /\
  (forall rest, dtype = Some TyDict :: rest -> exists x, item v key x /\ fits value x).
Proof.
  intro IH. unfold check_entry. assert (A : (if has_none dtype then Ok tt
             else let? x := getitem v key in if is_instance x dtype then Ok tt else Err TypeError) = Ok tt <->
     (~ In None dtype -> exists x ty, item v key x /\ In (Some ty) dtype /\ of_type x ty)).
  { destruct (has_none dtype) eqn:N.
    - apply has_none_iff in N. split; [tauto|reflexivity].
    - assert (N' : ~ In None dtype) by (intro I; apply has_none_iff in I; congruence).
      destruct (getitem v key) as [x|] eqn:G; cbn [bind].
      + apply getitem_iff in G. destruct (is_instance x dtype) eqn:I.
        * apply instance_iff in I. destruct I as (ty & I1 & I2). split; [eauto 6|reflexivity].
        * split; [discriminate|]. intro H. destruct (H N') as (x' & ty & G' & I1 & I2).
          apply getitem_iff in G, G'. rewrite G in G'. injection G' as <-.
          assert (is_instance x dtype = true) by (apply instance_iff; eauto). congruence.
      + split; [discriminate|]. intro H. destruct (H N') as (x' & ty & G' & _). apply getitem_iff in G'. congruence. }
  assert (B : (if first_is_dict dtype then let? x := getitem v key in check_dict value x else Ok tt) = Ok tt <->
     (forall rest, dtype = Some TyDict :: rest -> exists x, item v key x /\ fits value x)).
  { destruct (first_is_dict dtype) eqn:F.
    - apply first_dict_iff in F. destruct F as (rest & ->). destruct (getitem v key) as [x|] eqn:G; cbn [bind].
      + rewrite IH. apply getitem_iff in G. split; [eauto|]. intro H. destruct (H rest eq_refl) as (x' & G' & X).
        apply getitem_iff in G, G'. congruence.
      + split; [discriminate|]. intro H. destruct (H rest eq_refl) as (x' & G' & _). apply getitem_iff in G'. congruence.
    - split; [|reflexivity]. intros _ rest E. rewrite E in F. discriminate. }
  destruct (if has_none dtype then _ else _) as [[]|] eqn:E; cbn [bind].
  - rewrite B. intuition.
  - split; [discriminate|]. intros (X & _). apply A in X. discriminate.
Qed.

Lemma check_dict_iff tv : forall v, check_dict tv v = Ok tt <-> fits tv v.
Proof.
  induction tv as [p|t IH] using tval_nested; intro v.
  - split; [discriminate|]. intro F. inversion F.
  - induction IH as [|[key [value dtype]] t IHe IHt IH2].
    + split; [|reflexivity]. intros _. constructor. intros ? ? ? [].
    + rewrite check_cons. pose proof (check_entry_iff v key value dtype IHe) as CE.
      destruct (check_entry v key value dtype) as [[]|] eqn:E; cbn [bind].
      * rewrite IH2. assert (CE' := proj1 CE eq_refl). split; intro F; inversion F as [t0 v0 H]; subst; constructor; intros k vl dt I.
        -- destruct I as [I|I]; [injection I as <- <- <-; exact CE'|exact (H _ _ _ I)].
        -- apply H. right. exact I.
      * split; [discriminate|]. intro F. inversion F as [t0 v0 H]; subst.
        specialize (H key value dtype (or_introl eq_refl)). apply CE in H. discriminate.
Qed.

Lemma default_nest t : default_of (TNest t) = PDict (get_default_dict t).
Proof. cbn [default_of]. f_equal. induction t as [|[key [value dtype]] t IH]; [reflexivity|]. cbn [map fst snd]. rewrite IH. reflexivity. Qed.

Lemma dget_default t key value dtype : NoDup (map fst t) -> In (key, (value, dtype)) t ->
  dget (get_default_dict t) key = Some (default_of value).
Proof.
  intros N I. apply dget_In_NoDup.
  - unfold dkeys, get_default_dict. rewrite map_map. exact N.
  - unfold get_default_dict. apply (in_map (fun e => (fst e, default_of (fst (snd e))))) in I. exact I.
Qed.

Lemma default_fits tv : consistent tv -> fits tv (default_of tv).
Proof.
  induction tv as [p|t IH] using tval_nested; intro C; inversion C as [t0 N H]; subst.
  rewrite default_nest. constructor. intros key value dtype I. destruct (H key value dtype I) as (A & B).
  pose proof (dget_default t key value dtype N I) as G. split.
  - intro NN. destruct (A NN) as (ty & I1 & I2). exists (default_of value), ty. split; [exists (get_default_dict t); auto|]. split; [exact I1|].
    destruct value as [p|t']; [exact I2|]. subst ty. rewrite default_nest. constructor.
  - intros rest E. exists (default_of value). split; [exists (get_default_dict t); auto|].
    rewrite Forall_forall in IH. exact (IH _ I (B rest E)).
Qed.

(** ** The settings template *)
Lemma item_dict d k x : item (PDict d) k x <-> dget d k = Some x.
Proof. split; [intros (d' & [= <-] & E); exact E|intro E; exists d; auto]. Qed.

Lemma entry_plain s key value ty : ty <> TyDict ->
  check_entry (PDict s) key value [Some ty] = Ok tt <-> typed s key ty.
Proof.
  intro N. unfold check_entry, typed. cbn [has_none existsb orb]. destruct ty; try congruence; cbn [first_is_dict getitem];
  destruct (dget s key) as [x|]; cbn [bind];
  try (split; [discriminate|intros (? & ? & _); discriminate]);
  unfold is_instance; cbn [existsb]; rewrite orb_false_r;
  match goal with |- context [is_instance1 x ?t] => pose proof (instance1_iff x t) as I; destruct (is_instance1 x t) end; cbn [bind];
  (split; [intro H; first [discriminate|exists x; split; [reflexivity|apply I; reflexivity]]|
           intros (y & [= <-] & O); apply I in O; first [discriminate|reflexivity]]).
Qed.

Lemma entry_dict s key t (P : dict pyval -> Prop) :
  (forall e, check_dict (TNest t) (PDict e) = Ok tt <-> P e) ->
  check_entry (PDict s) key (TNest t) [Some TyDict] = Ok tt <-> sub s key P.
Proof.
  intro H. unfold check_entry, sub. cbn [has_none existsb orb first_is_dict getitem].
  destruct (dget s key) as [x|]; cbn [bind]; [|split; [discriminate|intros (? & ? & _); discriminate]].
  destruct x; unfold is_instance; cbn [existsb orb is_instance1 bind]; try (split; [discriminate|intros (? & ? & _); discriminate]).
  rewrite H. split; [eauto|]. intros (e & [= <-] & Pe). exact Pe.
Qed.
Lemma entry_none s key v tys : check_entry (PDict s) key (TPlain v) (None :: tys) = Ok tt.
Proof. reflexivity. Qed.

Lemma bind_ok {A} (x : res unit) (y : res A) z : (let? _ := x in y) = Ok z <-> x = Ok tt /\ y = Ok z.
Proof. destruct x as [[]|]; cbn [bind]; intuition discriminate. Qed.

Ltac plain := apply entry_plain; discriminate.

Lemma plot_options_iff e : check_dict (TNest PLOT_OPTIONS) (PDict e) = Ok tt <-> plot_options e.
Proof.
  unfold PLOT_OPTIONS, plot_options. rewrite !check_cons, check_nil, !bind_ok, !entry_plain by discriminate. tauto.
Qed.
Lemma plots_iff e : check_dict (TNest DEFAULT_PLOT_DICT) (PDict e) = Ok tt <->
  sub e "geometry" plot_options /\ sub e "lattice" plot_options /\ sub e "matrix_downwash" plot_options /\ sub e "results" plot_options.
Proof.
  unfold DEFAULT_PLOT_DICT. rewrite !check_cons, check_nil, !bind_ok, !(entry_dict _ _ _ _ plot_options_iff). tauto.
Qed.
Lemma saves_iff e : check_dict (TNest DEFAULT_SAVE_DICT) (PDict e) = Ok tt <->
  typed e "global" TyBool /\ typed e "panelwise" TyBool /\ typed e "aeroperformance" TyBool /\ typed e "matrix_system" TyBool.
Proof. unfold DEFAULT_SAVE_DICT. rewrite !check_cons, check_nil, !bind_ok, !entry_plain by discriminate. tauto. Qed.

Lemma check_settings_iff s : check_settings s = Ok tt <-> settings_ok s.
Proof.
  unfold check_settings, settings_ok. rewrite bind_ok. unfold DEFAULT_SETTINGS.
  rewrite !check_cons, check_nil, !bind_ok, entry_none, (entry_dict _ _ _ _ plots_iff), (entry_dict _ _ _ _ saves_iff), !entry_plain by discriminate.
  assert (E : typed s "_epsilon" TyFloat /\ match dget s "_epsilon" with
     | Some (PFlt (Some e)) => if Qltb 0 e && Qltb e 1 then Ok tt else Err ValueError
     | Some (PFlt None) => Err ValueError | Some _ => Err TypeError | None => Err KeyError end = Ok tt <->
     exists e, dget s "_epsilon" = Some (PFlt (Some e)) /\ (0 < e < 1)%Q).
  { destruct (dget s "_epsilon") as [x|] eqn:G; [|split; [intros (_ & H); discriminate|intros (e & H & _); discriminate]].
    destruct x as [| | |[q|]| | | |]; try (split; [intros (_ & H); discriminate|intros (e & H & _); discriminate]).
    destruct (Qltb 0 q) eqn:A; [|split; [intros (_ & H); discriminate|intros (e & [= <-] & H); apply Qltb_false in A; lra]].
    destruct (Qltb q 1) eqn:B; [|split; [intros (_ & H); discriminate|intros (e & [= <-] & H); apply Qltb_false in B; lra]].
    apply Qltb_true in A, B. split.
    - intros _. exists q. auto.
    - intros _. split; [|reflexivity]. exists (PFlt (Some q)). split; [exact G|constructor]. }
  rewrite <- E. tauto.
Qed.

(** ** Updates *)
Lemma truthy_iff v : truthy v = false <-> empty v.
Proof.
  destruct v as [|b|z|[q|]|s|s|l|d]; cbn.
  - tauto.
  - destruct b; intuition congruence.
  - destruct (Z.eqb_spec z 0); cbn; intuition congruence.
  - destruct (Qeqb q 0) eqn:E; cbn; [apply Qeqb_true in E|apply Qeqb_false in E]; intuition congruence.
  - intuition discriminate.
  - destruct (String.eqb_spec s ""); cbn; intuition congruence.
  - intuition discriminate.
  - destruct l; intuition discriminate.
  - destruct d; intuition discriminate.
Qed.
Lemma truthy_not v : truthy v = true <-> ~ empty v.
Proof. rewrite <- truthy_iff. destruct (truthy v); intuition congruence. Qed.

(** Value of the settings before the option is filled in. *)
Definition merged (s d : dict pyval) (k : string) : option pyval :=
  match dget d k with Some v => Some v | None => dget s k end.

Lemma update_spec s d s' d' r : NoDup (dkeys d) -> update s d = (s', d', r) ->
  (r = Ok tt <-> settings_ok s') /\
  (forall k, k <> "plot" -> dget s' k = merged s d k) /\
  (forall p, merged s d "plot" = Some p ->
     exists p', dget s' "plot" = Some p' /\
       (forall k, k <> "results" -> forall x, item p' k x <-> item p k x) /\
       (forall q, item p "results" q -> exists q', item p' "results" q' /\
          (forall k, k <> "opt" -> forall x, item q' k x <-> item q k x) /\
          (forall o, item q "opt" o -> (empty o -> item q' "opt" (PList [PStr "cp"])) /\ (~ empty o -> item q' "opt" o)))).
Proof.
  intros N. unfold update. set (s1 := dupdate s d).
  assert (M : forall k, dget s1 k = merged s d k) by (intro k; unfold s1, merged; apply dget_dupdate; exact N).
  assert (NOPLOT : forall e, (let? plot := getitem (PDict s1) "plot" in
         let? results := getitem plot "results" in
         let? opt := getitem results "opt" in Ok (plot, results, opt)) = Err e -> ~ settings_ok s1).
  { intros e H (_ & _ & _ & _ & _ & (p & P1 & (_ & _ & _ & (q & Q1 & ((o & O1 & _) & _)))) & _).
    cbn [getitem] in H. rewrite P1 in H. cbn [bind getitem] in H. rewrite Q1 in H. cbn [bind getitem] in H. rewrite O1 in H. discriminate. }
  destruct (let? plot := getitem (PDict s1) "plot" in
         let? results := getitem plot "results" in
         let? opt := getitem results "opt" in Ok (plot, results, opt)) as [[[plot results] opt]|e] eqn:E.
  - destruct (getitem (PDict s1) "plot") as [p|] eqn:G1; [|discriminate]. cbn [bind] in E.
    destruct (getitem p "results") as [q|] eqn:G2; [|discriminate]. cbn [bind] in E.
    destruct (getitem q "opt") as [o|] eqn:G3; [|discriminate]. cbn [bind] in E. injection E as -> -> ->.
    apply getitem_iff in G1, G2, G3. apply (proj1 (item_dict _ _ _)) in G1. rename plot into p, results into q, opt into o.
    destruct (truthy o) eqn:T.
    + intros [= <- <- <-]. split; [apply check_settings_iff|]. split; [intros k _; apply M|].
      intros p0 Mp. rewrite <- M in Mp. exists p0. split; [exact Mp|]. split; [tauto|]. intros q0 Q0. exists q0. split; [exact Q0|]. split; [tauto|].
      intros o0 O0. split; [|intros _; exact O0]. intro Em. assert (p0 = p) by congruence. subst p0.
      apply getitem_iff in Q0, G2. assert (q0 = q) by congruence. subst q0. apply getitem_iff in O0, G3. assert (o0 = o) by congruence. subst o0.
      apply truthy_iff in Em. congruence.
    + intros [= <- <- <-]. split; [apply check_settings_iff|]. split; [intros k NK; rewrite dget_dset_other by exact NK; apply M|].
      intros p0 Mp. rewrite <- M in Mp. assert (p0 = p) by congruence. subst p0.
      destruct G2 as (dp & -> & D2), G3 as (dq & -> & D3). cbn [setitem]. rewrite dget_dset_same. eexists. split; [reflexivity|]. split.
      { intros k NK x. rewrite !item_dict, dget_dset_other by exact NK. tauto. }
      intros q0 Q0. apply item_dict in Q0. rewrite D2 in Q0. injection Q0 as <-. eexists. split; [apply item_dict, dget_dset_same|]. split.
      { intros k NK x. rewrite !item_dict, dget_dset_other by exact NK. tauto. }
      intros o0 O0. apply item_dict in O0. rewrite D3 in O0. injection O0 as <-. split; [intros _; apply item_dict, dget_dset_same|].
      intro NE. apply truthy_iff in T. tauto.
  - intros [= <- <- <-]. split; [split; [discriminate|intro O; elim (NOPLOT e eq_refl O)]|]. split; [intros k _; apply M|].
    intros p Mp. rewrite <- M in Mp. exists p. split; [exact Mp|]. split; [tauto|]. intros q Q. exists q. split; [exact Q|]. split; [tauto|].
    intros o O. exfalso. cbn [getitem] in E. rewrite Mp in E. cbn [bind] in E. apply getitem_iff in Q, O. rewrite Q in E. cbn [bind] in E. rewrite O in E. discriminate.
Qed.

(** The caller's dictionary. *)
Lemma update_caller s d s' d' r : NoDup (dkeys d) -> update s d = (s', d', r) ->
  dkeys d' = dkeys d /\ (forall k, k <> "plot" -> dget d' k = dget d k) /\
  (forall p, dget d "plot" = Some p -> dget d' "plot" = dget s' "plot") /\
  ((forall p q o, dget d "plot" = Some p -> item p "results" q -> item q "opt" o -> ~ empty o) -> d' = d).
Proof.
  intros N. unfold update. set (s1 := dupdate s d).
  assert (M : forall k, dget s1 k = match dget d k with Some v => Some v | None => dget s k end) by (intro k; apply dget_dupdate; exact N).
  destruct (let? plot := getitem (PDict s1) "plot" in
         let? results := getitem plot "results" in
         let? opt := getitem results "opt" in Ok (plot, results, opt)) as [[[p q] o]|e] eqn:E.
  - destruct (truthy o) eqn:T.
    + intros [= <- <- <-]. split; [reflexivity|]. split; [reflexivity|]. split; [|reflexivity]. intros p0 P0. rewrite M, P0. reflexivity.
    + destruct (getitem (PDict s1) "plot") as [p1|] eqn:G1; [|discriminate]. cbn [bind] in E.
      destruct (getitem p1 "results") as [q1|] eqn:G2; [|discriminate]. cbn [bind] in E.
      destruct (getitem q1 "opt") as [o1|] eqn:G3; [|discriminate]. cbn [bind] in E. injection E as -> -> ->.
      apply getitem_iff in G1, G2, G3. apply (proj1 (item_dict _ _ _)) in G1. rewrite M in G1. intros [= <- <- <-].
      unfold dmem. destruct (dget d "plot") as [p0|] eqn:D.
      * injection G1 as ->. split; [apply dset_keys_mem; congruence|]. split; [intros k NK; apply dget_dset_other; exact NK|].
        split; [intros _ _; rewrite !dget_dset_same; reflexivity|]. intro H. exfalso. apply truthy_iff in T. exact (H p q o eq_refl G2 G3 T).
      * split; [reflexivity|]. split; [reflexivity|]. split; [discriminate|reflexivity].
  - intros [= <- <- <-]. split; [reflexivity|]. split; [reflexivity|]. split; [|reflexivity]. intros p0 P0. rewrite M, P0. reflexivity.
Qed.

(** ** Cleaning *)
Lemma startswith_iff k : startswith "_" k = true <-> hidden k.
Proof.
  unfold startswith, hidden. destruct k as [|c r]; [split; [discriminate|intros (r & [=])]|]. cbn [String.prefix].
  destruct (Ascii.ascii_dec "_"%char c) as [<-|NE].
  - replace (String.prefix "" r) with true by (destruct r; reflexivity). split; [eauto|reflexivity].
  - split; [discriminate|]. intros (r' & [= -> _]). congruence.
Qed.
Lemma startswith_false k : startswith "_" k = false <-> ~ hidden k.
Proof. rewrite <- startswith_iff. destruct (startswith "_" k); intuition congruence. Qed.

Lemma clean_nil : clean (PDict []) = PDict [].
Proof. reflexivity. Qed.
Fixpoint clean_list (d : dict pyval) : dict pyval :=
  match d with [] => [] | (k, x) :: d' => if startswith "_" k then clean_list d' else (k, clean x) :: clean_list d' end.
Lemma clean_dict_eq d : clean (PDict d) = PDict (clean_list d).
Proof. cbn [clean]. f_equal. Qed.
Lemma clean_dict_list d : clean_dict d = clean_list d.
Proof. unfold clean_dict. rewrite clean_dict_eq. reflexivity. Qed.
Lemma clean_plain v : ~ is_dict v -> clean v = v.
Proof. destruct v; try reflexivity. intro N. elim N. eexists. reflexivity. Qed.

Lemma dget_clean d k : dget (clean_list d) k = if startswith "_" k then None else option_map clean (dget d k).
Proof.
  induction d as [|[k' x] d IH]; [cbn; destruct (startswith "_" k); reflexivity|]. cbn [clean_list dget].
  destruct (String.eqb_spec k k') as [->|NE].
  - destruct (startswith "_" k') eqn:S; [rewrite IH; reflexivity|]. cbn [dget]. rewrite String.eqb_refl. reflexivity.
  - destruct (startswith "_" k'); [exact IH|]. cbn [dget]. apply String.eqb_neq in NE. rewrite NE. exact IH.
Qed.
Lemma dkeys_clean d : dkeys (clean_list d) = filter (fun k => negb (startswith "_" k)) (dkeys d).
Proof.
  induction d as [|[k x] d IH]; [reflexivity|]. cbn [clean_list dkeys map fst filter]. destruct (startswith "_" k); cbn [negb]; [exact IH|].
  cbn. f_equal. exact IH.
Qed.

Lemma clean_is_dict v : is_dict (clean v) <-> is_dict v.
Proof. destruct v; cbn; try tauto. split; intros _; eexists; reflexivity. Qed.

Lemma item_clean v k y : item (clean v) k y <-> exists x, item v k x /\ ~ hidden k /\ y = clean x.
Proof.
  destruct v; try (cbn [clean]; split; [intros (d0 & E & _); discriminate|intros (x0 & (d0 & E & _) & _); discriminate]).
  rewrite clean_dict_eq, item_dict, dget_clean. destruct (startswith "_" k) eqn:S.
  - apply startswith_iff in S. split; [discriminate|]. intros (x & _ & N & _). tauto.
  - apply startswith_false in S. split.
    + destruct (dget d k) as [x|] eqn:E; [|discriminate]. intros [= <-]. exists x. split; [apply item_dict; exact E|auto].
    + intros (x & I & _ & ->). apply item_dict in I. rewrite I. reflexivity.
Qed.

Lemma path_clean path : forall v x, ~ is_dict x ->
  (at_path (clean v) path x <-> at_path v path x /\ Forall (fun k => ~ hidden k) path).
Proof.
  induction path as [|k path IH]; intros v x N; cbn [at_path].
  - split.
    + intro E. split; [|constructor]. rewrite <- E in N. rewrite clean_is_dict in N. rewrite clean_plain in E by exact N. exact E.
    + intros (-> & _). apply clean_plain. exact N.
  - split.
    + intros (y & I & A). apply item_clean in I. destruct I as (z & I & NH & ->). apply (IH z x N) in A. destruct A as (A & F). split; [eauto|constructor; assumption].
    + intros ((y & I & A) & F). inversion F as [|? ? F1 F2]; subst. exists (clean y). split; [apply item_clean; eauto|]. apply IH; auto.
Qed.
Lemma path_clean_dict path : forall v d, at_path v path (PDict d) -> Forall (fun k => ~ hidden k) path ->
  exists d', at_path (clean v) path (PDict d') /\ dkeys d' = filter (fun k => negb (startswith "_" k)) (dkeys d).
Proof.
  induction path as [|k path IH]; intros v d; cbn [at_path].
  - intros -> _. exists (clean_list d). split; [apply clean_dict_eq|apply dkeys_clean].
  - intros (y & I & A) F. inversion F as [|? ? F1 F2]; subst. destruct (IH y d A F2) as (d' & A' & K). exists d'. split; [|exact K].
    exists (clean y). split; [apply item_clean; eauto|exact A'].
Qed.

Lemma clean_idem v : clean (clean v) = clean v.
Proof.
  induction v using pyval_rect_nested; try reflexivity. rewrite clean_dict_eq. rewrite clean_dict_eq. f_equal.
  induction H as [|[k x] d Hx H IH]; [reflexivity|]. cbn [clean_list]. destruct (startswith "_" k) eqn:S; [exact IH|].
  cbn [clean_list]. rewrite S. cbn in Hx. rewrite Hx, IH. reflexivity.
Qed.

(** ** JSON *)
Lemma jsonable_iff v : jsonable v = true <-> json v.
Proof.
  induction v as [| | | | | |l H|d H] using pyval_rect_nested; try (split; [constructor|reflexivity]).
  - split; [discriminate|intro J; inversion J].
  - assert (E : jsonable (PList l) = forallb jsonable l) by (cbn [jsonable]; induction l as [|x l IH]; [reflexivity|cbn [forallb]; inversion H; subst; rewrite <- IH by assumption; reflexivity]).
    rewrite E, forallb_forall. rewrite Forall_forall in H. split.
    + intro F. constructor. intros x I. apply (H x I), F, I.
    + intro J. inversion J as [| | | | |l' F|]; subst. intros x I. apply (H x I), F, I.
  - assert (E : jsonable (PDict d) = forallb (fun kx => jsonable (snd kx)) d) by (cbn [jsonable]; induction d as [|x d IH]; [reflexivity|cbn [forallb]; inversion H; subst; rewrite <- IH by assumption; reflexivity]).
    rewrite E, forallb_forall. rewrite Forall_forall in H. split.
    + intro F. constructor. intros k x I. apply (H _ I), (F _ I).
    + intro J. inversion J as [| | | | | |d' F]; subst. intros [k x] I. apply (H _ I), (F k x I).
Qed.

(** ** Save and load *)
Lemma typed_clean s k ty : ~ hidden k -> typed s k ty -> typed (clean_list s) k ty.
Proof.
  intros NH (x & E & T). exists (clean x). rewrite dget_clean, E. apply startswith_false in NH. rewrite NH. split; [reflexivity|].
  destruct T; constructor.
Qed.
Lemma sub_clean s k (P Q : dict pyval -> Prop) : ~ hidden k -> (forall e, P e -> Q (clean_list e)) -> sub s k P -> sub (clean_list s) k Q.
Proof.
  intros NH H (e & E & Pe). exists (clean_list e). rewrite dget_clean, E. apply startswith_false in NH. rewrite NH. cbn [option_map]. rewrite clean_dict_eq. auto.
Qed.
Lemma typed_eq s s' k ty : dget s' k = dget s k -> typed s k ty -> typed s' k ty.
Proof. intros E (x & G & T). exists x. rewrite E. auto. Qed.
Lemma sub_eq s s' k P : dget s' k = dget s k -> sub s k P -> sub s' k P.
Proof. intros E (x & G & T). exists x. rewrite E. auto. Qed.

Ltac pub := apply startswith_false; reflexivity.
Lemma plot_options_clean e : plot_options e -> plot_options (clean_list e).
Proof. intros (A & B & C). split; [apply typed_clean; [pub|exact A]|]. split; apply typed_clean; try pub; assumption. Qed.

Lemma reload s0 d0 s d0' : NoDup (dkeys s0) -> NoDup (dkeys d0) -> update s0 d0 = (s, d0', Ok tt) ->
  exists s', load (clean_list s) = (s', Ok tt) /\
    (forall k, ~ hidden k -> dget s k <> None -> dget s' k = dget (clean_list s) k) /\
    (forall k, hidden k -> dget s' k = dget new_settings k).
Proof.
  intros N0 ND U. destruct (update_spec _ _ _ _ _ ND U) as (OK & _). assert (SO : settings_ok s) by (apply OK; reflexivity). clear OK.
  assert (NS : NoDup (dkeys s)).
  { assert (X : forall (u e : dict pyval), NoDup (dkeys e) -> NoDup (dkeys (dupdate e u))).
    { unfold dupdate. induction u as [|[k x] u IH]; intros e N; [exact N|]. cbn [fold_left fst snd]. apply IH, dset_NoDup, N. }
    unfold update in U. destruct (let? plot := _ in _) as [[[p q] o]|]; [|injection U as <- _ _; apply X; exact N0].
    destruct (truthy o); injection U as <- _ _; [apply X; exact N0|apply dset_NoDup, X; exact N0]. }
  assert (NC : NoDup (dkeys (clean_list s))) by (rewrite dkeys_clean; apply NoDup_filter; exact NS).
  (* the option is not empty *)
  assert (OPT : exists p q o, dget s "plot" = Some (PDict p) /\ dget p "results" = Some (PDict q) /\ dget q "opt" = Some (PList o) /\ o <> []).
  { destruct SO as (_ & _ & _ & _ & _ & (p & P1 & (_ & _ & _ & (q & Q1 & ((o & O1 & O2) & _)))) & _). inversion O2 as [| | | | |l|]; subst. exists p, q, l. repeat (split; [assumption|]).
    intros ->. unfold update in U. destruct (let? plot := _ in _) as [[[p1 q1] o1]|] eqn:E; [|discriminate].
    destruct (getitem (PDict (dupdate s0 d0)) "plot") as [p2|] eqn:G1; [|discriminate]. cbn [bind] in E.
    destruct (getitem p2 "results") as [q2|] eqn:G2; [|discriminate]. cbn [bind] in E.
    destruct (getitem q2 "opt") as [o2|] eqn:G3; [|discriminate]. cbn [bind] in E. injection E as -> -> ->.
    destruct (truthy o1) eqn:T.
    - injection U as <- _ _. cbn [getitem] in G1. rewrite P1 in G1. injection G1 as <-. cbn [getitem] in G2. rewrite Q1 in G2. injection G2 as <-.
      cbn [getitem] in G3. rewrite O1 in G3. injection G3 as <-. discriminate.
    - injection U as <- _ _. rewrite dget_dset_same in P1. apply getitem_iff in G2, G3. destruct G2 as (dp & -> & _), G3 as (dq & -> & _).
      cbn [setitem] in P1. injection P1 as <-. rewrite dget_dset_same in Q1. injection Q1 as <-. rewrite dget_dset_same in O1. discriminate. }
  destruct OPT as (p & q & o & P1 & Q1 & O1 & NE).
  assert (M : forall k, dget (dupdate new_settings (clean_list s)) k = match dget (clean_list s) k with Some v => Some v | None => dget new_settings k end) by (intro k; apply dget_dupdate; exact NC).
  assert (CP : dget (clean_list s) "plot" = Some (PDict (clean_list p))) by (rewrite dget_clean, P1; cbn [option_map]; rewrite clean_dict_eq; reflexivity).
  assert (CQ : dget (clean_list p) "results" = Some (PDict (clean_list q))) by (rewrite dget_clean, Q1; cbn [option_map]; rewrite clean_dict_eq; reflexivity).
  assert (CO : dget (clean_list q) "opt" = Some (PList o)) by (rewrite dget_clean, O1; reflexivity).
  set (s' := dupdate new_settings (clean_list s)) in *.
  assert (PUB : forall k, ~ hidden k -> dget s k <> None -> dget s' k = dget (clean_list s) k).
  { intros k NH NN. rewrite M, dget_clean. apply startswith_false in NH. rewrite NH. destruct (dget s k); [reflexivity|congruence]. }
  assert (HID : forall k, hidden k -> dget s' k = dget new_settings k).
  { intros k H. rewrite M, dget_clean. apply startswith_iff in H. rewrite H. reflexivity. }
  exists s'. split; [|split; [exact PUB|exact HID]].
  unfold load, update. fold s'. cbn [getitem]. rewrite M, CP. cbn [bind getitem]. rewrite CQ. cbn [bind getitem]. rewrite CO. cbn [bind].
  assert (T : truthy (PList o) = true) by (destruct o; [congruence|reflexivity]). rewrite T. f_equal.
  apply check_settings_iff. destruct SO as (A1 & A2 & A3 & A4 & A5 & A6 & _).
  assert (TE : forall k ty, ~ hidden k -> typed s k ty -> typed s' k ty).
  { intros k ty NH T'. apply (typed_eq (clean_list s)); [apply PUB; [exact NH|]|apply typed_clean; assumption]. destruct T' as (x & E & _). congruence. }
  split; [apply TE; [pub|exact A1]|]. split; [apply TE; [pub|exact A2]|]. split; [apply TE; [pub|exact A3]|]. split; [apply TE; [pub|exact A4]|].
  split; [|split].
  - apply (sub_eq (clean_list s)); [apply PUB; [pub|]; destruct A5 as (e & E & _); congruence|]. refine (sub_clean _ _ _ _ _ _ A5); [pub|].
    intros e (B1 & B2 & B3 & B4). repeat split; apply typed_clean; try pub; assumption.
  - apply (sub_eq (clean_list s)); [apply PUB; [pub|]; congruence|]. refine (sub_clean _ _ _ _ _ _ A6); [pub|].
    intros e (B1 & B2 & B3 & B4). repeat split; (eapply sub_clean; [pub|exact plot_options_clean|assumption]).
  - split; [|split].
    + exists (PBool true). split; [apply HID; exists "do_normal_rotations"; reflexivity|constructor].
    + exists (PBool true). split; [apply HID; exists "deformation_check"; reflexivity|constructor].
    + exists (1 # 1000000)%Q. split; [apply HID; exists "epsilon"; reflexivity|]. split; reflexivity.
Qed.

Lemma saved_file s s' r : save s = (s', r) ->
  (forall path x, ~ is_dict x -> (at_path (PDict s') path x <-> at_path (PDict s) path x /\ Forall (fun k => ~ hidden k) path)) /\
  (forall path e, at_path (PDict s) path (PDict e) -> Forall (fun k => ~ hidden k) path ->
     exists e', at_path (PDict s') path (PDict e') /\ dkeys e' = filter (fun k => negb (String.prefix "_" k)) (dkeys e)) /\
  (json (PDict s') -> r = Ok (PDict s')) /\ (~ json (PDict s') -> r = Err TypeError) /\ save s' = (s', r).
Proof.
  unfold save. rewrite clean_dict_list. intros [= <- <-]. rewrite <- clean_dict_eq.
  split; [intros path x; apply path_clean|]. split; [intros path e; apply path_clean_dict|].
  rewrite clean_dict_eq. unfold dump. pose proof (jsonable_iff (PDict (clean_list s))) as J.
  split; [intro H; apply J in H; rewrite H; reflexivity|].
  split; [intro H; destruct (jsonable (PDict (clean_list s))); [elim H; apply J; reflexivity|reflexivity]|].
  rewrite clean_dict_list. assert (E : clean_list (clean_list s) = clean_list s).
  { pose proof (clean_idem (PDict s)) as I. rewrite !clean_dict_eq in I. injection I as I. exact I. }
  rewrite E. reflexivity.
Qed.

Lemma reload_saved s0 d0 d0' s : NoDup (dkeys s0) -> NoDup (dkeys d0) -> update s0 d0 = (s, d0', Ok tt) ->
  exists s', load (fst (save s)) = (s', Ok tt) /\
    (forall k, ~ hidden k -> dget s k <> None -> dget s' k = dget (fst (save s)) k) /\
    (forall k, hidden k -> dget s' k = dget new_settings k).
Proof.
  intros N0 N1 U. unfold save. cbn [fst]. rewrite clean_dict_list. exact (reload s0 d0 s d0' N0 N1 U).
Qed.

(** ** After plotting *)

Lemma plot_dir_step path s name p e : dget s "plot" = Some (PDict p) -> dget p name = Some (PDict e) ->
  exists p', dget (add_plot_dir path s name) "plot" = Some (PDict p') /\
    dget p' name = Some (PDict (dset e "plot_dir" (PPath path))) /\
    (forall n, n <> name -> dget p' n = dget p n) /\ (forall k, k <> "plot" -> dget (add_plot_dir path s name) k = dget s k).
Proof.
  intros P E. unfold add_plot_dir. rewrite (proj2 (getitem_iff (PDict s) "plot" (PDict p))) by (apply item_dict; exact P).
  rewrite (proj2 (getitem_iff (PDict p) name (PDict e))) by (apply item_dict; exact E). cbn [setitem].
  eexists. split; [apply dget_dset_same|]. split; [apply dget_dset_same|].
  split; intros; apply dget_dset_other; assumption.
Qed.

Definition keeps (path : string) (o o' : option pyval) : Prop :=
  exists e, o = Some (PDict e) /\ o' = Some (PDict (dset e "plot_dir" (PPath path))).

Lemma after_plots_spec path s : settings_ok s ->
  exists p p', dget s "plot" = Some (PDict p) /\ dget (after_plots path s) "plot" = Some (PDict p') /\
    (forall n, In n ["geometry"; "lattice"; "matrix_downwash"; "results"] -> keeps path (dget p n) (dget p' n)) /\
    (forall n, ~ In n ["geometry"; "lattice"; "matrix_downwash"; "results"] -> dget p' n = dget p n) /\
    (forall k, k <> "plot" -> dget (after_plots path s) k = dget s k).
Proof.
  intros (_ & _ & _ & _ & _ & (p & P & (eg & G & _) & (el & L & _) & (em & M & _) & (er & R & _)) & _).
  unfold after_plots. cbn [fold_left].
  destruct (plot_dir_step path s "matrix_downwash" p em P M) as (p1 & P1 & M1 & O1 & K1). set (s1 := add_plot_dir path s _) in *.
  destruct (plot_dir_step path s1 "geometry" p1 eg P1) as (p2 & P2 & G2 & O2 & K2); [rewrite O1 by discriminate; exact G|]. set (s2 := add_plot_dir path s1 _) in *.
  destruct (plot_dir_step path s2 "lattice" p2 el P2) as (p3 & P3 & L3 & O3 & K3); [rewrite O2, O1 by discriminate; exact L|]. set (s3 := add_plot_dir path s2 _) in *.
  destruct (plot_dir_step path s3 "results" p3 er P3) as (p4 & P4 & R4 & O4 & K4); [rewrite O3, O2, O1 by discriminate; exact R|].
  exists p, p4. split; [exact P|]. split; [exact P4|]. split; [|split].
  - intros n [<-|[<-|[<-|[<-|[]]]]].
    + exists eg. split; [exact G|]. rewrite O4, O3 by discriminate. exact G2.
    + exists el. split; [exact L|]. rewrite O4 by discriminate. exact L3.
    + exists em. split; [exact M|]. rewrite O4, O3, O2 by discriminate. exact M1.
    + exists er. split; [exact R|exact R4].
  - intros n N. cbn [In] in N. rewrite O4, O3, O2, O1 by (intros ->; tauto). reflexivity.
  - intros k K. rewrite K4, K3, K2, K1 by exact K. reflexivity.
Qed.

Lemma after_plots_save path s : settings_ok s ->
  snd (save (after_plots path s)) = Err TypeError /\
  (forall n, In n ["geometry"; "lattice"; "matrix_downwash"; "results"] ->
     at_path (PDict (after_plots path s)) ["plot"; n; "plot_dir"] (PPath path)) /\
  (forall path' x, ~ is_dict x -> ~ In "plot_dir" path' ->
     (at_path (PDict (after_plots path s)) path' x <-> at_path (PDict s) path' x)).
Proof.
  intro OK. destruct (after_plots_spec path s OK) as (p & p' & P & P' & KN & KO & KK).
  assert (AT : forall n, In n ["geometry"; "lattice"; "matrix_downwash"; "results"] ->
     at_path (PDict (after_plots path s)) ["plot"; n; "plot_dir"] (PPath path)).
  { intros n I. destruct (KN n I) as (e & _ & E). exists (PDict p'). split; [apply item_dict; exact P'|].
    eexists. split; [apply item_dict; exact E|]. exists (PPath path). split; [apply item_dict; apply dget_dset_same|reflexivity]. }
  split; [|split; [exact AT|]].
  - destruct (save (after_plots path s)) as [s' r] eqn:E. destruct (saved_file _ _ _ E) as (A & _ & _ & J & _). cbn [snd]. apply J. intro JS.
    assert (AP : at_path (PDict s') ["plot"; "geometry"; "plot_dir"] (PPath path)).
    { apply A; [intros [d D]; discriminate|]. split; [apply AT; left; reflexivity|].
      repeat constructor; intros [r' H]; discriminate. }
    destruct AP as (y & (d1 & E1 & D1) & y2 & (d2 & E2 & D2) & y3 & (d3 & E3 & D3) & E4). injection E1 as <-. cbn [at_path] in E4. subst.
    apply dget_In in D1, D2, D3. inversion JS as [| | | | | |d HD]; subst. specialize (HD _ _ D1).
    inversion HD as [| | | | | |d HD2]; subst. specialize (HD2 _ _ D2). inversion HD2 as [| | | | | |d HD3]; subst. specialize (HD3 _ _ D3). inversion HD3.
  - intros path' x ND NL.
    assert (IT : forall k y, item (PDict (after_plots path s)) k y <-> (k <> "plot" /\ dget s k = Some y) \/ (k = "plot" /\ y = PDict p')).
    { intros k y. rewrite item_dict. destruct (String.eqb_spec k "plot") as [->|N].
      - rewrite P'. split; [intro H; injection H as <-; right; auto|intros [[C _]|[_ ->]]; [congruence|reflexivity]].
      - rewrite KK by exact N. split; [intro H; left; auto|intros [[_ H]|[C _]]; [exact H|congruence]]. }
    destruct path' as [|k1 [|k2 [|k3 rest]]].
    + cbn. split; intros <-; exfalso; apply ND; eexists; reflexivity.
    + cbn [at_path]. setoid_rewrite IT. setoid_rewrite item_dict. split.
      * intros (y & [[N H]|[-> ->]] & <-); [exists y; auto|exfalso; apply ND; eexists; reflexivity].
      * intros (y & H & <-). destruct (String.eqb_spec k1 "plot") as [->|N]; [rewrite P in H; injection H as <-; exfalso; apply ND; eexists; reflexivity|].
        exists y. auto.
    + cbn [at_path]. setoid_rewrite IT. split.
      * intros (y & [[N H]|[-> ->]] & z & Z & <-).
        { exists y. split; [apply item_dict; exact H|exists z; auto]. }
        { apply item_dict in Z. exists (PDict p). split; [apply item_dict; exact P|]. exists z. split; [|reflexivity]. apply item_dict.
          rewrite <- KO; [exact Z|]. intro I. destruct (KN k2 I) as (e & _ & E). rewrite E in Z. injection Z as <-. apply ND. eexists; reflexivity. }
      * intros (y & Y & z & Z & <-). apply item_dict in Y. destruct (String.eqb_spec k1 "plot") as [->|N].
        { rewrite P in Y. injection Y as <-. apply item_dict in Z. exists (PDict p'). split; [right; auto|]. exists z. split; [|reflexivity].
          apply item_dict. rewrite KO; [exact Z|]. intro I. destruct (KN k2 I) as (e & E & _). rewrite E in Z. injection Z as <-. apply ND. eexists; reflexivity. }
        { exists y. split; [left; auto|]. exists z. auto. }
    + cbn [at_path]. setoid_rewrite IT. split.
      * intros (y & [[N H]|[-> ->]] & z & Z & u & U & V).
        { exists y. split; [apply item_dict; exact H|]. exists z. split; [exact Z|]. exists u. auto. }
        { apply item_dict in Z. exists (PDict p). split; [apply item_dict; exact P|].
          destruct (in_dec string_dec k2 ["geometry"; "lattice"; "matrix_downwash"; "results"]) as [I|I].
          - destruct (KN k2 I) as (e & E & E'). rewrite E' in Z. injection Z as <-. exists (PDict e). split; [apply item_dict; exact E|].
            apply item_dict in U. destruct (String.eqb_spec k3 "plot_dir") as [->|N3].
            + exfalso. apply NL. cbn. auto.
            + rewrite dget_dset_other in U by exact N3. exists u. split; [apply item_dict; exact U|exact V].
          - exists z. split; [apply item_dict; rewrite <- KO by exact I; exact Z|]. exists u. auto. }
      * intros (y & Y & z & Z & u & U & V). apply item_dict in Y. destruct (String.eqb_spec k1 "plot") as [->|N]; [|exists y; split; [left; auto|]; exists z; split; [exact Z|]; exists u; auto].
        rewrite P in Y. injection Y as <-. apply item_dict in Z. exists (PDict p'). split; [right; auto|].
        destruct (in_dec string_dec k2 ["geometry"; "lattice"; "matrix_downwash"; "results"]) as [I|I].
        { destruct (KN k2 I) as (e & E & E'). rewrite E in Z. injection Z as <-. eexists. split; [apply item_dict; exact E'|].
          apply item_dict in U. destruct (String.eqb_spec k3 "plot_dir") as [->|N3].
          - exfalso. apply NL. cbn. auto.
          - exists u. split; [apply item_dict; rewrite dget_dset_other by exact N3; exact U|exact V]. }
        { exists z. split; [apply item_dict; rewrite KO by exact I; exact Z|]. exists u. auto. }
Qed.

(** ** The defaults *)

Lemma path2 s k d n x : dget s k = Some (PDict d) -> at_path (PDict s) [k; n] x -> dget d n = Some x.
Proof. intros E (y & Y & z & Z & <-). apply item_dict in Y. rewrite E in Y. injection Y as <-. apply item_dict in Z. exact Z. Qed.

Lemma path3 s k d n o x : dget s k = Some (PDict d) -> at_path (PDict s) [k; n; o] x -> exists e, dget d n = Some (PDict e) /\ dget e o = Some x.
Proof.
  intros E (y & Y & z & Z & u & U & <-). apply item_dict in Y. rewrite E in Y. injection Y as <-. apply item_dict in Z.
  destruct U as (e & -> & U). exists e. auto.
Qed.

Lemma quiet a b s : load [("aircraft", PStr a); ("state", PStr b)] = (s, Ok tt) ->
  (forall n x, at_path (PDict s) ["save_results"; n] x -> x = PBool false) /\
  (forall n o x, at_path (PDict s) ["plot"; n; o] x -> o <> "opt" -> x = PBool false) /\
  (forall n o x, at_path (PDict s) ["plot"; n; o] x -> In n ["geometry"; "lattice"; "matrix_downwash"; "results"] /\ In o ["opt"; "show"; "save"]) /\
  dget s "deformation" = Some PNone /\ dget s "_do_normal_rotations" = Some (PBool true) /\ dget s "_deformation_check" = Some (PBool true).
Proof.
  intro H. assert (E : s = fst (load [("aircraft", PStr a); ("state", PStr b)])) by (rewrite H; reflexivity).
  vm_compute in E. clear H.
  assert (PL : exists p, dget s "plot" = Some (PDict p) /\ forall n e o x, dget p n = Some (PDict e) -> dget e o = Some x ->
    In n ["geometry"; "lattice"; "matrix_downwash"; "results"] /\ In o ["opt"; "show"; "save"] /\ (o <> "opt" -> x = PBool false)).
  { eexists. split; [subst s; reflexivity|]. intros n e o x D O. apply dget_In in D, O. cbn [In] in *.
    destruct D as [D|[D|[D|[D|[]]]]]; injection D as <- <-; cbn [In] in O; destruct O as [O|[O|[O|[]]]]; injection O as <- <-;
      (split; [auto|]); (split; [auto|]); intro N; try reflexivity; exfalso; apply N; reflexivity. }
  destruct PL as (p & P & PL). split; [|split; [|split]].
  - intros n x A. eapply path2 in A; [|subst s; reflexivity]. apply dget_In in A. cbn [In] in A.
    destruct A as [A|[A|[A|[A|[]]]]]; injection A as <- <-; reflexivity.
  - intros n o x A. destruct (path3 _ _ _ _ _ _ P A) as (e & E1 & E2). apply (PL n e o x E1 E2).
  - intros n o x A. destruct (path3 _ _ _ _ _ _ P A) as (e & E1 & E2). destruct (PL n e o x E1 E2) as (I & J & _). auto.
  - subst s. repeat split.
Qed.
