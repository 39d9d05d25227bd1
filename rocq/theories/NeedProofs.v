(** Proofs about what the compiled functions check. *)
From Coq Require Import List ZArith String Bool Lia.
From Verif Require Import RefModel RefSpec NeedSpec.
Import ListNotations.
Open Scope list_scope.
Open Scope Z_scope.

Lemma lookup_in s o n v : lookup s o n = Some v -> In (o, n, v) s.
Proof.
  induction s as [|[[o' n'] v'] s IH]; [discriminate|]. cbn [lookup]. destruct ((o' =? o) && String.eqb n' n)%bool eqn:E.
  - intros X. injection X as ->. apply andb_true_iff in E. destruct E as [E1 E2]. apply Z.eqb_eq in E1. apply String.eqb_eq in E2. subst. left. reflexivity.
  - intros X. right. exact (IH X).
Qed.
Lemma lookup_keys s s' o n : map fst s = map fst s' -> (lookup s o n = None <-> lookup s' o n = None).
Proof.
  revert s'. induction s as [|[[o1 n1] v1] s IH]; intros [|[[o2 n2] v2] s'] H; try discriminate H; [reflexivity|].
  cbn [map fst] in H. injection H as <- <- H. cbn [lookup]. destruct ((o1 =? o) && String.eqb n1 n)%bool; [split; discriminate|exact (IH s' H)].
Qed.
Lemma replace_keys s o n v x : lookup s o n = Some x -> map fst (replace s o n v) = map fst s.
Proof.
  induction s as [|[[o' n'] v'] s IH]; [discriminate|]. cbn [lookup replace]. destruct ((o' =? o) && String.eqb n' n)%bool eqn:E.
  - intros _. apply andb_true_iff in E. destruct E as [E1 E2]. apply Z.eqb_eq in E1. apply String.eqb_eq in E2. subst. reflexivity.
  - intros X. cbn [map fst]. rewrite (IH X). reflexivity.
Qed.
Definition kinds (l : list (kind * Z)) : list kind := map fst l.
Lemma add_count_kinds l o d : kinds (add_count l o d) = kinds l.
Proof.
  unfold add_count. destruct (nth_error l (Z.to_nat o)) as [[k c]|] eqn:E; [|reflexivity].
  apply nth_error_split in E. destruct E as (a & b & -> & L). rewrite <- L. rewrite firstn_app, Nat.sub_diag, firstn_all, skipn_app, skipn_all2 by lia.
  replace (S (List.length a) - List.length a)%nat with 1%nat by lia. cbn [firstn skipn app]. rewrite app_nil_r. unfold kinds. rewrite !map_app. reflexivity.
Qed.
Lemma kind_kinds w o : kind_of w o = nth (Z.to_nat o) (kinds (objs w)) KOther.
Proof.
  unfold kind_of, kinds. generalize (Z.to_nat o). generalize (objs w). induction l as [|[k c] l IH]; intros [|n]; cbn; try reflexivity. apply IH.
Qed.

Section Call.
Variable w0 : pyworld.
Hypothesis C0 : closed w0.
(** Objects keep their kind; new ones come last. *)
Definition grown (w : pyworld) : Prop := attrs w = attrs w0 /\ exists l, kinds (objs w) = kinds (objs w0) ++ l.
(** While reading, dictionaries stay as they are; while writing, entries get new values. *)
Definition reading (w : pyworld) : Prop := grown w /\ items w = items w0.
Definition writing (w : pyworld) : Prop := grown w /\ entries w = entries w0.
Lemma grown_kind w o : grown w -> exists_in w0 o -> kind_of w o = kind_of w0 o.
Proof.
  intros [_ (l & E)] X. rewrite !kind_kinds, E. apply app_nth1. unfold kinds. rewrite map_length. unfold exists_in in X. lia.
Qed.
Lemma reading_writing w : reading w -> writing w.
Proof. intros [G I]. split; [exact G|]. unfold entries. rewrite I. reflexivity. Qed.

(** [m] succeeds exactly if [P], with a value that satisfies [post], and never does anything undefined. *)
Definition judge (rel : pyworld -> Prop) {A} (m : M A) (P : Prop) (post : A -> Prop) : Prop :=
  forall w, rel w -> exists w' r, m w = (w', r) /\ rel w' /\ match r with inl x => P /\ post x | inr e => ~ P /\ e <> Undefined end.
Lemma judge_iff rel A (m : M A) P Q post : judge rel m P post -> (P <-> Q) -> judge rel m Q post.
Proof. intros H E w R. destruct (H w R) as (w' & [x|e] & M & R' & X); exists w'; eexists; (split; [exact M|]); (split; [exact R'|]); tauto. Qed.
Lemma judge_seq rel A B (m : M A) (f : A -> M B) P Q post post' : judge rel m P post -> (forall x, P -> post x -> judge rel (f x) Q post') ->
  judge rel (seqm m f) (P /\ Q) post'.
Proof.
  intros H F w R. destruct (H w R) as (w1 & [x|e] & M & R1 & X).
  - destruct X as [p px]. destruct (F x p px w1 R1) as (w2 & r & M2 & R2 & Y). exists w2, r. unfold seqm. rewrite M. split; [exact M2|]. split; [exact R2|]. destruct r; tauto.
  - exists w1, (inr e). unfold seqm. rewrite M. split; [reflexivity|]. split; [exact R1|]. tauto.
Qed.
Lemma judge_ret rel A (x : A) (post : A -> Prop) : post x -> judge rel (ret x) True post.
Proof. intros H w R. exists w, (inl x). repeat split; assumption. Qed.
Lemma judge_fail rel A e (post : A -> Prop) : e <> Undefined -> judge rel (fail e) False post.
Proof. intros H w R. exists w, (inr e). repeat split; auto. Qed.
Definition any {A} (_ : A) : Prop := True.

Definition keeps (rel : pyworld -> Prop) : Prop := (forall w, rel w -> grown w) /\
  (forall w w', rel w -> attrs w' = attrs w -> items w' = items w -> (exists l, kinds (objs w') = kinds (objs w) ++ l) -> rel w').
Lemma grown_trans w w' : grown w -> attrs w' = attrs w -> (exists l, kinds (objs w') = kinds (objs w) ++ l) -> grown w'.
Proof. intros [A (l & E)] A' (l' & E'). split; [congruence|]. exists (l ++ l'). rewrite E', E, app_assoc. reflexivity. Qed.
Lemma keeps_reading : keeps reading.
Proof. split; [intros w H; apply H|]. intros w w' [G I] A I' K. split; [exact (grown_trans w w' G A K)|congruence]. Qed.
Lemma keeps_writing : keeps writing.
Proof. split; [intros w H; apply H|]. intros w w' [G I] A I' K. split; [exact (grown_trans w w' G A K)|]. unfold entries in *. congruence. Qed.

Section Both.
Variable rel : pyworld -> Prop.
Hypothesis K : keeps rel.
Lemma judge_new k : judge rel (new_object k) True any.
Proof.
  intros w R. eexists _, (inl _). split; [reflexivity|]. split; [|split; exact I]. apply (proj2 K w); [exact R|reflexivity|reflexivity|]. exists [k]. cbn [objs]. unfold kinds. rewrite map_app. reflexivity.
Qed.
Lemma judge_get o n : judge rel (get_attr o n) (lookup (attrs w0) o n <> None) (fun v => lookup (attrs w0) o n = Some v).
Proof.
  intros w R. unfold get_attr. pose proof (proj1 K w R) as [A _]. rewrite A. destruct (lookup (attrs w0) o n) as [v|] eqn:E.
  - eexists _, (inl v). split; [reflexivity|]. split; [|split; [discriminate|reflexivity]]. apply (proj2 K w); [exact R|cbn [attrs]; congruence|reflexivity|]. exists []. cbn [objs]. rewrite add_count_kinds, app_nil_r. reflexivity.
  - exists w, (inr ERR_ATTRIBUTE). split; [reflexivity|]. split; [exact R|]. split; [tauto|discriminate].
Qed.
Lemma judge_has o n : judge rel (has_attr o n) True (fun b => b = match lookup (attrs w0) o n with Some _ => true | None => false end).
Proof. intros w R. eexists _, (inl _). split; [reflexivity|]. split; [exact R|]. split; [exact I|]. rewrite (proj1 (proj1 K w R)). reflexivity. Qed.
Lemma judge_check p o e : exists_in w0 o -> e <> Undefined -> judge rel (check p o e) (p (kind_of w0 o) = true) any.
Proof.
  intros X N w R. unfold check. rewrite (grown_kind w o (proj1 K w R) X). destruct (p (kind_of w0 o)) eqn:E.
  - exists w, (inl tt). repeat split; auto.
  - exists w, (inr e). split; [reflexivity|]. split; [exact R|]. split; [congruence|exact N].
Qed.
Lemma attr_exists o n v : lookup (attrs w0) o n = Some v -> exists_in w0 v.
Proof. intros H. apply lookup_in in H. exact (C0 _ (or_introl H)). Qed.
Lemma item_exists o n v : lookup (items w0) o n = Some v -> exists_in w0 v.
Proof. intros H. apply lookup_in in H. exact (C0 _ (or_intror H)). Qed.
Lemma judge_if A (b : bool) (m n : M A) P Q post : (b = true -> judge rel m P post) -> (b = false -> judge rel n Q post) ->
  judge rel (if b then m else n) (if b then P else Q) post.
Proof. destruct b; auto. Qed.

Lemma judge_dict_attr o n : judge rel (dict_attr o n) (lookup (attrs w0) o n <> None) (fun d => lookup (attrs w0) o n = Some d).
Proof.
  unfold dict_attr. apply (judge_iff _ _ _ (True /\ lookup (attrs w0) o n <> None)).
  - eapply judge_seq; [apply judge_has|]. intros b _ ->. destruct (lookup (attrs w0) o n) as [v|] eqn:E.
    + rewrite <- E. apply judge_get.
    + apply (judge_iff _ _ _ False); [apply judge_fail; discriminate|]. try rewrite E. tauto.
  - tauto.
Qed.
Lemma judge_array_attr o n : judge rel (array_attr o n) (exists v, lookup (attrs w0) o n = Some v /\ is_array (kind_of w0 v) = true) (fun v => lookup (attrs w0) o n = Some v).
Proof.
  unfold array_attr. apply (judge_iff _ _ _ (True /\ exists v, lookup (attrs w0) o n = Some v /\ is_array (kind_of w0 v) = true)).
  - eapply judge_seq; [apply judge_has|]. intros b _ ->. destruct (lookup (attrs w0) o n) as [v|] eqn:E.
    + apply (judge_iff _ _ _ (is_array (kind_of w0 v) = true)).
      * eapply judge_iff; [eapply judge_seq; [apply judge_get|]|]. 
        { intros t _ T. cbn beta in T. rewrite E in T. injection T as <-. eapply judge_seq; [apply judge_check; [exact (attr_exists o n v E)|discriminate]|]. intros _ _ _. rewrite <- E. apply judge_get. }
        try rewrite E. split; [tauto|]. intros H. repeat split; try discriminate; exact H.
      * try rewrite E. split; [intros H; exists v; auto|intros (u & U & H); congruence].
    + apply (judge_iff _ _ _ False); [apply judge_fail; discriminate|]. try rewrite E. split; [tauto|intros (u & U & _); discriminate].
  - tauto.
Qed.
Lemma judge_each A (f : A -> M Z) (P : A -> Prop) (post : A -> Z -> Prop) l : (forall x, In x l -> judge rel (f x) (P x) (post x)) ->
  judge rel (each f l) (Forall P l) (fun ys => Forall2 post l ys).
Proof.
  induction l as [|x l IH]; intros H.
  - apply (judge_iff _ _ _ True); [apply judge_ret; constructor|]. split; auto.
  - cbn [each]. eapply judge_iff; [eapply judge_seq; [apply H; left; reflexivity|]|].
    + intros y _ Y. eapply judge_seq; [apply IH; intros z Z; apply H; right; exact Z|]. intros ys _ YS. apply judge_ret. constructor; assumption.
    + rewrite Forall_cons_iff. tauto.
Qed.
Lemma judge_each_ A (f : A -> M unit) (P : A -> Prop) l : (forall x, In x l -> judge rel (f x) (P x) any) -> judge rel (each_ (map f l)) (Forall P l) any.
Proof.
  induction l as [|x l IH]; intros H.
  - apply (judge_iff _ _ _ True); [apply judge_ret; exact I|]. split; auto.
  - cbn [each_ map]. eapply judge_iff; [eapply judge_seq; [apply H; left; reflexivity|]|].
    + intros y _ Y. apply IH; intros z Z; apply H; right; exact Z.
    + rewrite Forall_cons_iff. tauto.
Qed.

(** ** Dictionaries *)
Lemma judge_contains d n : exists_in w0 d -> kind_of w0 d = KDict -> (forall w, rel w -> entries w = entries w0) ->
  judge rel (dict_contains d n) True (fun b => b = match lookup (items w0) d n with Some _ => true | None => false end).
Proof.
  intros X D E w R. unfold dict_contains. rewrite (grown_kind w d (proj1 K w R) X), D. eexists _, (inl _). split; [reflexivity|]. split; [exact R|]. split; [exact I|].
  pose proof (lookup_keys (items w) (items w0) d n (E w R)) as L. destruct (lookup (items w) d n), (lookup (items w0) d n); try reflexivity; exfalso; destruct L as [L1 L2]; [discriminate (L2 eq_refl)|discriminate (L1 eq_refl)].
Qed.
End Both.

Lemma judge_dict_value p d n : exists_in w0 d -> kind_of w0 d = KDict ->
  judge reading (dict_value p d n) (exists v, lookup (items w0) d n = Some v /\ p (kind_of w0 v) = true) (fun v => lookup (items w0) d n = Some v).
Proof.
  intros X D. unfold dict_value. apply (judge_iff _ _ _ (True /\ True /\ exists v, lookup (items w0) d n = Some v /\ p (kind_of w0 v) = true)); [|tauto].
  eapply judge_seq; [apply judge_new; exact keeps_reading|]. intros _ _ _.
  eapply judge_seq; [apply judge_contains; [exact keeps_reading|exact X|exact D|intros w W; apply reading_writing; exact W]|]. intros b _ ->.
  destruct (lookup (items w0) d n) as [v|] eqn:E.
  - apply (judge_iff _ _ _ (True /\ (p (kind_of w0 v) = true) /\ True)).
    + eapply judge_seq.
      * intros w R. exists w, (inl v). split; [unfold dict_get; rewrite (proj2 R), E; reflexivity|]. split; [exact R|]. split; [exact I|]. exact (eq_refl : (fun x => x = v) v).
      * intros x _ ->. eapply judge_seq; [apply judge_check; [exact keeps_reading|exact (item_exists d n v E)|discriminate]|]. intros _ _ _. apply judge_ret. reflexivity.
    + split; [intros H; exists v; tauto|intros (u & U & H); injection U as ->; tauto].
  - apply (judge_iff _ _ _ False); [apply judge_fail; discriminate|]. split; [tauto|intros (u & U & _); discriminate].
Qed.
Lemma judge_store d n : exists_in w0 d -> kind_of w0 d = KDict -> judge writing (store_value d n) (lookup (items w0) d n <> None) any.
Proof.
  intros X D. unfold store_value. apply (judge_iff _ _ _ (True /\ True /\ lookup (items w0) d n <> None)); [|tauto].
  eapply judge_seq; [apply judge_new; exact keeps_writing|]. intros _ _ _.
  eapply judge_seq; [apply judge_contains; [exact keeps_writing|exact X|exact D|intros w W; apply W]|]. intros b _ ->.
  destruct (lookup (items w0) d n) as [v|] eqn:E.
  - apply (judge_iff _ _ _ (True /\ True)); [|split; [discriminate|auto]].
    eapply judge_seq; [apply judge_new; exact keeps_writing|]. intros f _ _ w [G W]. eexists _, (inl tt). split; [reflexivity|]. split; [|split; exact I].
    assert (L : exists u, lookup (items w) d n = Some u).
    { destruct (lookup (items w) d n) as [u|] eqn:U; [exists u; reflexivity|]. apply (lookup_keys (items w) (items w0) d n W) in U. congruence. }
    destruct L as (u & L). split.
    + apply (grown_trans w); [exact G|reflexivity|]. exists []. cbn [objs]. rewrite L, !add_count_kinds, app_nil_r. reflexivity.
    + unfold entries in *. cbn [items]. rewrite (replace_keys _ _ _ _ u L). exact W.
  - apply (judge_iff _ _ _ False); [apply judge_fail; discriminate|]. tauto.
Qed.

(** ** Readers and writers *)
Lemma kind_eqb_eq a b : kind_eqb a b = true <-> b = a.
Proof. destruct a, b; cbn; split; congruence. Qed.
Lemma float_array_eq k : is_float_array k = true <-> k = KFloatArray.
Proof. destruct k; cbn; split; congruence. Qed.
(** Entries of one dictionary. *)
Lemma judge_entries p o a l : (forall d, lookup (attrs w0) o a = Some d -> kind_of w0 d = KDict) ->
  forall d, lookup (attrs w0) o a = Some d ->
  judge reading (each (dict_value p d) l) (Forall (fun n => exists v, lookup (items w0) d n = Some v /\ p (kind_of w0 v) = true) l) (fun vs => Forall2 (fun n v => lookup (items w0) d n = Some v) l vs).
Proof. intros D d E. apply (judge_each reading). intros n _. apply judge_dict_value; [exact (attr_exists o a d E)|exact (D d E)]. Qed.
Lemma judge_floats vs : Forall (exists_in w0) vs -> forall rel, keeps rel ->
  judge rel (each_ (map (fun a => check is_float_array a ERR_TYPE) vs)) (Forall (fun v => kind_of w0 v = KFloatArray) vs) any.
Proof.
  intros X rel K. eapply judge_iff; [apply (judge_each_ rel Z (fun a => check is_float_array a ERR_TYPE) (fun v => is_float_array (kind_of w0 v) = true))|].
  - intros v V. rewrite Forall_forall in X. apply judge_check; [exact K|exact (X v V)|discriminate].
  - rewrite !Forall_forall. split; intros H v V; apply float_array_eq; auto.
Qed.
Lemma values_kinds d l vs (q : Z -> Prop) : Forall2 (fun n v => lookup (items w0) d n = Some v) l vs ->
  (Forall q vs <-> Forall (fun n => exists v, lookup (items w0) d n = Some v /\ q v) l).
Proof.
  intros F. induction F as [|n v l vs E F IH]; [split; auto|]. rewrite !Forall_cons_iff, IH. split; intros [A B]; (split; [|exact B]); [exists v; auto|]. destruct A as (u & U & A). congruence.
Qed.
Lemma attrs_kinds o l vs (q : Z -> Prop) : Forall2 (fun n v => lookup (attrs w0) o n = Some v) l vs ->
  (Forall q vs <-> Forall (fun n => exists v, lookup (attrs w0) o n = Some v /\ q v) l).
Proof.
  intros F. induction F as [|n v l vs E F IH]; [split; auto|]. rewrite !Forall_cons_iff, IH. split; intros [A B]; (split; [|exact B]); [exists v; auto|]. destruct A as (u & U & A). congruence.
Qed.

Section Dict.
Variables (o : Z) (a : string).
Hypothesis D : forall d, lookup (attrs w0) o a = Some d -> kind_of w0 d = KDict.
Lemma entry_there d k n : lookup (attrs w0) o a = Some d -> (there w0 (Entry o a n (Some k)) <-> exists v, lookup (items w0) d n = Some v /\ kind_of w0 v = k).
Proof. intros E. cbn [there]. split; [intros (d' & v & E' & V & Y); assert (d' = d) by congruence; subst; exists v; auto|intros (v & V & Y); exists d, v; auto]. Qed.
Lemma entry_there_any d n : lookup (attrs w0) o a = Some d -> (there w0 (Entry o a n None) <-> lookup (items w0) d n <> None).
Proof.
  intros E. cbn [there]. split; [intros (d' & v & E' & V & _); assert (d' = d) by congruence; subst; congruence|].
  intros N. destruct (lookup (items w0) d n) as [v|] eqn:V; [exists d, v; auto|congruence].
Qed.
Lemma has_dict n l k : Forall (there w0) (map (fun n => Entry o a n k) (n :: l)) -> lookup (attrs w0) o a <> None.
Proof. intros F. inversion F as [|? ? T _]; subst. cbn [there] in T. destruct T as (d & v & E & _). congruence. Qed.
Lemma judge_typed k l d : lookup (attrs w0) o a = Some d -> judge reading (each (dict_value (kind_eqb k) d) l) (Forall (there w0) (map (fun n => Entry o a n (Some k)) l)) any.
Proof.
  intros E. intros w R. destruct (judge_entries (kind_eqb k) o a l D d E w R) as (w' & r & M & R' & X). exists w', r. split; [exact M|]. split; [exact R'|].
  assert (I : Forall (fun n => exists v, lookup (items w0) d n = Some v /\ kind_eqb k (kind_of w0 v) = true) l <-> Forall (there w0) (map (fun n => Entry o a n (Some k)) l)).
  { rewrite Forall_map, !Forall_forall. split; intros H n N.
    - apply (entry_there d k n E). destruct (H n N) as (v & V & Y). exists v. split; [exact V|]. apply kind_eqb_eq. exact Y.
    - destruct (proj1 (entry_there d k n E) (H n N)) as (v & V & Y). exists v. split; [exact V|]. apply kind_eqb_eq. exact Y. }
  destruct r; [split; [tauto|exact Logic.I]|tauto].
Qed.
Lemma judge_float_arrays l d : lookup (attrs w0) o a = Some d ->
  judge reading (seqm (each (dict_value is_array d) l) (fun vs => each_ (map (fun x => check is_float_array x ERR_TYPE) vs))) (Forall (there w0) (map (fun n => Entry o a n (Some KFloatArray)) l)) any.
Proof.
  intros E. assert (I : Forall (there w0) (map (fun n => Entry o a n (Some KFloatArray)) l) <-> Forall (fun n => exists v, lookup (items w0) d n = Some v /\ kind_of w0 v = KFloatArray) l).
  { rewrite Forall_map, !Forall_forall. split; intros H n N; apply (entry_there d KFloatArray n E); exact (H n N). }
  eapply judge_iff.
  - eapply judge_seq; [exact (judge_entries is_array o a l D d E)|]. intros vs _ V. cbn beta in V. eapply judge_iff; [apply judge_floats; [|exact keeps_reading]|].
    + clear - C0 V. induction V as [|n v l vs N V IH]; constructor; [exact (item_exists d n v N)|exact IH].
    + rewrite (values_kinds d l vs (fun v => kind_of w0 v = KFloatArray) V). symmetry. exact I.
  - split; [tauto|]. intros H. split; [|exact H]. apply I in H. eapply Forall_impl; [|exact H]. intros n (v & N & Y). exists v. split; [exact N|]. rewrite Y. reflexivity.
Qed.
Lemma judge_stores l d : lookup (attrs w0) o a = Some d -> judge writing (each_ (map (store_value d) l)) (Forall (there w0) (map (fun n => Entry o a n None) l)) any.
Proof.
  intros E. eapply judge_iff; [apply (judge_each_ writing string (store_value d) (fun n => lookup (items w0) d n <> None))|].
  - intros n _. apply judge_store; [exact (attr_exists o a d E)|exact (D d E)].
  - rewrite Forall_map, !Forall_forall. split; intros H n N; apply (entry_there_any d n E); exact (H n N).
Qed.
End Dict.

Section Perform.
Variables lattice state data : Z.
Hypothesis D : dictionaries lattice state data w0.
Lemma D_is x n : In (x, n) [(lattice, "info"); (state, "aero"); (state, "refs"); (data, "panelwise"); (data, "forces"); (data, "coeffs")]%string ->
  forall d, lookup (attrs w0) x n = Some d -> kind_of w0 d = KDict.
Proof. intros I d. exact (D x n d I). Qed.
Ltac dict := apply D_is; cbn; tauto.
Notation all l := (Forall (there w0) l).

Lemma judge_lattice : judge reading (get_latticestruct lattice)
  (all (map (fun n => Attribute lattice n KFloatArray) ["p"; "v"; "c"; "bound_leg_midpoints"; "n"; "a"]%string ++ [Attribute lattice "epsilon" KFloat])) any.
Proof.
  unfold get_latticestruct. fold lattice_arrays. set (l := lattice_arrays).
  apply (judge_iff _ _ _ (Forall (fun n => exists v, lookup (attrs w0) lattice n = Some v /\ is_array (kind_of w0 v) = true) l /\
    (True /\ (there w0 (Attribute lattice "epsilon" KFloat) /\ Forall (fun n => exists v, lookup (attrs w0) lattice n = Some v /\ kind_of w0 v = KFloatArray) l)))).
  - eapply judge_seq; [apply (judge_each reading string (array_attr lattice) _ (fun n v => lookup (attrs w0) lattice n = Some v)); intros n _; apply judge_array_attr; exact keeps_reading|].
    intros vs _ V. cbn beta in V. eapply judge_seq; [apply judge_has; exact keeps_reading|]. intros b _ ->. destruct (lookup (attrs w0) lattice "epsilon") as [e|] eqn:E.
    + apply (judge_iff _ _ _ (lookup (attrs w0) lattice "epsilon" <> None /\ kind_eqb KFloat (kind_of w0 e) = true /\ lookup (attrs w0) lattice "epsilon" <> None /\ Forall (fun v => kind_of w0 v = KFloatArray) vs)).
      * eapply judge_seq; [apply judge_get; exact keeps_reading|]. intros t _ T. cbn beta in T. assert (t = e) by congruence. subst t.
        eapply judge_seq; [apply judge_check; [exact keeps_reading|exact (attr_exists _ _ _ E)|discriminate]|]. intros _ _ _.
        eapply judge_seq; [apply judge_get; exact keeps_reading|]. intros _ _ _. apply judge_floats; [|exact keeps_reading].
        clear - C0 V. induction V as [|n v l vs N V IH]; constructor; [exact (attr_exists lattice n v N)|exact IH].
      * rewrite (attrs_kinds lattice l vs (fun v => kind_of w0 v = KFloatArray) V). cbn [there]. split.
        -- intros (_ & Y & _ & F). split; [exists e; split; [exact E|apply kind_eqb_eq; exact Y]|exact F].
        -- intros ((v & E' & Y) & F). assert (v = e) by congruence. subst v. split; [congruence|]. split; [apply kind_eqb_eq; exact Y|]. split; [congruence|exact F].
    + apply (judge_iff _ _ _ False); [apply judge_fail; discriminate|]. split; [tauto|]. intros ((v & E' & _) & _). congruence.
  - rewrite Forall_app, Forall_map. fold lattice_arrays. fold l. cbn [there]. split.
    + intros (_ & _ & X & F). split; [exact F|constructor; [exact X|constructor]].
    + intros (F & X). inversion X; subst. split; [|tauto]. eapply Forall_impl; [|exact F]. intros n (v & N & Y). exists v. split; [exact N|]. rewrite Y. reflexivity.
Qed.
Lemma judge_info : judge reading (get_infostruct lattice) (all (map (fun k => Entry lattice "info" k (Some KLong)) ["num_panels"; "num_segments"]%string)) any.
Proof.
  unfold get_infostruct. eapply judge_iff.
  - eapply judge_seq; [apply judge_dict_attr; exact keeps_reading|]. intros d _ E. cbn beta in E.
    eapply judge_seq; [apply (judge_typed lattice "info"); [dict|exact E]|]. intros _ _ _. apply judge_ret. exact I.
  - split; [tauto|]. intros H. split; [exact (has_dict _ _ _ _ _ H)|tauto].
Qed.
Lemma judge_state : judge reading (get_statestruct state) (all (of_state state)) any.
Proof.
  unfold get_statestruct. eapply judge_iff.
  - eapply judge_seq; [apply judge_dict_attr; exact keeps_reading|]. intros d _ E. cbn beta in E.
    eapply judge_seq; [apply (judge_typed state "aero"); [dict|exact E]|]. intros _ _ _. apply judge_ret. exact I.
  - unfold of_state, of_info. split; [tauto|]. intros H. split; [exact (has_dict _ _ _ _ _ H)|tauto].
Qed.
Lemma judge_refs : judge reading (get_refstruct state) (all (of_refs state)) any.
Proof.
  unfold get_refstruct. eapply judge_iff.
  - eapply judge_seq; [apply judge_dict_attr; exact keeps_reading|]. intros d _ E. cbn beta in E.
    eapply judge_seq; [apply (judge_typed state "refs"); [dict|exact E]|]. intros _ _ _. apply (judge_float_arrays state "refs"); [dict|exact E].
  - unfold of_refs. rewrite Forall_app. split; [tauto|]. intros [H1 H2]. split; [exact (has_dict _ _ _ _ _ H1)|tauto].
Qed.
Lemma judge_panels : judge reading (get_resultstruct data) (all (map (fun k => Entry data "panelwise" k (Some KFloatArray)) ["gamma"; "vx"; "vy"; "vz"; "vmag"; "fx"; "fy"; "fz"; "fmag"; "cp"]%string)) any.
Proof.
  unfold get_resultstruct. eapply judge_iff.
  - eapply judge_seq; [apply judge_dict_attr; exact keeps_reading|]. intros d _ E. cbn beta in E. apply (judge_float_arrays data "panelwise"); [dict|exact E].
  - split; [tauto|]. intros H. split; [exact (has_dict _ _ _ _ _ H)|exact H].
Qed.
Lemma judge_set_info : judge writing (set_infostruct lattice) (all (of_info lattice)) any.
Proof.
  unfold set_infostruct. eapply judge_iff.
  - eapply judge_seq; [apply judge_dict_attr; exact keeps_writing|]. intros d _ E. cbn beta in E. apply (judge_stores lattice "info"); [dict|exact E].
  - unfold of_state, of_info. split; [tauto|]. intros H. split; [exact (has_dict _ _ _ _ _ H)|exact H].
Qed.
Lemma judge_set_result : judge writing (set_resultstruct data)
  (all (map (fun k => Entry data "forces" k None) ["x"; "y"; "z"; "D"; "C"; "L"; "l"; "m"; "n"]%string ++ map (fun k => Entry data "coeffs" k None) ["x"; "y"; "z"; "D"; "C"; "L"; "l"; "m"; "n"]%string)) any.
Proof.
  unfold set_resultstruct. eapply judge_iff.
  - eapply judge_seq; [apply judge_dict_attr; exact keeps_writing|]. intros d _ E. cbn beta in E.
    eapply judge_seq; [apply (judge_stores data "forces"); [dict|exact E]|]. intros _ _ _.
    eapply judge_seq; [apply judge_dict_attr; exact keeps_writing|]. intros d' _ E'. cbn beta in E'. apply (judge_stores data "coeffs"); [dict|exact E'].
  - rewrite Forall_app. split; [tauto|]. intros [H1 H2]. split; [exact (has_dict _ _ _ _ _ H1)|]. split; [exact H1|]. split; [exact (has_dict _ _ _ _ _ H2)|exact H2].
Qed.
(** Reading first, then writing. *)
Lemma judge_then A (m : M A) (f : A -> M unit) P Q : judge reading m P any -> (forall x, judge writing (f x) Q any) -> forall w, reading w ->
  exists w' r, seqm m f w = (w', r) /\ writing w' /\ match r with inl _ => P /\ Q | inr e => ~ (P /\ Q) /\ e <> Undefined end.
Proof.
  intros H F w R. destruct (H w R) as (w1 & [x|e] & M & R1 & X).
  - destruct (F x w1 (reading_writing w1 R1)) as (w2 & r & M2 & R2 & Y). exists w2, r. unfold seqm. rewrite M. split; [exact M2|]. split; [exact R2|]. destruct r; tauto.
  - exists w1, (inr e). unfold seqm. rewrite M. split; [reflexivity|]. split; [exact (reading_writing w1 R1)|]. tauto.
Qed.
Lemma start : reading w0.
Proof. split; [split; [reflexivity|exists []; rewrite app_nil_r; reflexivity]|reflexivity]. Qed.
Lemma seq_assoc A B C (m : M A) (f : A -> M B) (g : B -> M C) w : seqm m (fun x => seqm (f x) g) w = seqm (seqm m f) g w.
Proof. unfold seqm. destruct (m w) as [w' [x|e]]; reflexivity. Qed.
Lemma judge_any rel A (m : M A) P : judge rel m P any -> forall w, rel w -> exists w' r, m w = (w', r) /\ rel w' /\ match r with inl _ => P | inr e => ~ P /\ e <> Undefined end.
Proof. intros H w R. destruct (H w R) as (w' & r & X). exists w', r. destruct r; tauto. Qed.

Lemma call_checked c : exists w' r, perform lattice state data c w0 = (w', r) /\ r <> inr Undefined /\ entries w' = entries w0 /\ (r = inl tt <-> all (needs lattice state data c)).
Proof.
  assert (S : forall (m : M unit) P, (exists w' r, m w0 = (w', r) /\ writing w' /\ match r with inl _ => P | inr e => ~ P /\ e <> Undefined end) ->
    forall Q, (P <-> Q) -> exists w' r, m w0 = (w', r) /\ r <> inr Undefined /\ entries w' = entries w0 /\ (r = inl tt <-> Q)).
  { intros m P (w' & r & M & [_ W] & X) Q PQ. exists w', r. split; [exact M|]. destruct r as [[]|e]; (split; [try discriminate; intros Y; injection Y as ->; tauto|]); (split; [exact W|]); [tauto|]. split; [discriminate|tauto]. }
  assert (RW : forall (m : M unit) P, judge reading m P any -> exists w' r, m w0 = (w', r) /\ writing w' /\ match r with inl _ => P | inr e => ~ P /\ e <> Undefined end).
  { intros m P J. destruct (judge_any _ _ _ _ J w0 start) as (w' & r & M & R & X). exists w', r. split; [exact M|]. split; [exact (reading_writing w' R)|exact X]. }
  destruct c; cbn [perform needs].
  - unfold py2c_lattice. eapply S.
    + rewrite seq_assoc, seq_assoc. apply judge_then; [|intros x; exact judge_set_info|exact start].
      eapply judge_seq; [eapply judge_seq; [exact judge_lattice|intros _ _ _; exact judge_info]|]. intros _ _ _. exact judge_state.
    + unfold of_lattice. rewrite !Forall_app. tauto.
  - unfold py2c_downwash. eapply S; [apply RW; eapply judge_seq; [exact judge_lattice|intros _ _ _; exact judge_info]|]. unfold of_lattice. rewrite !Forall_app. tauto.
  - unfold py2c_boundary. eapply S.
    + apply RW. eapply judge_seq; [exact judge_lattice|intros _ _ _]. eapply judge_seq; [exact judge_info|intros _ _ _]. eapply judge_seq; [exact judge_state|intros _ _ _; exact judge_refs].
    + unfold of_lattice. rewrite !Forall_app. tauto.
  - unfold py2c_results. eapply S.
    + rewrite !seq_assoc. apply judge_then; [|intros x; exact judge_set_result|exact start].
      eapply judge_seq; [eapply judge_seq; [eapply judge_seq; [eapply judge_seq; [exact judge_lattice|intros _ _ _; exact judge_info]|intros _ _ _; exact judge_state]|intros _ _ _; exact judge_refs]|intros _ _ _; exact judge_panels].
    + unfold of_lattice, of_data. rewrite !Forall_app. tauto.
Qed.
End Perform.
End Call.
