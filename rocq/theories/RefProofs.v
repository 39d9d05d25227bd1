From Coq Require Import List ZArith String Bool Lia Permutation.
From Verif Require Import RefModel RefSpec.
Import ListNotations.
Open Scope Z_scope.

(** ** Counts and slots *)
Lemma add_count_length l o d : List.length (add_count l o d) = List.length l.
Proof.
  unfold add_count. destruct (nth_error l (Z.to_nat o)) as [[k c]|] eqn:E; [|reflexivity].
  assert (Z.to_nat o < List.length l)%nat by (apply nth_error_Some; congruence).
  rewrite app_length, firstn_length. cbn [List.length]. rewrite skipn_length. lia.
Qed.
Lemma nth_error_update {A} (l : list A) n x m :
  (n < List.length l)%nat ->
  nth_error (firstn n l ++ x :: skipn (S n) l) m = if Nat.eqb m n then Some x else nth_error l m.
Proof.
  revert n m. induction l as [|a l IH]; intros n m H; cbn [List.length] in H; [lia|].
  destruct n as [|n].
  - destruct m; reflexivity.
  - destruct m; [reflexivity|]. cbn. apply IH. lia.
Qed.
Lemma add_count_count l o d o' :
  0 <= o < Z.of_nat (List.length l) -> 0 <= o' ->
  count_of (add_count l o d) o' = count_of l o' + (if o =? o' then d else 0).
Proof.
  intros Ho Ho'. unfold count_of, add_count.
  destruct (nth_error l (Z.to_nat o)) as [[k c]|] eqn:E.
  2:{ apply nth_error_None in E. lia. }
  rewrite nth_error_update by lia.
  destruct (Z.eqb_spec o o') as [->|N].
  - rewrite Nat.eqb_refl, E. reflexivity.
  - destruct (Nat.eqb_spec (Z.to_nat o') (Z.to_nat o)); [lia|]. destruct (nth_error l (Z.to_nat o')) as [[? ?]|]; lia.
Qed.
Lemma count_app_old l x o : 0 <= o < Z.of_nat (List.length l) -> count_of (l ++ [x]) o = count_of l o.
Proof. intros. unfold count_of. rewrite nth_error_app1 by lia. reflexivity. Qed.
Lemma count_app_new l k c : count_of (l ++ [(k, c)]) (Z.of_nat (List.length l)) = c.
Proof. unfold count_of. rewrite Nat2Z.id, nth_error_app2, Nat.sub_diag by lia. reflexivity. Qed.

Lemma held_cons s l o : held (s :: l) o = (if snd s =? o then 1 else 0) + held l o.
Proof. unfold held. cbn [filter]. destruct (snd s =? o); cbn [List.length]; lia. Qed.
Lemma held_app a b o : held (a ++ b) o = held a o + held b o.
Proof. unfold held. rewrite filter_app, app_length. lia. Qed.
Lemma held_nil o : held [] o = 0.
Proof. reflexivity. Qed.
Lemma held_zero l o : (forall s, In s l -> snd s <> o) -> held l o = 0.
Proof.
  induction l as [|s l IH]; intros H; [reflexivity|]. rewrite held_cons, IH by (intros; apply H; right; assumption).
  destruct (Z.eqb_spec (snd s) o) as [E|]; [exfalso; apply (H s); [left; reflexivity|exact E]|lia].
Qed.
Lemma lookup_in l o n v : lookup l o n = Some v -> exists s, In s l /\ snd s = v.
Proof.
  induction l as [|[[a b] c] l IH]; cbn [lookup]; [discriminate|].
  destruct ((a =? o) && String.eqb b n).
  - intros [= ->]. eexists. split; [left; reflexivity|reflexivity].
  - intros H. destruct (IH H) as (s & I & E). exists s. split; [right; exact I|exact E].
Qed.
Lemma replace_held l o n v x :
  held (replace l o n v) x =
  held l x + (if v =? x then 1 else 0) - (match lookup l o n with Some old => if old =? x then 1 else 0 | None => 0 end).
Proof.
  induction l as [|[[a b] c] l IH]; cbn [replace lookup].
  - rewrite held_cons, held_nil. cbn [snd]. lia.
  - destruct ((a =? o) && String.eqb b n); rewrite !held_cons; cbn [snd]; [lia|rewrite IH; lia].
Qed.
Lemma replace_in l o n v s : In s (replace l o n v) -> In s l \/ snd s = v.
Proof.
  induction l as [|[[a b] c] l IH]; cbn [replace].
  - intros [<-|[]]. right. reflexivity.
  - destruct ((a =? o) && String.eqb b n); intros [<-|I].
    + right. reflexivity.
    + left. right. exact I.
    + left. left. reflexivity.
    + destruct (IH I); [left; right; assumption|right; assumption].
Qed.
Lemma lookup_exists w o n v : closed w -> lookup (attrs w) o n = Some v -> exists_in w v.
Proof. intros C L. destruct (lookup_in _ _ _ _ L) as (s & I & <-). apply C. left. exact I. Qed.

(** ** What a computation keeps *)
Definition gain (l : list (Z * string)) (k : nat) (w w' : pyworld) : Prop :=
  closed w ->
  closed w' /\ attrs w' = attrs w /\ List.length (objs w') = (List.length (objs w) + k)%nat /\
  (forall o, exists_in w o -> elsewhere w' o = elsewhere w o + tally (attrs w) l o) /\
  (forall o, exists_in w' o -> ~ exists_in w o -> elsewhere w' o = 1).
Definition gains {A} (m : M A) (l : list (Z * string)) (k : nat) : Prop :=
  forall w w' r, m w = (w', r) ->
  match r with inl _ => gain l k w w' | inr _ => exists l' k', gain l' k' w w' end.

Lemma tally_app s a b o : tally s (a ++ b) o = tally s a o + tally s b o.
Proof. induction a as [|[x n] a IH]; cbn [tally app]; [reflexivity|rewrite IH; lia]. Qed.
Lemma tally_nonneg s l o : 0 <= tally s l o.
Proof.
  induction l as [|[x n] l IH]; cbn [tally]; [lia|].
  destruct (lookup s x n) as [v|]; [destruct (v =? o)|]; lia.
Qed.
Lemma tally_new w l o : closed w -> ~ exists_in w o -> tally (attrs w) l o = 0.
Proof.
  intros C N. induction l as [|[x n] l IH]; cbn [tally]; [reflexivity|]. rewrite IH.
  destruct (lookup (attrs w) x n) as [v|] eqn:E; [|reflexivity].
  destruct (Z.eqb_spec v o) as [->|]; [|reflexivity]. exfalso. exact (N (lookup_exists _ _ _ _ C E)).
Qed.
Lemma gain_refl w : gain [] 0 w w.
Proof.
  intros C. split; [exact C|]. split; [reflexivity|]. split; [lia|]. split.
  - intros. cbn. lia.
  - intros o H N. contradiction.
Qed.
Lemma exists_dec w o : exists_in w o \/ ~ exists_in w o.
Proof. unfold exists_in. lia. Qed.
Lemma gain_trans l1 k1 l2 k2 w w1 w2 : gain l1 k1 w w1 -> gain l2 k2 w1 w2 -> gain (l1 ++ l2) (k1 + k2) w w2.
Proof.
  intros G1 G2 C. destruct (G1 C) as (C1 & A1 & L1 & O1 & N1). destruct (G2 C1) as (C2 & A2 & L2 & O2 & N2).
  split; [exact C2|]. split; [congruence|]. split; [lia|]. split.
  - intros o H. assert (H1 : exists_in w1 o) by (unfold exists_in in *; lia).
    rewrite O2, O1, A1, tally_app by assumption. lia.
  - intros o H N. destruct (exists_dec w1 o) as [H1|H1].
    + rewrite O2, N1 by assumption. rewrite A1, tally_new by assumption. lia.
    + apply N2; assumption.
Qed.

Lemma gains_ret {A} (x : A) : gains (ret x) [] 0.
Proof. intros w w' r [= <- <-]. apply gain_refl. Qed.
Lemma gains_fail {A} e l k : gains (@fail A e) l k.
Proof. intros w w' r [= <- <-]. exists [], 0%nat. apply gain_refl. Qed.
Lemma gains_seq {A B} (m : M A) (f : A -> M B) l1 k1 l2 k2 :
  gains m l1 k1 -> (forall x, gains (f x) l2 k2) -> gains (seqm m f) (l1 ++ l2) (k1 + k2).
Proof.
  intros Hm Hf w w' r. unfold seqm. destruct (m w) as [w1 [x|e]] eqn:E.
  - intros E2. pose proof (Hm _ _ _ E) as G1. pose proof (Hf x _ _ _ E2) as G2. cbn in G1.
    destruct r.
    + eapply gain_trans; eassumption.
    + destruct G2 as (l' & k' & G2). eexists _, _. eapply gain_trans; eassumption.
  - intros [= <- <-]. exact (Hm _ _ _ E).
Qed.
Lemma gains_has o n : gains (has_attr o n) [] 0.
Proof. intros w w' r [= <- <-]. apply gain_refl. Qed.
Lemma gains_check p o e : gains (check p o e) [] 0.
Proof.
  intros w w' r. unfold check. destruct (p _); intros [= <- <-]; [apply gain_refl|exists [], 0%nat; apply gain_refl].
Qed.
Lemma gains_contains d n : gains (dict_contains d n) [] 0.
Proof.
  intros w w' r. unfold dict_contains. destruct (kind_of w d); intros [= <- <-]; try (exists [], 0%nat); apply gain_refl.
Qed.
Lemma gains_dict_get d n : gains (dict_get d n) [] 0.
Proof.
  intros w w' r. unfold dict_get. destruct (lookup _ _ _); intros [= <- <-]; try (exists [], 0%nat); apply gain_refl.
Qed.
Lemma gains_get o n : gains (get_attr o n) [(o, n)] 0.
Proof.
  intros w w' r. unfold get_attr. destruct (lookup (attrs w) o n) as [v|] eqn:E; intros [= <- <-].
  2:{ exists [], 0%nat. apply gain_refl. }
  intros C. pose proof (lookup_exists _ _ _ _ C E) as V.
  split; [intros s I; unfold exists_in; cbn [objs]; rewrite add_count_length; apply C; exact I|].
  split; [reflexivity|]. split; [cbn [objs]; rewrite add_count_length; lia|]. split.
  - intros x X. unfold elsewhere, contained. cbn [objs attrs items tally]. rewrite E.
    rewrite add_count_count by (unfold exists_in in *; lia). destruct (v =? x); lia.
  - intros x X N. exfalso. apply N. unfold exists_in in *. cbn [objs] in X. rewrite add_count_length in X. exact X.
Qed.
Lemma closed_fresh_held w o : closed w -> ~ exists_in w o -> contained w o = 0.
Proof.
  intros C N. unfold contained.
  rewrite !held_zero; [reflexivity| |]; intros s I E; apply N; rewrite <- E; apply C; [right|left]; exact I.
Qed.
Lemma gains_new k : gains (new_object k) [] 1.
Proof.
  intros w w' r [= <- <-] C.
  split; [intros s I; apply C in I; unfold exists_in in *; cbn [objs]; rewrite app_length; cbn [List.length]; lia|].
  split; [reflexivity|]. split; [cbn [objs]; rewrite app_length; cbn [List.length]; lia|]. split.
  - intros o H. unfold elsewhere, contained. cbn [objs attrs items tally]. rewrite count_app_old by exact H. lia.
  - intros o H N. assert (o = Z.of_nat (List.length (objs w))) as ->.
    { unfold exists_in in *. cbn [objs] in H. rewrite app_length in H. cbn [List.length] in H. lia. }
    pose proof (closed_fresh_held _ _ C N) as Z. unfold elsewhere. unfold contained in *. cbn [objs attrs items].
    rewrite count_app_new. lia.
Qed.
Lemma gains_put d n : gains (do f <- new_object KFloat; dict_set d n f) [] 1.
Proof.
  intros w w' r. unfold seqm, new_object, dict_set. cbn [objs attrs items]. intros [= <- <-] C.
  set (f := Z.of_nat (List.length (objs w))). set (l1 := objs w ++ [(KFloat, 1)]).
  assert (Ll1 : List.length l1 = S (List.length (objs w))) by (unfold l1; rewrite app_length; cbn [List.length]; lia).
  set (l3 := match lookup (items w) d n with Some old => add_count (add_count l1 f 1) old (-1) | None => add_count l1 f 1 end).
  assert (Ll3 : List.length l3 = S (List.length (objs w))).
  { unfold l3. destruct (lookup (items w) d n); rewrite ?add_count_length; exact Ll1. }
  assert (Cnt : forall o, 0 <= o -> count_of l3 o =
    count_of l1 o + (if f =? o then 1 else 0) - match lookup (items w) d n with Some old => if old =? o then 1 else 0 | None => 0 end).
  { intros o Ho. unfold l3. destruct (lookup (items w) d n) as [old|] eqn:E.
    - destruct (lookup_in _ _ _ _ E) as (s & I & <-). assert (X : exists_in w (snd s)) by (apply C; right; exact I).
      unfold exists_in in X. rewrite !add_count_count by (rewrite ?add_count_length; unfold f; lia).
      destruct (snd s =? o); lia.
    - rewrite add_count_count by (unfold f; lia). lia. }
  assert (Els : forall o, 0 <= o -> count_of l3 o - (held (attrs w) o + held (replace (items w) d n f) o) =
    count_of l1 o - contained w o).
  { intros o Ho. rewrite Cnt, replace_held by exact Ho. unfold contained. lia. }
  split.
  - intros s [I|I]; unfold exists_in; cbn [objs attrs items snd] in *; rewrite Ll3.
    + assert (exists_in w (snd s)) by (apply C; left; exact I). unfold exists_in in *. lia.
    + apply replace_in in I as [I| ->]; [assert (exists_in w (snd s)) by (apply C; right; exact I); unfold exists_in in *; lia|unfold f; lia].
  - split; [reflexivity|]. split; [cbn [objs]; rewrite Ll3; lia|]. split.
    + intros o H. unfold elsewhere at 1. unfold contained at 1. cbn [objs attrs items tally].
      rewrite Els by (unfold exists_in in H; lia). unfold elsewhere, l1. rewrite count_app_old by exact H. lia.
    + intros o H N. unfold exists_in in H. cbn [objs] in H. rewrite Ll3 in H.
      assert (o = f) as -> by (unfold exists_in in N; unfold f; lia).
      unfold elsewhere. unfold contained. cbn [objs attrs items]. rewrite Els by lia.
      rewrite (closed_fresh_held w f C N). unfold l1, f. rewrite count_app_new. lia.
Qed.

Lemma gains_eq {A} (m : M A) l k l' k' : gains m l k -> l = l' -> k = k' -> gains m l' k'.
Proof. intros H -> ->. exact H. Qed.
Lemma gains_if {A} (b : bool) (m1 m2 : M A) l k : gains m1 l k -> gains m2 l k -> gains (if b then m1 else m2) l k.
Proof. destruct b; auto. Qed.
Lemma gains_each {A} (f : A -> M Z) (g : A -> list (Z * string)) k l :
  (forall x, gains (f x) (g x) k) -> gains (each f l) (flat_map g l) (k * List.length l).
Proof.
  intros H. induction l as [|x l IH]; cbn [each flat_map List.length].
  - eapply gains_eq; [apply gains_ret|reflexivity|lia].
  - eapply gains_eq.
    + apply gains_seq; [apply H|]. intros y. apply gains_seq; [exact IH|]. intros r. apply gains_ret.
    + rewrite app_nil_r. reflexivity.
    + lia.
Qed.
Lemma gains_each_ {A} (f : A -> M unit) k l :
  (forall x, gains (f x) [] k) -> gains (each_ (map f l)) [] (k * List.length l).
Proof.
  intros H. induction l as [|x l IH]; cbn [each_ map List.length].
  - eapply gains_eq; [apply gains_ret|reflexivity|lia].
  - eapply gains_eq; [apply gains_seq; [apply H|intros y; exact IH]|reflexivity|lia].
Qed.
Lemma gains_array o n : gains (array_attr o n) [(o, n); (o, n)] 0.
Proof.
  eapply gains_eq; [apply gains_seq; [apply gains_has|intros h; apply gains_if; [|apply gains_fail]]|reflexivity|reflexivity].
  eapply gains_eq; [apply gains_seq; [apply gains_get|intros t; apply gains_seq; [apply gains_check|intros _; apply gains_get]]|reflexivity|reflexivity].
Qed.
Lemma gains_floats (l : list Z) : gains (each_ (map (fun a => check is_float_array a ERR_TYPE) l)) [] 0.
Proof. eapply gains_eq; [apply (gains_each_ _ 0); intros; apply gains_check|reflexivity|lia]. Qed.
Lemma gains_lattice x : gains (get_latticestruct x)
  (map (pair x) ["p"; "p"; "v"; "v"; "c"; "c"; "bound_leg_midpoints"; "bound_leg_midpoints"; "n"; "n"; "a"; "a"; "epsilon"; "epsilon"]%string) 0.
Proof.
  unfold get_latticestruct.
  eapply gains_eq.
  - apply gains_seq; [apply (gains_each _ (fun n => [(x, n); (x, n)]) 0); intros; apply gains_array|]. intros arrays.
    apply gains_seq; [apply gains_has|]. intros h. apply gains_if; [|apply gains_fail].
    apply gains_seq; [apply gains_get|]. intros t. apply gains_seq; [apply gains_check|]. intros _.
    apply gains_seq; [apply gains_get|]. intros _. apply gains_floats.
  - reflexivity.
  - reflexivity.
Qed.
Lemma gains_dict_attr o n : gains (dict_attr o n) [(o, n)] 0.
Proof.
  eapply gains_eq; [apply gains_seq; [apply gains_has|intros h; apply gains_if; [apply gains_get|apply gains_fail]]|reflexivity|reflexivity].
Qed.
Lemma gains_value p d n : gains (dict_value p d n) [] 1.
Proof.
  unfold dict_value. eapply gains_eq.
  - apply gains_seq; [apply gains_new|]. intros _. apply gains_seq; [apply gains_contains|]. intros h. apply gains_if; [|apply gains_fail].
    apply gains_seq; [apply gains_dict_get|]. intros v. apply gains_seq; [apply gains_check|]. intros _. apply gains_ret.
  - reflexivity.
  - reflexivity.
Qed.
Lemma gains_store d n : gains (store_value d n) [] 2.
Proof.
  unfold store_value. eapply gains_eq.
  - apply gains_seq; [apply gains_new|]. intros _. apply gains_seq; [apply gains_contains|]. intros h. apply gains_if; [|apply gains_fail].
    apply gains_put.
  - reflexivity.
  - reflexivity.
Qed.
Lemma flat_map_nil {A B} (l : list A) : flat_map (fun _ => @nil B) l = [].
Proof. induction l; [reflexivity|assumption]. Qed.
Lemma gains_values p d l : gains (each (dict_value p d) l) [] (List.length l).
Proof.
  eapply gains_eq; [apply (gains_each _ (fun _ => []) 1); intros; apply gains_value|apply flat_map_nil|lia].
Qed.
Lemma gains_stores d l : gains (each_ (map (store_value d) l)) [] (2 * List.length l).
Proof. apply gains_each_. intros. apply gains_store. Qed.
Lemma gains_info x : gains (get_infostruct x) [(x, "info"%string)] 2.
Proof.
  eapply gains_eq; [apply gains_seq; [apply gains_dict_attr|intros d; apply gains_seq; [apply gains_values|intros _; apply gains_ret]]|reflexivity|reflexivity].
Qed.
Lemma gains_set_info x : gains (set_infostruct x) [(x, "info"%string)] 12.
Proof. eapply gains_eq; [apply gains_seq; [apply gains_dict_attr|intros d; apply gains_stores]|reflexivity|reflexivity]. Qed.
Lemma gains_state x : gains (get_statestruct x) [(x, "aero"%string)] 7.
Proof.
  eapply gains_eq; [apply gains_seq; [apply gains_dict_attr|intros d; apply gains_seq; [apply gains_values|intros _; apply gains_ret]]|reflexivity|reflexivity].
Qed.
Lemma gains_ref x : gains (get_refstruct x) [(x, "refs"%string)] 5.
Proof.
  eapply gains_eq; [apply gains_seq; [apply gains_dict_attr|intros d; apply gains_seq; [apply gains_values|intros _; apply gains_seq; [apply gains_values|intros ps; apply gains_floats]]]|reflexivity|reflexivity].
Qed.
Lemma gains_result x : gains (get_resultstruct x) [(x, "panelwise"%string)] 10.
Proof.
  eapply gains_eq; [apply gains_seq; [apply gains_dict_attr|intros d; apply gains_seq; [apply gains_values|intros l; apply gains_floats]]|reflexivity|reflexivity].
Qed.
Lemma gains_set_result x : gains (set_resultstruct x) [(x, "forces"); (x, "coeffs")]%string 36.
Proof.
  eapply gains_eq; [apply gains_seq; [apply gains_dict_attr|intros f; apply gains_seq; [apply gains_stores|intros _; apply gains_seq; [apply gains_dict_attr|intros c; apply gains_stores]]]|reflexivity|reflexivity].
Qed.

Lemma gains_perform lattice state data c :
  gains (perform lattice state data c) (kept lattice state data c) (Z.to_nat (made c)).
Proof.
  destruct c; cbn [perform]; (eapply gains_eq; [|reflexivity|reflexivity]).
  - apply (gains_eq _ _ _ _ _ (gains_seq _ _ _ _ _ _ (gains_lattice lattice) (fun _ => gains_seq _ _ _ _ _ _ (gains_info lattice)
      (fun _ => gains_seq _ _ _ _ _ _ (gains_state state) (fun _ => gains_set_info lattice))))); reflexivity.
  - apply (gains_eq _ _ _ _ _ (gains_seq _ _ _ _ _ _ (gains_lattice lattice) (fun _ => gains_info lattice))); reflexivity.
  - apply (gains_eq _ _ _ _ _ (gains_seq _ _ _ _ _ _ (gains_lattice lattice) (fun _ => gains_seq _ _ _ _ _ _ (gains_info lattice)
      (fun _ => gains_seq _ _ _ _ _ _ (gains_state state) (fun _ => gains_ref state))))); reflexivity.
  - apply (gains_eq _ _ _ _ _ (gains_seq _ _ _ _ _ _ (gains_lattice lattice) (fun _ => gains_seq _ _ _ _ _ _ (gains_info lattice)
      (fun _ => gains_seq _ _ _ _ _ _ (gains_state state) (fun _ => gains_seq _ _ _ _ _ _ (gains_ref state)
      (fun _ => gains_seq _ _ _ _ _ _ (gains_result data) (fun _ => gains_set_result data))))))); reflexivity.
Qed.

(** ** The theorems *)
Lemma exact_gain lattice state data c w w' :
  closed w -> perform lattice state data c w = (w', inl tt) ->
  closed w' /\ attrs w' = attrs w /\
  (forall o, exists_in w o -> elsewhere w' o = elsewhere w o + tally (attrs w) (kept lattice state data c) o) /\
  Z.of_nat (List.length (objs w')) = Z.of_nat (List.length (objs w)) + made c /\
  (forall o, exists_in w' o -> ~ exists_in w o -> elsewhere w' o = 1).
Proof.
  intros C E. destruct (gains_perform lattice state data c _ _ _ E C) as (C' & A & L & O & N).
  split; [exact C'|]. split; [exact A|]. split; [exact O|]. split; [|exact N].
  rewrite L, Nat2Z.inj_add, Z2Nat.id by (destruct c; cbn; lia). reflexivity.
Qed.
Lemma gain_nothing_lost l k w w' : closed w -> gain l k w w' -> nothing_lost w w'.
Proof.
  intros C G. destruct (G C) as (_ & _ & L & O & N). split.
  - intros o H. split; [unfold exists_in in *; lia|]. rewrite (O o H). pose proof (tally_nonneg (attrs w) l o). lia.
  - intros o H X. rewrite (N o H X). lia.
Qed.
Lemma never_lost lattice state data c w w' r :
  closed w -> perform lattice state data c w = (w', r) -> closed w' /\ attrs w' = attrs w /\ nothing_lost w w'.
Proof.
  intros C E. pose proof (gains_perform lattice state data c _ _ _ E) as G.
  assert (exists l k, gain l k w w') as (l & k & G') by (destruct r; [eexists _, _; exact G|exact G]).
  destruct (G' C) as (C' & A & _). split; [exact C'|]. split; [exact A|]. exact (gain_nothing_lost _ _ _ _ C G').
Qed.
Lemma dropped_elsewhere w w' : dropped w w' -> closed w -> forall o, exists_in w o -> elsewhere w' o = elsewhere w o.
Proof.
  induction 1 as [w|w w' x n v a b E D IH|w w' x n v a b E D IH]; intros C o H; [reflexivity| |];
    (assert (V : exists_in w v) by (apply (C (x, n, v)); rewrite E; rewrite !in_app_iff; cbn; tauto));
    (rewrite IH;
     [unfold elsewhere, contained; cbn [objs attrs items]; rewrite E, !held_app, held_cons; cbn [snd];
      rewrite add_count_count by (unfold exists_in in *; lia); destruct (v =? o); lia
     |intros s I; unfold exists_in; cbn [objs attrs items] in *; rewrite add_count_length; apply C; rewrite E;
      rewrite in_app_iff in *; cbn [In]; tauto
     |unfold exists_in in *; cbn [objs]; rewrite add_count_length; exact H]).
Qed.
Lemma held_nonneg l o : 0 <= held l o.
Proof. unfold held. lia. Qed.
Lemma calls_elsewhere lattice state data l w w' :
  calls lattice state data l w w' -> closed w ->
  closed w' /\ attrs w' = attrs w /\
  forall o, exists_in w o -> exists_in w' o /\
    elsewhere w' o = elsewhere w o + tally (attrs w) (flat_map (kept lattice state data) l) o.
Proof.
  induction 1 as [w|c l w w1 w2 E K IH]; intros C.
  - split; [exact C|]. split; [reflexivity|]. intros o H. split; [exact H|]. cbn. lia.
  - destruct (exact_gain _ _ _ _ _ _ C E) as (C1 & A1 & O1 & L1 & _). destruct (IH C1) as (C2 & A2 & O2).
    split; [exact C2|]. split; [congruence|]. intros o H.
    assert (H1 : exists_in w1 o) by (unfold exists_in in *; destruct c; cbn [made] in L1; lia).
    destruct (O2 o H1) as (X & Y). split; [exact X|]. rewrite Y, (O1 o H), A1. cbn [flat_map]. rewrite tally_app. lia.
Qed.
Lemma tally_array w lattice state data l n o :
  In n lattice_arrays -> lookup (attrs w) lattice n = Some o ->
  2 * Z.of_nat (List.length l) <= tally (attrs w) (flat_map (kept lattice state data) l) o.
Proof.
  intros I E. assert (K : 2 <= tally (attrs w) (lattice_kept lattice) o).
  { unfold lattice_kept. cbn [map].
    repeat (destruct I as [<-|I]; [
      cbn [tally]; rewrite E, Z.eqb_refl;
      repeat match goal with |- context [match lookup ?a ?b ?c with _ => _ end] =>
        let v := fresh "v" in destruct (lookup a b c) as [v|]; [destruct (v =? o)|] end; lia|]). destruct I. }
  induction l as [|c l IH]; [cbn; lia|]. cbn [flat_map List.length]. rewrite tally_app.
  assert (2 <= tally (attrs w) (kept lattice state data c) o).
  { destruct c; cbn [kept]; rewrite ?tally_app;
      try match goal with |- context [?x + tally ?s ?m o] => pose proof (tally_nonneg s m o) end; lia. }
  lia.
Qed.
Lemma never_freed lattice state data l w w' w'' n o :
  closed w -> In n lattice_arrays -> lookup (attrs w) lattice n = Some o -> 0 <= elsewhere w o ->
  calls lattice state data l w w' -> dropped w' w'' ->
  2 * Z.of_nat (List.length l) <= count_of (objs w'') o.
Proof.
  intros C I E P K D. destruct (calls_elsewhere _ _ _ _ _ _ K C) as (C' & A & O).
  pose proof (lookup_exists _ _ _ _ C E) as X. destruct (O o X) as (X' & Y).
  pose proof (dropped_elsewhere _ _ D C' o X') as Z. pose proof (tally_array w lattice state data l n o I E).
  unfold elsewhere at 1 in Z. unfold contained in Z.
  pose proof (held_nonneg (attrs w'') o). pose proof (held_nonneg (items w'') o). lia.
Qed.
