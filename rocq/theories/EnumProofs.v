(** Proofs about the component tree and the enumeration helpers (C37, C38). *)
From Coq Require Import List String ZArith QArith Bool Permutation Sorted Lia Arith.
From Verif Require Import PyBase PyFacts StripModel StripSpec StripChord StripRun StripControl
  AircraftModel LatticeModel LatticeSpec.
Import ListNotations.

Lemma dset_same {V} (d : dict V) k v : dget d k = Some v -> dset d k v = d.
Proof.
  induction d as [|[k' v'] d IH]; simpl; [discriminate|].
  destruct (String.eqb k k') eqn:E; intro H.
  - congruence.
  - rewrite IH; auto.
Qed.

Lemma names_ok_set {V} (uid_of : V -> string) d k v :
  names_ok uid_of d -> k <> EmptyString -> uid_of v = k -> names_ok uid_of (dset d k v).
Proof.
  intros [N A] K U. split; [apply dset_NoDup; exact N|].
  intros k' v' I. assert (ND := dset_NoDup d k v N). apply (dget_In_NoDup _ _ _ ND) in I.
  destruct (string_dec k' k) as [->|NE].
  - rewrite dget_dset_same in I. injection I as <-. auto.
  - rewrite dget_dset_other in I by exact NE. apply A. apply dget_In. exact I.
Qed.

Lemma names_ok_nil {V} (uid_of : V -> string) : names_ok uid_of [].
Proof. split; [constructor|intros k v []]. Qed.

Definition wing_ok (w : wing) : Prop :=
  names_ok ws_uid (w_segs w) /\ names_ok (fun c => ct_uid (wc_ctl c)) (w_ctls w).
Definition ac_ok (a : aircraft) : Prop :=
  names_ok w_uid (a_wings a) /\ forall k w, In (k, w) (a_wings a) -> wing_ok w.

Lemma ac_ok_set a k w : ac_ok a -> k <> EmptyString -> w_uid w = k -> wing_ok w ->
  ac_ok (mkAC (a_uid a) (dset (a_wings a) k w)).
Proof.
  intros [N A] K U W. split; [apply names_ok_set; auto|]. simpl.
  intros k' w' I. apply dget_In_NoDup in I; [|apply dset_NoDup, N].
  destruct (string_dec k' k) as [->|NE].
  - rewrite dget_dset_same in I. congruence.
  - rewrite dget_dset_other in I by exact NE. apply dget_In in I. eauto.
Qed.

Lemma on_wing_ok a wu f :
  ac_ok a -> (forall w, wing_ok w -> wing_ok (fst (f w)) /\ w_uid (fst (f w)) = w_uid w) ->
  ac_ok (fst (on_wing a wu f)).
Proof.
  intros H F. unfold on_wing. destruct (dget (a_wings a) wu) as [w|] eqn:E; [|exact H].
  pose proof H as [[N A] B]. apply dget_In in E. destruct (A _ _ E) as [K U].
  destruct (F w (B _ _ E)) as [F1 F2]. destruct (f w) as [w' r]. simpl in *.
  apply ac_ok_set; auto. congruence.
Qed.

Lemma dmem_dget {V} (d : dict V) k : dmem d k = true <-> In k (dkeys d).
Proof.
  unfold dmem. destruct (dget d k) eqn:E.
  - split; [|reflexivity]. intros _. apply dget_In in E. apply in_map_iff. exists (k, v). auto.
  - apply dget_None in E. split; [discriminate|contradiction].
Qed.

Lemma build_step_ok a b : ac_ok a -> ac_ok (fst (build_step a b)).
Proof.
  intro H. destruct b as [u|wu u|wu u|wu s]; simpl.
  - unfold add_wing. destruct (String.eqb_spec u EmptyString) as [|NE]; [exact H|].
    destruct (dmem _ _); [exact H|]. apply ac_ok_set; auto.
    split; apply names_ok_nil.
  - apply on_wing_ok; [exact H|]. intros w [W1 W2]. unfold add_segment.
    destruct (String.eqb_spec u EmptyString) as [|NE]; [split; [split|]; auto|].
    destruct (dmem _ _); [split; [split|]; auto|]. simpl. split; [split; simpl|]; auto.
    apply names_ok_set; auto.
  - apply on_wing_ok; [exact H|]. intros w [W1 W2]. unfold add_control.
    destruct (String.eqb_spec u EmptyString) as [|NE]; [split; [split|]; auto|].
    destruct (dmem _ _); [split; [split|]; auto|]. simpl. split; [split; simpl|]; auto.
    apply names_ok_set; auto.
  - apply on_wing_ok; [exact H|]. intros w [W1 W2]. unfold set_symmetry.
    destruct (_ || _)%bool; simpl; split; try split; auto.
Qed.

Lemma built_ok bs : ac_ok (built bs).
Proof.
  unfold built. assert (H : ac_ok new_aircraft) by (split; [apply names_ok_nil|intros k w []]).
  revert H. generalize new_aircraft. induction bs as [|b bs IH]; intros a H; simpl; [exact H|].
  apply IH. apply build_step_ok. exact H.
Qed.

Lemma add_wing_dup a u : u <> EmptyString -> In u (dkeys (a_wings a)) -> build_step a (BWing u) = (a, Err ValueError).
Proof.
  intros NE I. simpl. unfold add_wing. apply String.eqb_neq in NE. rewrite NE.
  apply dmem_dget in I. rewrite I. reflexivity.
Qed.

Lemma add_wing_new a u : u <> EmptyString -> ~ In u (dkeys (a_wings a)) ->
  build_step a (BWing u) = (mkAC (a_uid a) (a_wings a ++ [(u, new_wing u)]), Ok tt).
Proof.
  intros NE I. simpl. unfold add_wing. apply String.eqb_neq in NE. rewrite NE.
  apply dget_None in I. unfold dmem. rewrite I. rewrite dset_fresh by exact I. reflexivity.
Qed.

Lemma mkAC_eta a : mkAC (a_uid a) (a_wings a) = a.
Proof. destruct a; reflexivity. Qed.

Lemma add_child_dup a wu w u (b : bool) : dget (a_wings a) wu = Some w -> u <> EmptyString ->
  In u (if b then dkeys (w_segs w) else dkeys (w_ctls w)) ->
  build_step a (if b then BSegment wu u else BControl wu u) = (a, Err ValueError).
Proof.
  intros G NE I. apply String.eqb_neq in NE. destruct b; simpl; unfold on_wing; rewrite G.
  - unfold add_segment. rewrite NE. apply dmem_dget in I. rewrite I.
    rewrite dset_same by exact G. rewrite mkAC_eta. reflexivity.
  - unfold add_control. rewrite NE. apply dmem_dget in I. rewrite I.
    rewrite dset_same by exact G. rewrite mkAC_eta. reflexivity.
Qed.

Lemma add_segment_new w u : u <> EmptyString -> ~ In u (dkeys (w_segs w)) ->
  add_segment w u = (mkWing (w_uid w) (w_symmetry w) (w_segs w ++ [(u, new_wsegment u)]) (w_ctls w), Ok tt).
Proof.
  intros NE I. unfold add_segment. apply String.eqb_neq in NE. rewrite NE.
  apply dget_None in I. unfold dmem. rewrite I. rewrite dset_fresh by exact I. reflexivity.
Qed.

Lemma add_control_new w u : u <> EmptyString -> ~ In u (dkeys (w_ctls w)) ->
  add_control w u = (mkWing (w_uid w) (w_symmetry w) (w_segs w) (w_ctls w ++ [(u, new_wcontrol u)]), Ok tt).
Proof.
  intros NE I. unfold add_control. apply String.eqb_neq in NE. rewrite NE.
  apply dget_None in I. unfold dmem. rewrite I. rewrite dset_fresh by exact I. reflexivity.
Qed.

Lemma empty_uid a wu : build_step a (BWing EmptyString) = (a, Err ComponentDefinitionError) /\
  (forall w, dget (a_wings a) wu = Some w ->
     build_step a (BSegment wu EmptyString) = (a, Err ComponentDefinitionError) /\
     build_step a (BControl wu EmptyString) = (a, Err ComponentDefinitionError)).
Proof.
  split; [reflexivity|]. intros w G. simpl. unfold on_wing. rewrite G. simpl.
  rewrite dset_same by exact G. rewrite mkAC_eta. auto.
Qed.

(** ** Enumeration *)

Lemma enum_from_nth {A} (l : list A) i n x :
  In (n, x) (enum_from i l) <-> (i <= n)%nat /\ nth_error l (n - i) = Some x.
Proof.
  revert i. induction l as [|y l IH]; intros i; simpl.
  - split; [tauto|]. intros [_ H]. destruct (n - i)%nat; discriminate.
  - rewrite IH. split.
    + intros [H|[H1 H2]].
      * injection H as -> ->. split; [lia|]. rewrite Nat.sub_diag. reflexivity.
      * split; [lia|]. replace (n - i)%nat with (S (n - S i)) by lia. exact H2.
    + intros [H1 H2]. destruct (Nat.eq_dec i n) as [->|NE].
      * left. rewrite Nat.sub_diag in H2. simpl in H2. congruence.
      * right. split; [lia|]. replace (n - i)%nat with (S (n - S i)) in H2 by lia. exact H2.
Qed.

Lemma items_In {K V} (l : list (K * V)) n k v :
  In (n, k, v) (items l) <-> nth_error l n = Some (k, v).
Proof.
  unfold items, enum. rewrite in_map_iff. split.
  - intros [[m [k' v']] [E I]]. simpl in E. injection E as -> -> ->.
    apply enum_from_nth in I. destruct I as [_ I]. rewrite Nat.sub_0_r in I. exact I.
  - intro H. exists (n, (k, v)). split; [reflexivity|]. apply enum_from_nth.
    rewrite Nat.sub_0_r. split; [lia|exact H].
Qed.


Lemma enum_from_sorted {A} (l : list A) i :
  StronglySorted lt (map fst (enum_from i l)) /\ Forall (fun n => (i <= n)%nat) (map fst (enum_from i l)).
Proof.
  revert i. induction l as [|x l IH]; intro i; simpl; [split; constructor|].
  destruct (IH (S i)) as [S1 S2]. split.
  - constructor; [exact S1|]. eapply Forall_impl; [|exact S2]. simpl. lia.
  - constructor; [lia|]. eapply Forall_impl; [|exact S2]. simpl. lia.
Qed.

Lemma items_sorted {K V} (l : list (K * V)) : StronglySorted lt (map idx (items l)).
Proof.
  unfold items. rewrite map_map. unfold idx. simpl. apply enum_from_sorted.
Qed.

Lemma lexlt_app a b u v : lexlt a b -> lexlt (a ++ u) (b ++ v).
Proof.
  revert b. induction a as [|x a IH]; intros [|y b]; simpl; try tauto.
  intros [H|[-> H]]; auto.
Qed.

Lemma lexlt_app_same a u v : lexlt u v -> lexlt (a ++ u) (a ++ v).
Proof. induction a; simpl; auto. Qed.

Lemma StronglySorted_app {A} (R : A -> A -> Prop) l1 l2 :
  StronglySorted R l1 -> StronglySorted R l2 -> (forall x y, In x l1 -> In y l2 -> R x y) ->
  StronglySorted R (l1 ++ l2).
Proof.
  induction l1 as [|x l1 IH]; simpl; intros S1 S2 H; [exact S2|].
  inversion S1 as [|? ? S3 F]; subst. constructor.
  - apply IH; auto.
  - apply Forall_app. split; [exact F|]. apply Forall_forall. intros y I. auto.
Qed.

(** Nested enumerations are sorted lexicographically. *)
Lemma nested_sorted {X K V Y} (L : list X) (key : X -> list nat) (f : X -> list (K * V))
  (g : item K V -> X -> Y) (key' : Y -> list nat) :
  (forall y x, key' (g y x) = key x ++ [idx y]) ->
  StronglySorted lexlt (map key L) ->
  StronglySorted lexlt (map key' (flat_map (fun x => map (fun y => g y x) (items (f x))) L)).
Proof.
  intros KE. induction L as [|x L IH]; simpl; intro S; [constructor|].
  inversion S as [|? ? S1 F]; subst. rewrite map_app. apply StronglySorted_app.
  - rewrite map_map. pose proof (items_sorted (f x)) as SI. clear - SI KE.
    induction (items (f x)) as [|y l IH]; simpl in *; [constructor|].
    inversion SI as [|? ? SI1 F]; subst. constructor; [auto|].
    rewrite KE. apply Forall_forall. intros z I. apply in_map_iff in I. destruct I as (y' & <- & I).
    rewrite KE. apply lexlt_app_same. simpl. left.
    rewrite Forall_forall in F. apply F. apply in_map. exact I.
  - auto.
  - intros u v Iu Iv. rewrite map_map in Iu. apply in_map_iff in Iu. destruct Iu as (y & <- & Iy).
    apply in_map_iff in Iv. destruct Iv as (z & <- & Iz). apply in_flat_map in Iz.
    destruct Iz as (x' & Ix' & Iz). apply in_map_iff in Iz. destruct Iz as (y' & <- & Iy').
    rewrite !KE. apply lexlt_app. rewrite Forall_forall in F. apply F. apply in_map. exact Ix'.
Qed.

Lemma all_wings_sorted a : StronglySorted lexlt (map key1 (all_wings a)).
Proof.
  unfold all_wings. pose proof (items_sorted (a_wings a)) as S.
  induction (items (a_wings a)) as [|x l IH]; simpl in *; [constructor|].
  inversion S as [|? ? S1 F]; subst. constructor; [auto|].
  apply Forall_forall. intros z I. apply in_map_iff in I. destruct I as (y & <- & I).
  simpl. left. rewrite Forall_forall in F. apply F. apply in_map. exact I.
Qed.

Lemma all_segments_sorted a : StronglySorted lexlt (map key2 (all_segments a)).
Proof.
  unfold all_segments.
  apply (nested_sorted (all_wings a) key1 (fun w => w_segs (obj w)) (fun s w => (s, w)) key2);
    [reflexivity|apply all_wings_sorted].
Qed.

Lemma all_controls_sorted a : StronglySorted lexlt (map key2 (all_controls a)).
Proof.
  unfold all_controls.
  apply (nested_sorted (all_wings a) key1 (fun w => w_ctls (obj w)) (fun s w => (s, w)) key2);
    [reflexivity|apply all_wings_sorted].
Qed.

Lemma all_subdivisions_sorted a : StronglySorted lexlt (map key3 (all_subdivisions a)).
Proof.
  unfold all_subdivisions.
  apply (nested_sorted (all_segments a) key2 (fun sw => strip_items (ws_strips (obj (fst sw))))
           (fun d sw => (d, fst sw, snd sw)) key3); [|apply all_segments_sorted].
  intros y [s w]. reflexivity.
Qed.

Lemma all_subareas_sorted a : StronglySorted lexlt (map key4 (all_subareas a)).
Proof.
  unfold all_subareas.
  apply (nested_sorted (all_subdivisions a) key3 (fun dsw => st_subs (obj (fst (fst dsw))))
           (fun v dsw => (v, fst (fst dsw), snd (fst dsw), snd dsw)) key4); [|apply all_subdivisions_sorted].
  intros y [[d s] w]. reflexivity.
Qed.

Lemma all_wings_In a nw kw w : In (nw, kw, w) (all_wings a) <-> nth_error (a_wings a) nw = Some (kw, w).
Proof. apply items_In. Qed.

Lemma all_segments_In a ns ks s nw kw w :
  In ((ns, ks, s), (nw, kw, w)) (all_segments a) <->
  nth_error (a_wings a) nw = Some (kw, w) /\ nth_error (w_segs w) ns = Some (ks, s).
Proof.
  unfold all_segments. rewrite in_flat_map. split.
  - intros ([[nw' kw'] w'] & I & J). apply in_map_iff in J. destruct J as (s' & E & J).
    injection E as -> -> -> ->. apply all_wings_In in I. apply items_In in J. auto.
  - intros [I J]. exists (nw, kw, w). split; [apply all_wings_In; exact I|].
    apply in_map_iff. exists (ns, ks, s). split; [reflexivity|]. apply items_In. exact J.
Qed.

Lemma all_controls_In a ns ks s nw kw w :
  In ((ns, ks, s), (nw, kw, w)) (all_controls a) <->
  nth_error (a_wings a) nw = Some (kw, w) /\ nth_error (w_ctls w) ns = Some (ks, s).
Proof.
  unfold all_controls. rewrite in_flat_map. split.
  - intros ([[nw' kw'] w'] & I & J). apply in_map_iff in J. destruct J as (s' & E & J).
    injection E as -> -> -> ->. apply all_wings_In in I. apply items_In in J. auto.
  - intros [I J]. exists (nw, kw, w). split; [apply all_wings_In; exact I|].
    apply in_map_iff. exists (ns, ks, s). split; [reflexivity|]. apply items_In. exact J.
Qed.

Lemma nth_enum {A} (l : list A) n m x : nth_error (enum l) n = Some (m, x) <-> m = n /\ nth_error l n = Some x.
Proof.
  assert (G : forall i, nth_error (enum_from i l) n = option_map (fun x => ((i + n)%nat, x)) (nth_error l n)).
  { revert n. induction l as [|y l IH]; intros [|n] i; simpl; auto.
    - rewrite Nat.add_0_r. reflexivity.
    - rewrite IH. destruct (nth_error l n); simpl; [|reflexivity]. do 2 f_equal. lia. }
  unfold enum. rewrite G. destruct (nth_error l n) eqn:E; simpl.
  - split; [intro H; injection H; intros; subst; auto|intros [-> H]; congruence].
  - split; [discriminate|intros [_ H]; discriminate].
Qed.

Lemma all_subdivisions_In a nd kd d ns ks s nw kw w :
  In ((nd, kd, d), (ns, ks, s), (nw, kw, w)) (all_subdivisions a) <->
  nth_error (a_wings a) nw = Some (kw, w) /\ nth_error (w_segs w) ns = Some (ks, s) /\
  nth_error (ws_strips s) nd = Some d /\ kd = nd.
Proof.
  unfold all_subdivisions. rewrite in_flat_map. split.
  - intros ([s' w'] & I & J). apply in_map_iff in J. destruct J as (d' & E & J).
    injection E as -> -> ->. apply all_segments_In in I. apply items_In in J.
    apply nth_enum in J. tauto.
  - intros (I & J & K & ->). exists ((ns, ks, s), (nw, kw, w)). split; [apply all_segments_In; auto|].
    apply in_map_iff. exists (nd, nd, d). split; [reflexivity|]. apply items_In. apply nth_enum. auto.
Qed.

Lemma all_subareas_In a na ka v nd kd d ns ks s nw kw w :
  In ((na, ka, v), (nd, kd, d), (ns, ks, s), (nw, kw, w)) (all_subareas a) <->
  nth_error (a_wings a) nw = Some (kw, w) /\ nth_error (w_segs w) ns = Some (ks, s) /\
  nth_error (ws_strips s) nd = Some d /\ kd = nd /\ nth_error (st_subs d) na = Some (ka, v).
Proof.
  unfold all_subareas. rewrite in_flat_map. split.
  - intros ([[d' s'] w'] & I & J). apply in_map_iff in J. destruct J as (v' & E & J).
    injection E as -> -> -> ->. apply all_subdivisions_In in I. apply items_In in J. tauto.
  - intros (I & J & K & -> & M). exists ((nd, nd, d), (ns, ks, s), (nw, kw, w)).
    split; [apply all_subdivisions_In; auto|].
    apply in_map_iff. exists (na, ka, v). split; [reflexivity|]. apply items_In. exact M.
Qed.

Lemma lexlt_irrefl a : ~ lexlt a a.
Proof. induction a as [|x a IH]; simpl; [tauto|]. intros [H|[_ H]]; [lia|tauto]. Qed.

Lemma sorted_NoDup {X} (key : X -> list nat) l : StronglySorted lexlt (map key l) -> NoDup l.
Proof.
  induction l as [|x l IH]; simpl; intro S; [constructor|].
  inversion S as [|? ? S1 F]; subst. constructor; [|auto].
  intro I. rewrite Forall_forall in F. apply (lexlt_irrefl (key x)). apply F. apply in_map. exact I.
Qed.

Lemma count_length {A} (l : list A) : count l = List.length l.
Proof.
  unfold count. assert (G : forall n, fold_left (fun n _ => S n) l n = (n + List.length l)%nat).
  { induction l as [|x l IH]; intro n; simpl; [lia|]. rewrite IH. lia. }
  apply G.
Qed.

Lemma items_length {K V} (l : list (K * V)) : List.length (items l) = List.length l.
Proof.
  unfold items, enum. rewrite map_length. generalize 0%nat.
  induction l as [|x l IH]; intro i; simpl; [reflexivity|]. rewrite IH. reflexivity.
Qed.

Lemma flat_map_length {A B} (f : A -> list B) l :
  List.length (flat_map f l) = list_sum (map (fun x => List.length (f x)) l).
Proof.
  induction l as [|x l IH]; simpl; [reflexivity|]. rewrite app_length, IH. reflexivity.
Qed.

Lemma items_map {K V B} (f : V -> B) (l : list (K * V)) :
  map (fun x => f (obj x)) (items l) = map (fun kv => f (snd kv)) l.
Proof.
  unfold items, enum, obj. rewrite map_map. simpl. generalize 0%nat.
  induction l as [|[k v] l IH]; intro i; simpl; [reflexivity|]. rewrite IH. reflexivity.
Qed.

Lemma enum_map_snd {A B} (f : A -> B) (l : list A) : map (fun x => f (snd x)) (enum l) = map f l.
Proof.
  unfold enum. generalize 0%nat. induction l as [|x l IH]; intro i; simpl; [reflexivity|].
  rewrite IH. reflexivity.
Qed.

Lemma map_flat_map {A B C} (g : B -> C) (f : A -> list B) l :
  map g (flat_map f l) = flat_map (fun x => map g (f x)) l.
Proof. induction l; simpl; [reflexivity|]. rewrite map_app, IHl. reflexivity. Qed.

Lemma list_sum_flat_map {A} (f : A -> list nat) l :
  list_sum (flat_map f l) = list_sum (map (fun x => list_sum (f x)) l).
Proof. induction l; simpl; [reflexivity|]. rewrite list_sum_app, IHl. reflexivity. Qed.


Lemma counts_ok a :
  count_all_wings a = List.length (a_wings a) /\
  count_all_segments a = list_sum (map (fun kw => List.length (w_segs (snd kw))) (a_wings a)) /\
  count_all_controls a = list_sum (map (fun kw => List.length (w_ctls (snd kw))) (a_wings a)) /\
  count_all_subareas a =
    list_sum (map (fun kw =>
      list_sum (map (fun ks =>
        list_sum (map (fun d => List.length (st_subs d)) (ws_strips (snd ks)))) (w_segs (snd kw)))) (a_wings a)).
Proof.
  unfold count_all_wings, count_all_segments, count_all_controls, count_all_subareas.
  rewrite !count_length. split; [apply items_length|].
  unfold all_segments, all_controls, all_subareas, all_subdivisions, all_segments, all_wings.
  rewrite !flat_map_length.
  split; [|split].
  - rewrite <- (items_map (fun w => List.length (w_segs w))). f_equal. apply map_ext.
    intro x. rewrite map_length, items_length. reflexivity.
  - rewrite <- (items_map (fun w => List.length (w_ctls w))). f_equal. apply map_ext.
    intro x. rewrite map_length, items_length. reflexivity.
  - rewrite !map_flat_map, list_sum_flat_map.
    rewrite map_flat_map, list_sum_flat_map.
    rewrite <- (items_map (fun w => list_sum (map (fun ks =>
        list_sum (map (fun d => List.length (st_subs d)) (ws_strips (snd ks)))) (w_segs w)))).
    f_equal. apply map_ext. intro x. rewrite map_map. simpl.
    rewrite <- (items_map (fun s => list_sum (map (fun d => List.length (st_subs d)) (ws_strips s)))).
    f_equal. apply map_ext. intro y. rewrite map_map. simpl.
    unfold strip_items.
    rewrite (map_ext _ (fun z => List.length (st_subs (obj z)))).
    2:{ intro z. rewrite map_length, items_length. reflexivity. }
    rewrite (items_map (fun d => List.length (st_subs d))), (enum_map_snd (fun d => List.length (st_subs d))). reflexivity.
Qed.

(** ** C38 *)

Lemma subareas_of_control_err l uid :
  (exists x, In x l /\ sa_ctrl (v_sub x) = None) -> subareas_of_control l uid = Err AttributeError.
Proof.
  induction l as [|[[[v d] s] w] l IH]; intros (x & I & E); [destruct I|]. simpl.
  destruct (sa_ctrl (obj v)) eqn:C; [|reflexivity].
  destruct I as [<-|I]; [unfold v_sub in E; simpl in E; congruence|].
  rewrite IH by eauto. reflexivity.
Qed.

Lemma chord_inv_main s : chord_inv s -> exists v, In (ASegment, v) (st_subs s) /\ sa_ctrl v = None.
Proof.
  intros (os & of & (Fm & _) & _). exists (main_sub os of). split; [apply sget_In; exact Fm|reflexivity].
Qed.

Lemma run_nonempty interp ops : run interp ops <> [].
Proof.
  destruct (first0_run interp ops) as (s & N & _). destruct (run interp ops); [discriminate|congruence].
Qed.

Lemma panelled_listing_fails a uid :
  panelled a -> (exists wn w sn s, In (wn, w) (a_wings a) /\ In (sn, s) (w_segs w)) ->
  all_subareas_of_control a uid = Err AttributeError.
Proof.
  intros P (wn & w & sn & s & Iw & Is). apply subareas_of_control_err.
  destruct (P _ _ _ _ Iw Is) as [(interp & ops & SS & ER) _].
  pose proof (run_nonempty interp ops) as NE.
  destruct (run interp ops) as [|st rest] eqn:R; [congruence|].
  destruct (chord_inv_main st) as (v & Iv & Cv).
  { apply (sound_chord interp ops SS). rewrite R. left. reflexivity. }
  apply In_nth_error in Iw. destruct Iw as [nw Nw].
  apply In_nth_error in Is. destruct Is as [ns Ns].
  apply In_nth_error in Iv. destruct Iv as [na Na].
  exists ((na, ASegment, v), (0%nat, 0%nat, st), (ns, sn, s), (nw, wn, w)).
  split; [|exact Cv]. apply all_subareas_In. rewrite ER. simpl. auto.
Qed.

Lemma no_segments_listing_ok a uid :
  (forall wn w, In (wn, w) (a_wings a) -> w_segs w = []) -> all_subareas_of_control a uid = Ok [].
Proof.
  intro H. unfold all_subareas_of_control.
  assert (E : all_subareas a = []).
  { destruct (all_subareas a) as [|x l] eqn:E; [reflexivity|]. exfalso.
    destruct x as [[[[[na ka] v] [[nd kd] d]] [[ns ks] s]] [[nw kw] w]].
    assert (I : In ((na, ka, v), (nd, kd, d), (ns, ks, s), (nw, kw, w)) (all_subareas a)) by (rewrite E; left; reflexivity).
    apply all_subareas_In in I. destruct I as (I1 & I2 & _).
    apply nth_error_In in I1. rewrite (H _ _ I1) in I2. destruct ns; discriminate. }
  rewrite E. reflexivity.
Qed.
