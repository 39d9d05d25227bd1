(** Proofs for C26 and C27. *)
From Coq Require Import List String ZArith QArith Qround Qabs Bool Lia Lqa Qfield.
From Verif Require Import PyBase PyFacts StripModel AircraftModel WingModel WingSpec.
Import ListNotations.
Open Scope Q_scope.

Lemma fold_plus {A} (f : A -> Q) l : forall x, fold_left (fun s a => s + f a) l x == x + qsum (map f l).
Proof.
  induction l as [|a l IH]; intro x; cbn [fold_left map qsum fold_right]; [ring|].
  rewrite IH. unfold qsum. ring.
Qed.

Lemma wing_span_total w : wing_span w == total_span w.
Proof. unfold wing_span, total_span. rewrite (fold_plus (fun x => Qabs (ws_span (snd x)))). ring. Qed.


Lemma share_ceiling sp W W' n : 0 < W -> W == W' -> share sp W n (Qceiling (sp / W' * inject_Z n)).
Proof.
  intros P E. unfold share. set (x := sp / W' * inject_Z n).
  assert (X : sp * inject_Z n == x * W) by (unfold x; rewrite <- E; field; lra).
  pose proof (Qle_ceiling x) as A. pose proof (Qceiling_lt x) as B. rewrite X.
  split.
  - apply Qmult_le_compat_r; lra.
  - apply Qmult_lt_compat_r; assumption.
Qed.

Lemma auto_segments_ok W W' ac ns l : 0 < W -> W == W' ->
  exists l', auto_segments W' ac ns l = (l', Ok tt) /\ dict_rel (segment_filled W ac ns) l l'.
Proof.
  intros P E. induction l as [|[k s] l (l' & IH & R)].
  - exists []. split; [reflexivity|constructor].
  - cbn [auto_segments]. unfold auto_segment.
    set (s1 := match ws_num_c s with None => set_num_c s (Some ac) | Some _ => s end).
    assert (F : ws_uid s1 = ws_uid s /\ ws_span s1 = ws_span s /\ ws_strips s1 = ws_strips s /\ ws_num_s s1 = ws_num_s s /\
                given_or (ws_num_c s) ac (ws_num_c s1)).
    { unfold s1. destruct (ws_num_c s) eqn:N; repeat split; cbn; assumption || reflexivity. }
    destruct F as (F1 & F2 & F3 & F4 & F5). clearbody s1. destruct (ws_num_s s1) eqn:N.
    + rewrite IH. eexists. split; [reflexivity|]. constructor; [|exact R]. split; [reflexivity|]. cbn [snd].
      unfold segment_filled. rewrite <- F4, N. auto.
    + replace (Qeqb W' 0) with false by (symmetry; apply Qeqb_false; lra). rewrite IH. eexists. split; [reflexivity|].
      constructor; [|exact R]. split; [reflexivity|]. cbn [snd]. unfold segment_filled. cbn [ws_uid set_num_s ws_span ws_strips ws_num_c ws_num_s].
      rewrite <- F4. repeat (split; [assumption|]). eexists. split; [reflexivity|]. rewrite F2. apply share_ceiling; assumption.
Qed.

Lemma auto_segments_given W ac ns l : (forall k s, In (k, s) l -> ws_num_s s <> None) ->
  exists l', auto_segments W ac ns l = (l', Ok tt) /\ forall V, dict_rel (segment_filled V ac ns) l l'.
Proof.
  induction l as [|[k s] l IH]; intro H.
  - exists []. split; [reflexivity|constructor].
  - destruct IH as (l' & IH & R); [intros k' s' I; exact (H k' s' (or_intror I))|]. cbn [auto_segments]. unfold auto_segment.
    set (s1 := match ws_num_c s with None => set_num_c s (Some ac) | Some _ => s end).
    assert (F : ws_uid s1 = ws_uid s /\ ws_span s1 = ws_span s /\ ws_strips s1 = ws_strips s /\ ws_num_s s1 = ws_num_s s /\
                given_or (ws_num_c s) ac (ws_num_c s1)).
    { unfold s1. destruct (ws_num_c s) eqn:N; repeat split; cbn; assumption || reflexivity. }
    destruct F as (F1 & F2 & F3 & F4 & F5). clearbody s1. destruct (ws_num_s s1) eqn:N.
    + rewrite IH. eexists. split; [reflexivity|]. intro V. constructor; [|exact (R V)]. split; [reflexivity|]. cbn [snd].
      unfold segment_filled. rewrite <- F4, N. auto.
    + exfalso. apply (H k s (or_introl eq_refl)). congruence.
Qed.

Lemma auto_segments_raises W ac ns l : W == 0 -> (exists k s, In (k, s) l /\ ws_num_s s = None) ->
  snd (auto_segments W ac ns l) = Err ZeroDivisionError.
Proof.
  intros Z. induction l as [|[k s] l IH]; intros (k' & s' & I & N); [destruct I|]. cbn [auto_segments]. unfold auto_segment.
  set (s1 := match ws_num_c s with None => set_num_c s (Some ac) | Some _ => s end).
  assert (F : ws_num_s s1 = ws_num_s s) by (unfold s1; destruct (ws_num_c s); reflexivity). clearbody s1.
  rewrite F. destruct (ws_num_s s) eqn:E.
  - destruct I as [I|I]; [congruence|]. destruct (auto_segments W ac ns l) as [l2 r2]. cbn in IH |- *. apply IH. eauto.
  - replace (Qeqb W 0) with true by (symmetry; apply Qeqb_true; assumption). reflexivity.
Qed.

(** A wing needs its span only if some spanwise count is missing. *)
Lemma needs_span_dec w : needs_span w \/ forall k s, In (k, s) (w_segs w) -> ws_num_s s <> None.
Proof.
  unfold needs_span. induction (w_segs w) as [|[k s] l IH]; [right; intros k s []|].
  destruct (ws_num_s s) eqn:E; [|left; exists k, s; split; [left|]; auto].
  destruct IH as [(k' & s' & I & N)|H]; [left; exists k', s'; split; [right|]; auto|].
  right. intros k' s' [I|I]; [congruence|eauto].
Qed.

Lemma total_span_nonneg w : 0 <= total_span w.
Proof.
  unfold total_span. induction (w_segs w) as [|x l IH]; cbn; [lra|]. unfold qsum in IH. pose proof (Qabs_nonneg (ws_span (snd x))). lra.
Qed.

Lemma dict_rel_refl_wing nc ns w w1 : w_uid w1 = w_uid w -> w_symmetry w1 = w_symmetry w -> w_ctls w1 = w_ctls w ->
  dict_rel (segment_filled (total_span w) nc ns) (w_segs w) (w_segs w1) ->
  wing_filled nc ns w (auto_controls nc w1).
Proof.
  intros A B C D. unfold wing_filled, auto_controls, set_ctls. cbn [w_uid w_symmetry w_segs w_ctls].
  repeat (split; [assumption|]). rewrite C. unfold dict_rel. clear. induction (w_ctls w) as [|[k c] l IH]; cbn [map]; [constructor|constructor; [|exact IH]].
  cbn [fst snd]. split; [reflexivity|]. unfold control_filled, auto_control. destruct (wc_num_c c) eqn:E; cbn; rewrite ?E; repeat split; reflexivity.
Qed.

Lemma auto_wings_ok nc ns l : (forall k w, In (k, w) l -> needs_span w -> 0 < total_span w) ->
  exists l', auto_wings nc ns l = (l', Ok tt) /\
    Forall2 (fun x y => fst y = fst x /\ wing_filled nc ns (snd x) (auto_controls nc (snd y))) l l'.
Proof.
  induction l as [|[k w] l IH]; intro H; [exists []; split; [reflexivity|constructor]|].
  destruct IH as (l' & IH & R); [intros k' w' I; exact (H k' w' (or_intror I))|]. cbn [auto_wings].
  assert (S : exists segs, auto_segments (wing_span w) nc ns (w_segs w) = (segs, Ok tt) /\
    dict_rel (segment_filled (total_span w) nc ns) (w_segs w) segs).
  { destruct (needs_span_dec w) as [N|N].
    - apply auto_segments_ok; [exact (H k w (or_introl eq_refl) N)|symmetry; apply wing_span_total].
    - destruct (auto_segments_given (wing_span w) nc ns (w_segs w) N) as (segs & E & D). exists segs. auto. }
  destruct S as (segs & E & D). rewrite E, IH. eexists. split; [reflexivity|]. constructor; [|exact R].
  cbn [fst snd]. split; [reflexivity|]. apply dict_rel_refl_wing; reflexivity || exact D.
Qed.

Lemma Forall2_map_r {A B C} (R : A -> C -> Prop) (f : B -> C) l l' :
  Forall2 (fun x y => R x (f y)) l l' -> Forall2 R l (map f l').
Proof. induction 1; cbn; constructor; assumption. Qed.

Lemma autopanels_ok oc os a : (forall k w, In (k, w) (a_wings a) -> needs_span w -> 0 < total_span w) ->
  exists a', set_autopanels oc os a = (a', Ok tt) /\ a_uid a' = a_uid a /\
    dict_rel (wing_filled (or_one oc) (or_one os)) (a_wings a) (a_wings a').
Proof.
  intro H. unfold set_autopanels. fold (or_one oc) (or_one os). change MIN_AUTOPANELS with 1%Z.
  destruct (auto_wings_ok (match oc with Some n => n | None => 1 end) (match os with Some n => n | None => 1 end) (a_wings a) H) as (l' & E & R).
  rewrite E. eexists. split; [reflexivity|]. split; [reflexivity|]. cbn [a_wings]. unfold dict_rel.
  apply (Forall2_map_r (fun x y => fst y = fst x /\ wing_filled (or_one oc) (or_one os) (snd x) (snd y))). exact R.
Qed.

Lemma auto_wings_raises nc ns l : (exists k w, In (k, w) l /\ needs_span w /\ total_span w == 0) ->
  snd (auto_wings nc ns l) = Err ZeroDivisionError.
Proof.
  induction l as [|[k w] l IH]; intros (k' & w' & I & N & Z); [destruct I|]. cbn [auto_wings].
  destruct (auto_segments (wing_span w) nc ns (w_segs w)) as [segs r] eqn:E. destruct r as [[]|e].
  - destruct I as [I|I].
    + injection I as <- <-. pose proof (auto_segments_raises (wing_span w) nc ns (w_segs w)) as A. rewrite E in A. cbn in A.
      assert (A' : Ok tt = Err ZeroDivisionError) by (apply A; [rewrite wing_span_total; exact Z|exact N]). discriminate.
    + destruct (auto_wings nc ns l) as [l2 r2]. cbn in IH |- *. apply IH. eauto.
  - cbn. f_equal.
    assert (Hd : needs_span w).
    { destruct (needs_span_dec w) as [H|H]; [exact H|]. destruct (auto_segments_given (wing_span w) nc ns (w_segs w) H) as (x & X & _). congruence. }
    destruct (Qlt_le_dec 0 (total_span w)) as [P|P].
    + destruct (auto_segments_ok (total_span w) (wing_span w) nc ns (w_segs w) P) as (x & X & _); [symmetry; apply wing_span_total|congruence].
    + pose proof (total_span_nonneg w). pose proof (auto_segments_raises (wing_span w) nc ns (w_segs w)) as A. rewrite E in A. cbn in A.
      assert (A' : @Err unit e = Err ZeroDivisionError) by (apply A; [rewrite wing_span_total; lra|exact Hd]). congruence.
Qed.

Lemma autopanels_error oc os a :
  (exists k w, In (k, w) (a_wings a) /\ needs_span w /\ total_span w == 0) ->
  snd (set_autopanels oc os a) = Err ZeroDivisionError.
Proof.
  intro H. unfold set_autopanels.
  pose proof (auto_wings_raises (match oc with Some n => n | None => MIN_AUTOPANELS end) (match os with Some n => n | None => MIN_AUTOPANELS end) _ H) as A.
  destruct (auto_wings _ _ _) as [ws r]. cbn in A. subst r. reflexivity.
Qed.

(** ** Bounds *)

Lemma span_le_total w k s : In (k, s) (w_segs w) -> ws_span s <= total_span w.
Proof.
  unfold total_span. induction (w_segs w) as [|x l IH]; [intros []|]. cbn. intros [->|I].
  - cbn. pose proof (Qle_Qabs (ws_span s)). assert (0 <= qsum (map (fun x => Qabs (ws_span (snd x))) l)).
    { clear. induction l as [|x l IH]; cbn; [lra|]. unfold qsum in IH. pose proof (Qabs_nonneg (ws_span (snd x))). lra. }
    unfold qsum in *. lra.
  - specialize (IH I). unfold qsum in IH. pose proof (Qabs_nonneg (ws_span (snd x))). lra.
Qed.

Lemma share_bounds sp W n k : 0 < sp -> sp <= W -> (1 <= n)%Z -> share sp W n k -> (1 <= k <= n)%Z.
Proof.
  intros P L N (A & B). rewrite Zle_Qle in N. change (inject_Z 1) with 1 in N.
  assert (K : 0 < inject_Z k).
  { destruct (Qlt_le_dec 0 (inject_Z k)) as [H|H]; [exact H|]. exfalso.
    assert (0 < sp * inject_Z n) by (apply Qmult_lt_0_compat; lra).
    assert (inject_Z k * W <= 0) by (rewrite <- (Qmult_0_l W); apply Qmult_le_compat_r; lra). lra. }
  change 0 with (inject_Z 0) in K. rewrite <- Zlt_Qlt in K. split; [lia|].
  destruct (Z_lt_le_dec n k) as [H|H]; [exfalso|exact H].
  assert (H' : (n <= k - 1)%Z) by lia. rewrite Zle_Qle in H'.
  assert (inject_Z n * W <= inject_Z (k - 1) * W) by (apply Qmult_le_compat_r; lra).
  assert (sp * inject_Z n <= W * inject_Z n) by (apply Qmult_le_compat_r; lra).
  assert (W * inject_Z n == inject_Z n * W) by ring. lra.
Qed.

Lemma Forall2_nth {A B} (R : A -> B -> Prop) l l' : Forall2 R l l' -> forall i y, nth_error l' i = Some y -> exists x, nth_error l i = Some x /\ R x y.
Proof. induction 1; intros [|i] z E; try discriminate; cbn in E; [injection E as <-; exists x; auto|exact (IHForall2 i z E)]. Qed.


Lemma shares_sum W nc n l l' : dict_rel (segment_filled W nc n) l l' ->
  (forall k s, In (k, s) l -> ws_num_s s = None /\ 0 < ws_span s) ->
  let S := qsum (map (fun x => Qabs (ws_span (snd x))) l) in
  let K := zsum (map (fun x => count_s (snd x)) l') in
  S * inject_Z n <= inject_Z K * W /\ inject_Z (K - Z.of_nat (List.length l)) * W <= S * inject_Z n /\
  (l <> [] -> inject_Z (K - Z.of_nat (List.length l)) * W < S * inject_Z n).
Proof.
  induction 1 as [|[k s] [k' s'] l l' (E & F) R IH]; intros H S K.
  - subst S K. cbn. split; [|split]; [ring_simplify; lra|ring_simplify; lra|congruence].
  - cbn [fst snd] in *. destruct (H k s (or_introl eq_refl)) as (N & P).
    destruct F as (_ & _ & _ & _ & F). rewrite N in F. destruct F as (c & C & (A & B)).
    destruct IH as (I1 & I2 & _); [intros k2 s2 I; exact (H k2 s2 (or_intror I))|].
    subst S K. cbn [map qsum fold_right zsum snd List.length]. unfold count_s at 1 3 5. rewrite C.
    fold (qsum (map (fun x : string * wsegment => Qabs (ws_span (snd x))) l)).
    fold (zsum (map (fun x : string * wsegment => count_s (snd x)) l')).
    set (S := qsum _) in *. set (K := zsum _) in *. rewrite (Qabs_pos (ws_span s)) by lra.
    replace (c + K - Z.of_nat (Datatypes.S (List.length l)))%Z with ((c - 1) + (K - Z.of_nat (List.length l)))%Z by lia.
    rewrite !inject_Z_plus, !Qmult_plus_distr_l. split; [lra|]. split; [lra|]. intros _. lra.
Qed.

Lemma panel_totals w w' nc n : (1 <= n)%Z -> wing_filled nc n w w' -> w_segs w <> [] ->
  (forall k s, In (k, s) (w_segs w) -> ws_num_s s = None /\ 0 < ws_span s) ->
  (n <= zsum (map (fun x => count_s (snd x)) (w_segs w')) < n + Z.of_nat (List.length (w_segs w)))%Z.
Proof.
  intros N (_ & _ & D & _) NE H. destruct (shares_sum _ _ _ _ _ D H) as (A & _ & B). specialize (B NE).
  fold (total_span w) in A, B. set (K := zsum _) in *. set (W := total_span w) in *.
  assert (P : 0 < W).
  { destruct (w_segs w) as [|[k s] l] eqn:E; [congruence|]. destruct (H k s (or_introl eq_refl)) as (_ & P).
    assert (ws_span s <= W) by (apply (span_le_total w k s); rewrite E; left; reflexivity). lra. }
  assert (C : W * inject_Z n == inject_Z n * W) by ring. rewrite C in A, B. split.
  - rewrite Zle_Qle. apply (Qmult_le_r _ _ W P). exact A.
  - assert (X : (K - Z.of_nat (List.length (w_segs w)) < n)%Z); [|lia].
    rewrite Zlt_Qlt. apply (Qmult_lt_r _ _ W P). exact B.
Qed.

Lemma dict_rel_In {V} (R : V -> V -> Prop) d d' k y : dict_rel R d d' -> In (k, y) d' -> exists x, In (k, x) d /\ R x y.
Proof.
  induction 1 as [|[k1 x1] [k2 y2] d d' (E & F) H IH]; [intros []|]. cbn in *. intros [I|I].
  - injection I as <- <-. exists x1. subst k2. auto.
  - destruct (IH I) as (x & ? & ?). exists x. auto.
Qed.

Lemma panels_at_least_one w w' nc n : (1 <= n)%Z -> wing_filled nc n w w' ->
  forall k s', In (k, s') (w_segs w') -> exists s, In (k, s) (w_segs w) /\
    (ws_num_s s = None -> 0 < ws_span s -> (1 <= count_s s' <= n)%Z).
Proof.
  intros N (_ & _ & D & _) k s' I. destruct (dict_rel_In _ _ _ _ _ D I) as (s & Is & (_ & _ & _ & _ & F)).
  exists s. split; [exact Is|]. intros E P. rewrite E in F. destruct F as (c & C & S). unfold count_s. rewrite C.
  apply (share_bounds (ws_span s) (total_span w) n c P (span_le_total w k s Is) N S).
Qed.

Lemma positive_total a : positive_spans a -> forall k w, In (k, w) (a_wings a) -> needs_span w -> 0 < total_span w.
Proof.
  intros H k w I (sn & s & Is & _). pose proof (H k w sn s I Is). pose proof (span_le_total w sn s Is). lra.
Qed.

(** Everything set: nothing changes; so a second run changes nothing. *)
Lemma auto_segments_id W nc ns l : (forall k s, In (k, s) l -> ws_num_c s <> None /\ ws_num_s s <> None) ->
  auto_segments W nc ns l = (l, Ok tt).
Proof.
  induction l as [|[k s] l IH]; intro H; [reflexivity|]. cbn [auto_segments]. unfold auto_segment.
  destruct (H k s (or_introl eq_refl)) as (A & B). destruct (ws_num_c s) eqn:C; [|congruence]. destruct (ws_num_s s) eqn:D; [|congruence].
  rewrite IH; [reflexivity|]. intros k' s' I. exact (H k' s' (or_intror I)).
Qed.

Lemma autopanels_id oc os a : all_set a -> set_autopanels oc os a = (a, Ok tt).
Proof.
  unfold set_autopanels. generalize (match oc with Some n => n | None => MIN_AUTOPANELS end) (match os with Some n => n | None => MIN_AUTOPANELS end).
  intros nc ns H. assert (X : auto_wings nc ns (a_wings a) = (a_wings a, Ok tt)).
  { unfold all_set in H. induction (a_wings a) as [|[k w] l IH]; [reflexivity|]. cbn [auto_wings].
    destruct (H k w (or_introl eq_refl)) as (A & _). rewrite (auto_segments_id _ _ _ _ A), IH.
    - destruct w. reflexivity.
    - intros wn w' I. exact (H wn w' (or_intror I)). }
  rewrite X. destruct a as [u ws]. cbn [a_uid a_wings] in *. f_equal. f_equal. unfold all_set in H. cbn [a_wings] in H. clear X.
  induction ws as [|[k w] l IH]; [reflexivity|]. cbn [map fst snd]. rewrite IH; [|intros wn w' I; exact (H wn w' (or_intror I))]. f_equal. f_equal.
  destruct (H k w (or_introl eq_refl)) as (_ & A). destruct w as [wu sy sg ct]. unfold auto_controls, set_ctls. cbn [w_ctls w_uid w_symmetry w_segs] in *.
  f_equal. clear -A. induction ct as [|[k c] ct IH]; [reflexivity|]. cbn [map fst snd]. rewrite IH; [|intros k' c' I; exact (A k' c' (or_intror I))].
  f_equal. f_equal. unfold auto_control. specialize (A k c (or_introl eq_refl)). destruct (wc_num_c c); [reflexivity|congruence].
Qed.

Lemma filled_all_set nc ns a a' : dict_rel (wing_filled nc ns) (a_wings a) (a_wings a') -> all_set a'.
Proof.
  intros D wn w' I. destruct (dict_rel_In _ _ _ _ _ D I) as (w & _ & (_ & _ & S & C)). split.
  - intros k s' Is. destruct (dict_rel_In _ _ _ _ _ S Is) as (s & _ & (_ & _ & _ & G & F)). unfold given_or in G. split.
    + destruct (ws_num_c s); congruence.
    + destruct (ws_num_s s); [congruence|]. destruct F as (k0 & F & _). congruence.
  - intros k c' Ic. destruct (dict_rel_In _ _ _ _ _ C Ic) as (c & _ & (G & _)). unfold given_or in G. destruct (wc_num_c c); congruence.
Qed.

(** ** C27 *)

Lemma positions_from_chain W l : 0 < W -> forall pos, (forall g, In g l -> 0 < g_span g) ->
  chained (pos / W) (positions_from pos W l) ((pos + qsum (map g_span l)) / W).
Proof.
  intro P. induction l as [|g l IH]; intros pos H; cbn [positions_from chained map qsum fold_right].
  - rewrite Qplus_0_r. reflexivity.
  - split; [reflexivity|]. split.
    + unfold Qdiv. apply Qmult_lt_compat_r; [apply Qinv_lt_0_compat; exact P|]. pose proof (H g (or_introl eq_refl)). lra.
    + assert (E : (pos + (g_span g + fold_right Qplus 0 (map g_span l))) / W == (pos + g_span g + qsum (map g_span l)) / W)
        by (unfold qsum, Qdiv; ring).
      specialize (IH (pos + g_span g) (fun x I => H x (or_intror I))). revert IH.
      generalize ((pos + g_span g) / W). generalize (positions_from (pos + g_span g) W l). clear -E.
      intro l0. revert E. generalize ((pos + (g_span g + fold_right Qplus 0 (map g_span l))) / W) ((pos + g_span g + qsum (map g_span l)) / W).
      intros u v E. induction l0 as [|[a b] l0 IH]; cbn; intros x; [intros ->; symmetry; exact E|]. intros (A & B & C). auto.
Qed.

Lemma chained_ext x y y' l : y == y' -> chained x l y -> chained x l y'.
Proof. intro E. revert x. induction l as [|[a b] l IH]; cbn; intros x; [intro F; rewrite F; exact E|intros (A & B & C); auto]. Qed.
Lemma chained_ext_l x x' y l : x == x' -> chained x l y -> chained x' l y.
Proof. intro E. destruct l as [|[a b] l]; cbn; [intro F; rewrite <- E; exact F|rewrite E; auto]. Qed.

Lemma span_of_pos l : (forall g, In g l -> 0 < g_span g) -> span_of l == qsum (map g_span l).
Proof.
  intro H. unfold span_of. rewrite (fold_plus (fun g => Qabs (g_span g))), Qplus_0_l.
  induction l as [|g l IH]; [reflexivity|]. cbn. unfold qsum in IH. rewrite IH by (intros x I; exact (H x (or_intror I))).
  rewrite Qabs_pos; [reflexivity|]. apply Qlt_le_weak. apply H. left. reflexivity.
Qed.

(** Without span there are no positions, and this is the only failure. *)
Lemma abs_sum_zero l : 0 <= qsum (map (fun g => Qabs (g_span g)) l) /\
  (qsum (map (fun g => Qabs (g_span g)) l) == 0 <-> forall g, In g l -> g_span g == 0).
Proof.
  induction l as [|x l [P Z]]; cbn [map qsum fold_right].
  - split; [lra|]. split; [intros _ g []|reflexivity].
  - fold (qsum (map (fun g => Qabs (g_span g)) l)) in *. pose proof (Qabs_nonneg (g_span x)) as A. split; [lra|]. split.
    + intros S g [<-|I]; [|apply Z; [lra|exact I]]. assert (E : Qabs (g_span x) == 0) by lra.
      pose proof (Qle_Qabs (g_span x)). pose proof (Qle_Qabs (- g_span x)) as M. rewrite Qabs_opp in M. lra.
    + intro H. assert (E : g_span x == 0) by (apply H; left; reflexivity). assert (Qabs (g_span x) == 0) by (rewrite E; reflexivity).
      assert (qsum (map (fun g => Qabs (g_span g)) l) == 0) by (apply Z; intros g I; apply H; right; exact I). lra.
Qed.
Lemma positions_fail l e : positions l = Err e <-> e = ZeroDivisionError /\ l <> [] /\ (forall g, In g l -> g_span g == 0).
Proof.
  assert (S : Qeqb (span_of l) 0 = true <-> forall g, In g l -> g_span g == 0).
  { rewrite <- (proj2 (abs_sum_zero l)). unfold span_of. split; intro H.
    - apply Qeqb_true in H. rewrite (fold_plus (fun g => Qabs (g_span g))), Qplus_0_l in H. exact H.
    - apply Qeqb_true. rewrite (fold_plus (fun g => Qabs (g_span g))), Qplus_0_l. exact H. }
  unfold positions. destruct (Qeqb (span_of l) 0) eqn:Q.
  - destruct l as [|x l]; cbn [andb negb].
    + split; [discriminate|]. intros (_ & N & _). congruence.
    + split; [intros [= <-]; split; [reflexivity|]; split; [discriminate|apply S; reflexivity]|]. intros (-> & _). reflexivity.
  - cbn [andb]. split; [discriminate|]. intros (_ & _ & H). apply S in H. congruence.
Qed.

Lemma positions_ok l : l <> [] -> (forall g, In g l -> 0 < g_span g) ->
  exists ps, positions l = Ok ps /\ List.length ps = List.length l /\ chained 0 ps 1 /\
    forall i g a b, nth_error l i = Some g -> nth_error ps i = Some (a, b) -> (b - a) * qsum (map g_span l) == g_span g.
Proof.
  intros NE H. assert (P : 0 < span_of l).
  { rewrite (span_of_pos l H). destruct l as [|g l]; [congruence|]. cbn. pose proof (H g (or_introl eq_refl)).
    assert (0 <= fold_right Qplus 0 (map g_span l)); [|lra]. clear -H. assert (H' : forall x, In x l -> 0 < g_span x) by (intros x I; exact (H x (or_intror I))).
    clear H. induction l as [|x l IH]; cbn; [lra|]. pose proof (H' x (or_introl eq_refl)). pose proof (IH (fun y I => H' y (or_intror I))). lra. }
  unfold positions. replace (Qeqb (span_of l) 0) with false by (symmetry; apply Qeqb_false; lra). cbn [andb].
  eexists. split; [reflexivity|]. split; [|split].
  - generalize 0 (span_of l). clear. induction l as [|g l IH]; intros; cbn; [reflexivity|f_equal; apply IH].
  - pose proof (positions_from_chain (span_of l) l P 0 H) as C. apply (chained_ext_l (0 / span_of l)); [unfold Qdiv; ring|].
    eapply chained_ext; [|exact C]. rewrite Qplus_0_l, <- (span_of_pos l H). field. lra.
  - intros i g a b E F. rewrite <- (span_of_pos l H). revert P E F. generalize (span_of l). intros W P. clear -P. revert i g a b. generalize 0. induction l as [|x l IH]; intros pos [|i] g a b E F; try discriminate.
    + injection E as <-. injection F as <- <-. field. lra.
    + exact (IH _ i g a b E F).
Qed.

Lemma areas l ws :
  span_of l == qsum (map (fun g => Qabs (g_span g)) l) /\
  wing_area l == qsum (map (fun g => g_span g * (g_inner_chord g + g_outer_chord g) / 2) l) /\
  aircraft_area ws == qsum (map (fun w => qsum (map (fun g => g_span g * (g_inner_chord g + g_outer_chord g) / 2) w)) ws).
Proof.
  assert (A : forall l, wing_area l == qsum (map (fun g => g_span g * (g_inner_chord g + g_outer_chord g) / 2) l)).
  { intro k. unfold wing_area. rewrite (fold_plus seg_area), Qplus_0_l. induction k as [|g k IH]; cbn; [reflexivity|]. unfold qsum in IH.
    rewrite IH. unfold seg_area. field. }
  split; [|split].
  - unfold span_of. rewrite (fold_plus (fun g => Qabs (g_span g))). ring.
  - apply A.
  - unfold aircraft_area. rewrite (fold_plus wing_area), Qplus_0_l. induction ws as [|w ws IH]; cbn; [reflexivity|]. unfold qsum in IH at 1 2.
    rewrite IH, A. reflexivity.
Qed.
