(** Proofs about [pre_panelling]. *)
From Coq Require Import List String ZArith QArith Bool Lia Lqa Qfield.
From Verif Require Import PyBase PyFacts StripModel StripSpec StripChord StripControl AircraftModel LatticeSpec WingModel
  PrePanelModel PrePanelSpec.
Import ListNotations.
Open Scope Q_scope.

Lemma NoDup_app_remove_l {A} (l l' : list A) : NoDup (l ++ l') -> NoDup l'.
Proof. induction l as [|x l IH]; [auto|]. intro H. inversion H; subst. auto. Qed.
Lemma NoDup_app_remove_r {A} (l l' : list A) : NoDup (l ++ l') -> NoDup l.
Proof.
  induction l as [|x l IH]; intro H; [constructor|]. inversion H as [|? ? N1 N2]; subst. constructor; [|exact (IH N2)].
  intro I. apply N1. apply in_or_app. left. exact I.
Qed.

(** ** Rows of CASE (B) *)

Lemma between_l x y : between x y x.
Proof. unfold between. destruct (Qlt_le_dec x y); [left|right]; lra. Qed.
Lemma between_r x y : between x y y.
Proof. unfold between. destruct (Qlt_le_dec x y); [left|right]; lra. Qed.
Lemma between_mid x y : between x y ((x + y) / 2).
Proof.
  unfold between. assert (E : (x + y) / 2 == x + (y - x) * (1 # 2)) by field.
  destruct (Qlt_le_dec x y); [left|right]; rewrite E; lra.
Qed.

Lemma opt_is_some k s : opt_is (Some s) k = String.eqb k s.
Proof. reflexivity. Qed.

Section Rows.
Variables (c : wcontrol) (h1 h2 : Q) (inner outer : string).
Hypothesis (Hi : wc_inner c = Some inner) (Ho : wc_outer c = Some outer).
Let xavg := (wc_xsi_inner c + wc_xsi_outer c) / 2.
Let havg := (h1 + h2) / 2.

Lemma collect_before pre rest : ~ In inner pre -> collect c h1 h2 (pre ++ rest) false = collect c h1 h2 rest false.
Proof.
  induction pre as [|k pre IH]; intro N; [reflexivity|]. cbn [app collect]. rewrite Hi, opt_is_some.
  destruct (String.eqb_spec k inner) as [->|_]; [elim N; left; reflexivity|]. apply IH. intro I. apply N. right. exact I.
Qed.

Lemma collect_middle mid post : ~ In inner mid -> ~ In outer mid -> inner <> outer ->
  collect c h1 h2 (mid ++ outer :: post) true =
  map (fun k => mkPR k 0 1 xavg xavg havg havg) mid ++ [mkPR outer 0 (wc_eta_outer c) xavg (wc_xsi_outer c) havg h2].
Proof.
  intros N1 N2 D. induction mid as [|k mid IH]; cbn [app collect map].
  - rewrite Hi, Ho, !opt_is_some. destruct (String.eqb_spec outer inner); [congruence|]. rewrite String.eqb_refl. reflexivity.
  - rewrite Hi, Ho, !opt_is_some. destruct (String.eqb_spec k inner) as [->|_]; [elim N1; left; reflexivity|].
    destruct (String.eqb_spec k outer) as [->|_]; [elim N2; left; reflexivity|].
    rewrite IH; [reflexivity|intro; apply N1; right; assumption|intro; apply N2; right; assumption].
Qed.

Lemma collect_rows pre mid post : NoDup (pre ++ inner :: mid ++ outer :: post) ->
  collect c h1 h2 (pre ++ inner :: mid ++ outer :: post) false =
  mkPR inner (wc_eta_inner c) 1 (wc_xsi_inner c) xavg h1 havg ::
  map (fun k => mkPR k 0 1 xavg xavg havg havg) mid ++ [mkPR outer 0 (wc_eta_outer c) xavg (wc_xsi_outer c) havg h2].
Proof.
  intro ND. rewrite collect_before.
  2:{ apply NoDup_remove_2 in ND. intro I. apply ND. apply in_or_app. left. exact I. }
  apply NoDup_app_remove_l in ND. inversion ND as [|? ? N1 N2]; subst.
  cbn [app collect]. rewrite Hi, opt_is_some, String.eqb_refl. f_equal. apply collect_middle.
  - intro I. apply N1. apply in_or_app. left. exact I.
  - apply NoDup_remove_2 in N2. intro I. apply N2. apply in_or_app. left. exact I.
  - intros ->. apply N1. apply in_or_app. right. left. reflexivity.
Qed.

(** Not reaching the inner segment: nothing is collected. *)
Lemma collect_none keys : ~ In inner keys -> collect c h1 h2 keys false = [].
Proof. intro N. rewrite <- (app_nil_r keys), collect_before by exact N. reflexivity. Qed.

(** The outer segment does not come after the inner one: the control goes on to the end. *)
Lemma collect_to_end pre mid : NoDup (pre ++ inner :: mid) -> ~ In outer mid ->
  collect c h1 h2 (pre ++ inner :: mid) false =
  mkPR inner (wc_eta_inner c) 1 (wc_xsi_inner c) xavg h1 havg :: map (fun k => mkPR k 0 1 xavg xavg havg havg) mid.
Proof.
  intros ND NO. rewrite collect_before.
  2:{ apply NoDup_remove_2 in ND. intro I. apply ND. apply in_or_app. left. exact I. }
  apply NoDup_app_remove_l in ND. inversion ND as [|? ? N1 N2]; subst.
  cbn [collect]. rewrite Hi, opt_is_some, String.eqb_refl. f_equal. clear ND N2.
  induction mid as [|k mid IH]; [reflexivity|]. cbn [collect map]. rewrite Hi, Ho, !opt_is_some.
  destruct (String.eqb_spec k inner) as [->|_]; [elim N1; left; reflexivity|].
  destruct (String.eqb_spec k outer) as [->|_]; [elim NO; left; reflexivity|].
  rewrite IH; [reflexivity|intro; apply NO; right; assumption|intro; apply N1; right; assumption].
Qed.
End Rows.

(** Shape of a list of rows: which segments, which ranges. *)
Lemma full_to_ext rows rows' b :
  map (fun r => (p_eta1 r, p_eta2 r)) rows' = map (fun r => (p_eta1 r, p_eta2 r)) rows -> full_to rows b -> full_to rows' b.
Proof.
  revert rows'. induction rows as [|r rows IH]; intros [|r' rows'] E; cbn; try discriminate; [tauto|].
  cbn in E. injection E as E1 E2 E. destruct rows as [|r2 rows], rows' as [|r2' rows']; try discriminate.
  - rewrite E1, E2. tauto.
  - rewrite E1, E2. intros (A & B & C). split; [exact A|]. split; [exact B|]. exact (IH (r2' :: rows') E C).
Qed.
Lemma ranges_ext rows rows' a b :
  map (fun r => (p_eta1 r, p_eta2 r)) rows' = map (fun r => (p_eta1 r, p_eta2 r)) rows -> ranges a rows b -> ranges a rows' b.
Proof.
  destruct rows as [|r rows], rows' as [|r' rows']; cbn; try discriminate; [tauto|]. intros E. injection E as E1 E2 E.
  rewrite E1, E2. intros (A & B & C). split; [exact A|]. split; [exact B|]. exact (full_to_ext _ _ _ E C).
Qed.

Lemma full_to_rows mid (outer : string) xa xo ha ho b :
  full_to (map (fun k => mkPR k 0 1 xa xa ha ha) mid ++ [mkPR outer 0 b xa xo ha ho]) b.
Proof.
  induction mid as [|k mid IH]; cbn [map app full_to]; [split; reflexivity|].
  destruct (map _ mid ++ _) eqn:E; [destruct mid; discriminate|]. split; [reflexivity|]. split; [reflexivity|]. exact IH.
Qed.

Section Lengths.
Variables (dist : string -> string -> Q * Q -> Q * Q -> Q) (wuid : string).
Let step (r : prow) : Q := dist wuid (p_seg r) (p_eta1 r, p_x1 r) (p_eta2 r, p_x2 r).

Lemma lengths_cons l r rs : lengths dist wuid l (r :: rs) = l :: lengths dist wuid (l + step r) rs.
Proof. reflexivity. Qed.
Lemma lengths_head l rows : exists t, lengths dist wuid l rows = l :: t.
Proof. destruct rows; cbn; eauto. Qed.

(** With non-negative pieces the running length grows up to the last one. *)
Lemma last_lengths l rows d : (forall r, In r rows -> 0 <= step r) -> l <= last (lengths dist wuid l rows) d.
Proof.
  revert l. induction rows as [|r rows IH]; intros l H; [cbn; lra|].
  rewrite lengths_cons. destruct (lengths_head (l + step r) rows) as (t & E).
  replace (last (l :: lengths dist wuid (l + step r) rows) d) with (last (lengths dist wuid (l + step r) rows) d) by (rewrite E; reflexivity).
  pose proof (H r (or_introl eq_refl)). pose proof (IH (l + step r) (fun x I => H x (or_intror I))). lra.
Qed.

Variables (c : wcontrol) (h1 h2 L : Q).
Let X l := wc_xsi_inner c + (wc_xsi_outer c - wc_xsi_inner c) / (L - 0) * (l - 0).
Let H_ l := h1 + (h2 - h1) / (L - 0) * (l - 0).

Lemma interp_between a b l : 0 < L -> 0 <= l -> l <= L -> between a b (a + (b - a) / (L - 0) * (l - 0)).
Proof.
  intros P A B. assert (E : a + (b - a) / (L - 0) * (l - 0) == a + (b - a) * (l / L)) by (field; lra).
  assert (T0 : 0 <= l / L) by (apply Qle_shift_div_l; lra). assert (T1 : l / L <= 1) by (apply Qle_shift_div_r; lra).
  unfold between. rewrite E. destruct (Qlt_le_dec a b); [left|right].
  - assert (0 <= (b - a) * (l / L)) by (apply Qmult_le_0_compat; lra).
    assert (0 <= (b - a) * (1 - l / L)) by (apply Qmult_le_0_compat; lra). lra.
  - assert (0 <= (a - b) * (l / L)) by (apply Qmult_le_0_compat; lra).
    assert (0 <= (a - b) * (1 - l / L)) by (apply Qmult_le_0_compat; lra). lra.
Qed.

Lemma adjust_rows rows : 0 < L -> forall l, 0 <= l -> (forall r, In r rows -> 0 <= step r) ->
  last (lengths dist wuid l rows) 0 == L ->
  exists rows', adjust c h1 h2 L rows (lengths dist wuid l rows) = Ok rows' /\
    map p_seg rows' = map p_seg rows /\
    map (fun r => (p_eta1 r, p_eta2 r)) rows' = map (fun r => (p_eta1 r, p_eta2 r)) rows /\
    no_step p_x1 p_x2 (X l) rows' (wc_xsi_outer c) /\ no_step p_h1 p_h2 (H_ l) rows' h2 /\
    (forall r, In r rows' ->
      between (wc_xsi_inner c) (wc_xsi_outer c) (p_x1 r) /\ between (wc_xsi_inner c) (wc_xsi_outer c) (p_x2 r) /\
      between h1 h2 (p_h1 r) /\ between h1 h2 (p_h2 r)).
Proof.
  intro P. induction rows as [|r rows IH]; intros l L0 S E.
  - exists []. cbn in E |- *. repeat (split; [reflexivity|]). split; [|split; [|intros r []]].
    + unfold X. rewrite E. field. lra.
    + unfold H_. rewrite E. field. lra.
  - rewrite lengths_cons in E |- *. destruct (lengths_head (l + step r) rows) as (t & T).
    assert (E' : last (lengths dist wuid (l + step r) rows) 0 == L) by (rewrite T in E |- *; exact E).
    pose proof (S r (or_introl eq_refl)) as Sr.
    assert (S' : forall x, In x rows -> 0 <= step x) by (intros x I; exact (S x (or_intror I))).
    destruct (IH (l + step r) ltac:(lra) S' E') as (rows' & A & B & C & D & F & G).
    pose proof (last_lengths (l + step r) rows 0 S') as LL. rewrite E' in LL.
    rewrite T in A |- *. cbn [adjust]. unfold lin_interpol. replace (Qeqb 0 L) with false by (symmetry; apply Qeqb_false; lra).
    cbn [bind]. rewrite A. cbn [bind]. eexists. split; [reflexivity|].
    cbn [map p_seg p_eta1 p_eta2 p_x1 p_x2 p_h1 p_h2 no_step]. split; [f_equal; exact B|]. split; [f_equal; exact C|].
    split; [split; [reflexivity|exact D]|]. split; [split; [reflexivity|exact F]|].
    intros x [<-|I]; [|exact (G x I)]. cbn [p_x1 p_x2 p_h1 p_h2]. repeat split; apply interp_between; lra.
Qed.

Lemma lengths_pos rows : rows <> [] -> (forall r, In r rows -> 0 < step r) -> forall l d, l < last (lengths dist wuid l rows) d.
Proof.
  intros NE S l d. destruct rows as [|r rows]; [congruence|]. rewrite lengths_cons. destruct (lengths_head (l + step r) rows) as (t & E).
  replace (last (l :: lengths dist wuid (l + step r) rows) d) with (last (lengths dist wuid (l + step r) rows) d) by (rewrite E; reflexivity).
  pose proof (S r (or_introl eq_refl)). pose proof (last_lengths (l + step r) rows d (fun x I => Qlt_le_weak _ _ (S x (or_intror I)))). lra.
Qed.
End Lengths.

Lemma no_step_const f1 f2 x y rows : (forall r, In r rows -> f1 r == x /\ f2 r == x) -> x == y -> no_step f1 f2 x rows y.
Proof.
  intros H E. assert (G : forall z, z == x -> no_step f1 f2 z rows y).
  { induction rows as [|r rows IH]; intros z Z; cbn; [rewrite Z; exact E|]. destruct (H r (or_introl eq_refl)) as (A & B).
    split; [rewrite A, Z; reflexivity|]. apply IH; [intros r' I; exact (H r' (or_intror I))|exact B]. }
  apply G. reflexivity.
Qed.

Lemma no_step_ext f1 f2 x x' y rows : x == x' -> no_step f1 f2 x rows y -> no_step f1 f2 x' rows y.
Proof. intro E. destruct rows; cbn; rewrite E; auto. Qed.

Lemma case_b_pieces dist wuid w c h1 h2 inner outer pre mid post :
  wc_inner c = Some inner -> wc_outer c = Some outer ->
  dkeys (w_segs w) = pre ++ inner :: mid ++ outer :: post -> NoDup (dkeys (w_segs w)) ->
  (forall s p q, In s (dkeys (w_segs w)) -> 0 < dist wuid s p q) ->
  exists rows, case_b_rows dist wuid w c h1 h2 = Ok rows /\ pieces c h1 h2 (inner :: mid ++ [outer]) rows.
Proof.
  intros Hi Ho K ND HD. unfold case_b_rows. rewrite K in *. rewrite (collect_rows c h1 h2 inner outer Hi Ho pre mid post ND).
  set (xa := (wc_xsi_inner c + wc_xsi_outer c) / 2). set (ha := (h1 + h2) / 2).
  set (rows := mkPR inner _ _ _ _ _ _ :: _).
  assert (SEG : map p_seg rows = inner :: mid ++ [outer]).
  { unfold rows. cbn [map p_seg]. f_equal. rewrite map_app, map_map. cbn [map p_seg]. rewrite map_id. reflexivity. }
  assert (RNG : ranges (wc_eta_inner c) rows (wc_eta_outer c)).
  { unfold rows. cbn [ranges p_eta1 p_eta2]. split; [reflexivity|]. split; [reflexivity|]. apply full_to_rows. }
  assert (BT : forall r, In r rows ->
     between (wc_xsi_inner c) (wc_xsi_outer c) (p_x1 r) /\ between (wc_xsi_inner c) (wc_xsi_outer c) (p_x2 r) /\
     between h1 h2 (p_h1 r) /\ between h1 h2 (p_h2 r)).
  { intros r [<-|I]; [|apply in_app_or in I; destruct I as [I|[<-|[]]]].
    - cbn. repeat split; first [apply between_l|apply between_mid].
    - apply in_map_iff in I. destruct I as (k & <- & _). cbn. repeat split; apply between_mid.
    - cbn. repeat split; first [apply between_r|apply between_mid]. }
  destruct (negb (Qeqb (wc_xsi_inner c) (wc_xsi_outer c)) || negb (Qeqb h1 h2))%bool eqn:B.
  - assert (P : forall r, In r rows -> 0 < dist wuid (p_seg r) (p_eta1 r, p_x1 r) (p_eta2 r, p_x2 r)).
    { intros r I. apply HD. apply (in_map p_seg) in I. rewrite SEG in I. apply in_or_app. right.
      destruct I as [<-|I]; [left; reflexivity|]. right. apply in_app_or in I. apply in_or_app. destruct I as [I|[<-|[]]]; [left; exact I|right; left; reflexivity]. }
    set (L := last (lengths dist wuid 0 rows) 0).
    assert (L0 : 0 < L) by (apply lengths_pos; [discriminate|exact P]).
    destruct (adjust_rows dist wuid c h1 h2 L rows L0 0 ltac:(lra) (fun r I => Qlt_le_weak _ _ (P r I)) ltac:(reflexivity)) as (rows' & A & S & E & X & H & W).
    exists rows'. split; [exact A|]. split; [rewrite S; exact SEG|]. split; [exact (ranges_ext _ _ _ _ E RNG)|].
    split; [eapply no_step_ext; [|exact X]; field; lra|]. split; [eapply no_step_ext; [|exact H]; field; lra|]. exact W.
  - apply orb_false_iff in B. destruct B as (B1 & B2). apply negb_false_iff in B1, B2. apply Qeqb_true in B1, B2.
    exists rows. split; [reflexivity|]. split; [exact SEG|]. split; [exact RNG|].
    assert (XA : xa == wc_xsi_inner c) by (unfold xa; rewrite <- B1; field).
    assert (HA : ha == h1) by (unfold ha; rewrite <- B2; field).
    split; [|split; [|exact BT]]; (apply no_step_const; [|assumption]); intros r [<-|I];
      try (apply in_app_or in I; destruct I as [I|[<-|[]]]; [apply in_map_iff in I; destruct I as (k & <- & _)|]); cbn [p_x1 p_x2 p_h1 p_h2];
      (split; first [assumption|reflexivity|symmetry; assumption]).
Qed.

(** ** Placing rows on segments *)

Lemma dget_dkeys {V} (d : dict V) k v : dget d k = Some v -> In k (dkeys d).
Proof. intro E. apply dget_In in E. apply (in_map fst) in E. exact E. Qed.

Section Place.
Variable interp : string -> string -> Q * Q -> Q * Q -> Q -> res Q.

Lemma on_segment_ok wuid w u e1 e2 c x1 x2 h1 h2 w' :
  on_segment interp wuid w u e1 e2 c x1 x2 h1 h2 = (w', Ok tt) ->
  exists k s l, u = Some k /\ dget (w_segs w) k = Some s /\
    add_subdivision_for_control (interp wuid k) (ws_strips s) e1 e2 c x1 x2 h1 h2 = (l, Ok tt) /\
    w' = set_segs w (dset (w_segs w) k (set_strips s l)).
Proof.
  unfold on_segment. destruct u as [k|]; [|discriminate]. destruct (dget (w_segs w) k) as [s|] eqn:E; [|discriminate].
  destruct (add_subdivision_for_control _ _ _ _ _ _ _ _ _) as [l r] eqn:A. intros [= <- ->]. exists k, s, l. auto.
Qed.

Lemma place_rows_ok wuid c rows : NoDup (map p_seg rows) -> forall w w', place_rows interp wuid w c rows = (w', Ok tt) ->
  dkeys (w_segs w') = dkeys (w_segs w) /\ w_ctls w' = w_ctls w /\ w_uid w' = w_uid w /\ w_symmetry w' = w_symmetry w /\
  (forall r, In r rows -> exists s l, dget (w_segs w) (p_seg r) = Some s /\
     add_subdivision_for_control (interp wuid (p_seg r)) (ws_strips s) (p_eta1 r) (p_eta2 r) c (p_x1 r) (p_x2 r) (Some (p_h1 r)) (Some (p_h2 r)) = (l, Ok tt) /\
     dget (w_segs w') (p_seg r) = Some (set_strips s l)) /\
  (forall k, ~ In k (map p_seg rows) -> dget (w_segs w') k = dget (w_segs w) k).
Proof.
  induction rows as [|r rows IH]; intros ND w w'; cbn [place_rows].
  - intros [= <-]. repeat (split; [reflexivity|]). split; [intros r []|reflexivity].
  - inversion ND as [|? ? N1 N2]; subst. destruct (on_segment _ _ _ _ _ _ _ _ _ _ _) as [w1 o] eqn:E. destruct o as [[]|]; [|discriminate].
    intro H. apply on_segment_ok in E. destruct E as (k & s & l & [= <-] & G & A & ->).
    destruct (IH N2 _ _ H) as (K & C & U & SY & R & O). unfold set_segs in *. cbn [w_segs w_ctls w_uid w_symmetry] in *.
    split; [rewrite K; apply dset_keys_mem; congruence|]. split; [exact C|]. split; [exact U|]. split; [exact SY|]. split.
    + intros r' [<-|I].
      * exists s, l. split; [exact G|]. split; [exact A|]. rewrite O by exact N1. apply dget_dset_same.
      * destruct (R r' I) as (s' & l' & G' & A' & D'). exists s', l'.
        assert (NE : p_seg r' <> p_seg r) by (intro Q; apply N1; rewrite <- Q; apply in_map; exact I).
        rewrite dget_dset_other in G' by exact NE. auto.
    + intros k NI. rewrite O by (intro; apply NI; right; assumption). apply dget_dset_other. intros ->. apply NI. left. reflexivity.
Qed.
End Place.

(** ** C41 *)

Lemma NoDup_mid {A} (pre mid post : list A) a b : NoDup (pre ++ a :: mid ++ b :: post) -> NoDup (a :: mid ++ [b]).
Proof.
  intro H. apply NoDup_app_remove_l in H. replace (a :: mid ++ b :: post) with ((a :: mid ++ [b]) ++ post) in H by (cbn; rewrite <- app_assoc; reflexivity).
  apply NoDup_app_remove_r in H. exact H.
Qed.

Lemma spanning_control interp dist wuid w c h1 h2 inner outer pre mid post w' :
  wc_inner c = Some inner -> wc_outer c = Some outer -> wc_h_inner c = Some h1 -> wc_h_outer c = Some h2 ->
  dkeys (w_segs w) = pre ++ inner :: mid ++ outer :: post -> NoDup (dkeys (w_segs w)) ->
  (forall s p q, In s (dkeys (w_segs w)) -> 0 < dist wuid s p q) ->
  place_wing_control interp dist wuid w c = (w', Ok tt) ->
  dkeys (w_segs w') = dkeys (w_segs w) /\ w_ctls w' = w_ctls w /\
  (forall k, ~ In k (inner :: mid ++ [outer]) -> dget (w_segs w') k = dget (w_segs w) k) /\
  exists rows, pieces c h1 h2 (inner :: mid ++ [outer]) rows /\
    forall r, In r rows -> exists s l, dget (w_segs w) (p_seg r) = Some s /\
      add_subdivision_for_control (interp wuid (p_seg r)) (ws_strips s) (p_eta1 r) (p_eta2 r) (wc_ctl c) (p_x1 r) (p_x2 r) (Some (p_h1 r)) (Some (p_h2 r)) = (l, Ok tt) /\
      dget (w_segs w') (p_seg r) = Some (set_strips s l).
Proof.
  intros Hi Ho H1 H2 K ND HD. unfold place_wing_control. rewrite Hi, Ho, H1, H2.
  assert (NE : same_opt (Some inner) (Some outer) = false).
  { cbn. apply String.eqb_neq. intros ->. rewrite K in ND. apply NoDup_mid in ND. inversion ND as [|? ? N _]. apply N. apply in_or_app. right. left. reflexivity. }
  rewrite NE. destruct (case_b_pieces dist wuid w c h1 h2 inner outer pre mid post Hi Ho K ND HD) as (rows & E & P). rewrite E.
  intro PR. pose proof P as (S & _). assert (NDr : NoDup (map p_seg rows)) by (rewrite S; rewrite K in ND; exact (NoDup_mid _ _ _ _ _ ND)).
  destruct (place_rows_ok interp wuid (wc_ctl c) rows NDr w w' PR) as (A & B & _ & _ & C & D).
  split; [exact A|]. split; [exact B|]. split; [intros k N; apply D; rewrite S; exact N|]. exists rows. split; [exact P|exact C].
Qed.

(** What it means for the strips: C07 and C50 on every segment. *)
Lemma piece_covers interp ops a b c k x1 x2 o1 o2 l :
  let seg := run interp ops in
  sound_session interp ops -> ct_type c = Some k -> fits seg a b c ->
  add_subdivision_for_control interp seg a b c x1 x2 o1 o2 = (l, Ok tt) ->
  occupies interp seg l k c a b x1 (default_to o1 x1) x2 (default_to o2 x2).
Proof.
  intros seg SS T (NC & A0 & AB & B1 & TH & TA & CE) H.
  destruct (place_control interp seg a b c k x1 x2 o1 o2 l (StripSpan.run_tiles interp ops)
              (sound_chord interp ops SS) (first0_run interp ops) NC T A0 AB B1 TH TA CE H) as (lo & L1 & L2 & L3 & L4 & L5).
  exists lo. auto.
Qed.

Lemma spanning_put interp dist wuid w c h1 h2 inner outer pre mid post w' :
  wc_inner c = Some inner -> wc_outer c = Some outer -> wc_h_inner c = Some h1 -> wc_h_outer c = Some h2 ->
  dkeys (w_segs w) = pre ++ inner :: mid ++ outer :: post -> NoDup (dkeys (w_segs w)) ->
  (forall s p q, In s (dkeys (w_segs w)) -> 0 < dist wuid s p q) ->
  place_wing_control interp dist wuid w c = (w', Ok tt) ->
  dkeys (w_segs w') = dkeys (w_segs w) /\ w_ctls w' = w_ctls w /\
  (forall k, ~ In k (inner :: mid ++ [outer]) -> dget (w_segs w') k = dget (w_segs w) k) /\
  exists rows, pieces c h1 h2 (inner :: mid ++ [outer]) rows /\
    forall r, In r rows -> put interp wuid w w' (p_seg r) (wc_ctl c) (p_eta1 r) (p_eta2 r) (p_x1 r) (p_h1 r) (p_x2 r) (p_h2 r).
Proof.
  intros Hi Ho H1 H2 K ND HD H. destruct (spanning_control interp dist wuid w c h1 h2 inner outer pre mid post w' Hi Ho H1 H2 K ND HD H) as (A & B & C & rows & P & R).
  split; [exact A|]. split; [exact B|]. split; [exact C|]. exists rows. split; [exact P|]. intros r I. destruct (R r I) as (s & l & G & E & G').
  exists s, l. split; [exact G|]. split; [exact G'|]. intros ops k SS Rn T F. rewrite Rn in *. exact (piece_covers _ ops _ _ _ k _ _ _ _ l SS T F E).
Qed.

Lemma single_put interp dist wuid w c sn w' :
  wc_inner c = Some sn -> wc_outer c = Some sn -> place_wing_control interp dist wuid w c = (w', Ok tt) ->
  dkeys (w_segs w') = dkeys (w_segs w) /\ w_ctls w' = w_ctls w /\
  (forall k, k <> sn -> dget (w_segs w') k = dget (w_segs w) k) /\
  put interp wuid w w' sn (wc_ctl c) (wc_eta_inner c) (wc_eta_outer c) (wc_xsi_inner c) (default_to (wc_h_inner c) (wc_xsi_inner c))
    (wc_xsi_outer c) (default_to (wc_h_outer c) (wc_xsi_outer c)).
Proof.
  intros Hi Ho. unfold place_wing_control. rewrite Hi, Ho. cbn [same_opt]. rewrite String.eqb_refl. intro H.
  apply on_segment_ok in H. destruct H as (k & s & l & [= <-] & G & A & ->). unfold put, set_segs. cbn [w_segs w_ctls].
  split; [apply dset_keys_mem; congruence|]. split; [reflexivity|]. split; [intros k N; apply dget_dset_other; exact N|].
  exists s, l. split; [exact G|]. split; [apply dget_dset_same|]. intros ops k SS Rn T F. rewrite Rn in *. exact (piece_covers _ ops _ _ _ k _ _ _ _ l SS T F A).
Qed.

(** ** C42 *)

Lemma unknown_inner interp dist wuid w c h1 h2 inner :
  wc_inner c = Some inner -> ~ In inner (dkeys (w_segs w)) -> same_opt (wc_inner c) (wc_outer c) = false ->
  wc_h_inner c = Some h1 -> wc_h_outer c = Some h2 ->
  place_wing_control interp dist wuid w c = (w, Ok tt).
Proof.
  intros Hi N S H1 H2. unfold place_wing_control. rewrite S, H1, H2. unfold case_b_rows.
  rewrite (collect_none c h1 h2 inner Hi _ N). destruct (_ || _)%bool; reflexivity.
Qed.

Lemma unknown_same interp dist wuid w c : same_opt (wc_inner c) (wc_outer c) = true ->
  (forall k, wc_inner c = Some k -> ~ In k (dkeys (w_segs w))) ->
  place_wing_control interp dist wuid w c = (w, Err KeyError).
Proof.
  intros S H. unfold place_wing_control. rewrite S. unfold on_segment. destruct (wc_inner c) as [k|]; [|reflexivity].
  destruct (dget (w_segs w) k) eqn:E; [|reflexivity]. elim (H k eq_refl). exact (dget_dkeys _ _ _ E).
Qed.

(** ** Controls on strips come from the calls *)

Definition ctrls_in (P : control -> Prop) (seg : segment) : Prop :=
  forall s k v c, In s seg -> In (k, v) (st_subs s) -> sa_ctrl v = Some c -> P c.
Definition strip_in (P : control -> Prop) (s : strip) : Prop :=
  forall k v c, In (k, v) (st_subs s) -> sa_ctrl v = Some c -> P c.

Lemma In_sset l k v k' v' : In (k', v') (sset l k v) -> v' = v \/ In (k', v') l.
Proof.
  induction l as [|[k2 v2] l IH]; cbn; [intros [E|[]]; left; congruence|]. destruct (akind_eqb k k2).
  - intros [E|I]; [left; congruence|right; right; exact I].
  - intros [E|I]; [right; left; exact E|]. destruct (IH I); auto.
Qed.

Lemma strip_in_sset P s k v : strip_in P s -> (forall c, sa_ctrl v = Some c -> P c) -> strip_in P (set_subs s (sset (st_subs s) k v)).
Proof. intros H V k' v' c I E. cbn [st_subs set_subs] in I. apply In_sset in I. destruct I as [->|I]; [exact (V c E)|exact (H k' v' c I E)]. Qed.

Lemma strip_in_upd P s k f : strip_in P s -> (forall v c, (forall c, sa_ctrl v = Some c -> P c) -> sa_ctrl (f v) = Some c -> P c) ->
  strip_in P (fst (upd_sub s k f)).
Proof.
  intros H F. unfold upd_sub. destruct (sget (st_subs s) k) as [v|] eqn:E; [|exact H]. apply strip_in_sset; [exact H|].
  intros c C. apply (F v c); [|exact C]. intros c' C'. apply sget_In in E. exact (H k v c' E C').
Qed.

Lemma strip_in_then P p f : strip_in P (fst p) -> (forall s, strip_in P s -> strip_in P (fst (f s))) -> strip_in P (fst (then_ p f)).
Proof. destruct p as [s [[]|e]]; cbn; auto. Qed.

Lemma add_subarea_in P s c x1 x2 o1 o2 : strip_in P s -> P c -> strip_in P (fst (add_subarea s c x1 x2 o1 o2)).
Proof.
  intros H C. unfold add_subarea. destruct (ct_type c) as [k|]; [|exact H].
  repeat match goal with |- context [if ?b then (s, _) else _] => destruct b; [exact H|] end.
  apply strip_in_then.
  - assert (A : forall kk a b cc d, strip_in P (set_subs s (sset (st_subs s) kk (new_subarea a b cc d kk)))).
    { intros. apply strip_in_sset; [exact H|]. intros c' E. discriminate. }
    destruct k; apply strip_in_upd; try apply A; intros v c' V E; exact (V c' E).
  - intros s2 H2. apply strip_in_upd; [exact H2|]. intros v c' V E. cbn in E. congruence.
Qed.

Lemma update_subarea_in P s k x1 x2 h1 h2 : strip_in P s -> strip_in P (fst (update_subarea s k x1 x2 h1 h2)).
Proof.
  intro H. unfold update_subarea.
  destruct k; (apply strip_in_then; [apply strip_in_upd; [exact H|intros v c V E; exact (V c E)]|]; intros s1 H1;
    apply strip_in_then; [apply strip_in_upd; [exact H1|intros v c V E; exact (V c E)]|]; intros s2 H2;
    apply strip_in_upd; [exact H2|intros v c V E; exact (V c E)]).
Qed.

Lemma ctrls_in_iff P seg : ctrls_in P seg <-> forall s, In s seg -> strip_in P s.
Proof. unfold ctrls_in, strip_in. split; intros H s; intros; eapply H; eauto. Qed.

Lemma ctrls_in_set P seg i s : ctrls_in P seg -> strip_in P s -> ctrls_in P (set_nth seg i s).
Proof. rewrite !ctrls_in_iff. intros H S t I. apply In_set_nth in I. destruct I as [->|I]; [exact S|exact (H t I)]. Qed.

Lemma nth_in P seg i s : ctrls_in P seg -> nth_error seg i = Some s -> strip_in P s.
Proof. rewrite ctrls_in_iff. intros H E. exact (H s (nth_error_In _ _ E)). Qed.

Section Ctrls.
Variable interp : Q * Q -> Q * Q -> Q -> res Q.
Variable P : control -> Prop.

Lemma inherit_in seg ip inew k ea eb eta : ctrls_in P seg -> ctrls_in P (fst (inherit interp seg ip inew k ea eb eta)).
Proof.
  intro H. unfold inherit. destruct (nth_error seg ip) as [sp|] eqn:E; [|exact H].
  destruct (sget (st_subs sp) (ADev k)) as [v|] eqn:G; [|exact H]. destruct (sa_hinge v) as [[h1 h2]|]; [|exact H].
  destruct (sa_ctrl v) as [c|] eqn:C; [|exact H].
  destruct (interp _ _ _) as [xs|]; [|exact H]. destruct (interp _ _ _) as [hs|]; [|exact H].
  destruct (nth_error seg inew) as [sn|] eqn:N; [|exact H].
  pose proof (nth_in P seg ip sp H E) as Hsp. pose proof (nth_in P seg inew sn H N) as Hsn.
  assert (Pc : P c) by (apply sget_In in G; exact (Hsp _ _ c G C)).
  pose proof (add_subarea_in P sn c xs (match k with Slat => xsi_c v | Flap => xsi_b v end) (Some hs) (Some h2) Hsn Pc) as A.
  destruct (add_subarea sn c xs _ (Some hs) (Some h2)) as [sn' r]. cbn [fst] in A. destruct r.
  - pose proof (update_subarea_in P sp k (match k with Slat => xsi_d v | Flap => xsi_a v end) xs h1 hs Hsp) as U.
    destruct (update_subarea sp k _ xs h1 hs) as [sp' r']. cbn [fst] in U |- *. apply ctrls_in_set; [apply ctrls_in_set|]; assumption.
  - apply ctrls_in_set; assumption.
Qed.

Lemma add_subdivision_in seg a d ig : ctrls_in P seg -> ctrls_in P (fst (add_subdivision interp seg a d ig)).
Proof.
  intro H. unfold add_subdivision. destruct (_ || _)%bool; [exact H|]. destruct (get_subdiv_at_eta seg a) as [[[ip sp] ob]|] eqn:G; [|exact H].
  destruct ob; [exact H|]. destruct (Qltb _ _); [exact H|]. apply StripSpan.get_subdiv_spec in G. destruct G as (N & _).
  assert (H1 : ctrls_in P (set_nth (seg ++ [new_strip a (eta_b sp) (eta_c sp) d]) ip (set_bc sp a d))).
  { apply ctrls_in_set.
    - apply ctrls_in_iff. intros s I. apply in_app_or in I. destruct I as [I|[<-|[]]]; [exact (proj1 (ctrls_in_iff P seg) H s I)|].
      intros k v c [E|[]] C. injection E as <- <-. discriminate.
    - pose proof (nth_in P seg ip sp H N) as Hsp. intros k v c I C. exact (Hsp k v c I C). }
  pose proof (inherit_in _ ip (List.length seg) Flap (eta_a sp) (eta_b sp) a H1) as H2. destruct (inherit _ _ _ _ _ _ _ _) as [seg2 r2].
  cbn [fst] in H2. destruct r2; [|exact H2]. pose proof (inherit_in seg2 ip (List.length seg) Slat (eta_a sp) (eta_b sp) a H2) as H3.
  destruct (inherit _ seg2 _ _ _ _ _ _) as [seg3 r3]. cbn [fst] in H3. destruct r3; exact H3.
Qed.

Lemma add_rows_in c rows : P c -> forall seg, ctrls_in P seg -> ctrls_in P (fst (add_rows seg c rows)).
Proof.
  intro Pc. induction rows as [|r rows IH]; intros seg H; [exact H|]. cbn [add_rows]. destruct (nth_error seg (r_idx r)) as [s|] eqn:N; [|exact H].
  pose proof (add_subarea_in P s c (r_x1 r) (r_x2 r) (Some (r_h1 r)) (Some (r_h2 r)) (nth_in P seg _ s H N) Pc) as A.
  destruct (add_subarea _ _ _ _ _ _) as [s' o]. cbn [fst] in A. destruct o; [apply IH|]; apply ctrls_in_set; assumption.
Qed.

Lemma add_control_in seg a b c x1 x2 o1 o2 : P c -> ctrls_in P seg -> ctrls_in P (fst (add_subdivision_for_control interp seg a b c x1 x2 o1 o2)).
Proof.
  intros Pc H. unfold add_subdivision_for_control.
  set (p := if Qeqb a 0 then _ else _). assert (H1 : ctrls_in P (fst p)) by (unfold p; destruct (Qeqb a 0); [exact H|apply add_subdivision_in; exact H]).
  destruct p as [seg1 r1]. cbn [fst] in H1. destruct r1 as [[i1|]|]; try exact H1.
  destruct (nth_error seg1 i1) as [sd1|]; [|exact H1]. destruct (Qeqb b (eta_b sd1)); [apply add_rows_in; assumption|].
  destruct (Qltb b (eta_b sd1)).
  - pose proof (add_subdivision_in seg1 b b false H1) as H2. destruct (add_subdivision interp seg1 b b false) as [seg2 r2]. cbn [fst] in H2.
    destruct r2; [apply add_rows_in; assumption|exact H2].
  - destruct (get_outer_neighbour seg1 (eta_b sd1)) as [nb|]; [|exact H1]. destruct (nth_error seg1 nb) as [snb|]; [|exact H1].
    match goal with |- context [match ?e with Ok _ => _ | Err _ => _ end] => destruct e as [[rows lst]|] end; [|exact H1].
    destruct (nth_error seg1 lst) as [sl|]; [|exact H1].
    set (q := if Qltb b (eta_b sl) then _ else _). assert (H2 : ctrls_in P (fst q)) by (unfold q; destruct (Qltb b (eta_b sl)); [apply add_subdivision_in|]; exact H1).
    destruct q as [seg2 r2]. cbn [fst] in H2. destruct r2; [apply add_rows_in; assumption|exact H2].
Qed.
End Ctrls.

(** ** Sessions on the segments of a wing *)

(** The strips were made by accepted calls, with controls of [P] only. *)
Definition made (ip : Q * Q -> Q * Q -> Q -> res Q) (P : control -> Prop) (seg : segment) : Prop :=
  (exists ops, all_accepted ip new_segment ops /\ seg = run ip ops) /\ ctrls_in P seg.

Lemma accepted_snoc ip ops : forall seg o, all_accepted ip seg ops -> all_accepted ip (fold_left (step ip) ops seg) [o] -> all_accepted ip seg (ops ++ [o]).
Proof.
  induction ops as [|x ops IH]; intros seg o A B; [exact B|]. destruct x; cbn [app all_accepted fold_left] in *; (destruct A as (A1 & A2); split; [exact A1|apply IH; [exact A2|exact B]]).
Qed.

Lemma made_subdiv ip P seg e d ig seg' o : made ip P seg -> add_subdivision ip seg e d ig = (seg', Ok o) -> made ip P seg'.
Proof.
  intros ((ops & A & ->) & C) E. split.
  - exists (ops ++ [OpSubdiv e d ig]). split.
    + apply accepted_snoc; [exact A|]. fold (run ip ops). cbn [all_accepted]. split; [exists o; rewrite E; reflexivity|exact I].
    + unfold run. rewrite fold_left_app. cbn [fold_left step]. fold (run ip ops). rewrite E. reflexivity.
  - pose proof (add_subdivision_in ip P _ e d ig C) as X. rewrite E in X. exact X.
Qed.

Lemma made_control ip P seg e1 e2 c x1 x2 o1 o2 seg' : made ip P seg -> P c ->
  add_subdivision_for_control ip seg e1 e2 c x1 x2 o1 o2 = (seg', Ok tt) -> made ip P seg'.
Proof.
  intros ((ops & A & ->) & C) Pc E. split.
  - exists (ops ++ [OpControl e1 e2 c x1 x2 o1 o2]). split.
    + apply accepted_snoc; [exact A|]. fold (run ip ops). cbn [all_accepted]. split; [rewrite E; reflexivity|exact I].
    + unfold run. rewrite fold_left_app. cbn [fold_left step]. fold (run ip ops). rewrite E. reflexivity.
  - pose proof (add_control_in ip P _ e1 e2 c x1 x2 o1 o2 Pc C) as X. rewrite E in X. exact X.
Qed.

Section Whole.
Variable interp : string -> string -> Q * Q -> Q * Q -> Q -> res Q.
Variable dist : string -> string -> Q * Q -> Q * Q -> Q.

Definition same_seg (p q : string * wsegment) : Prop :=
  fst q = fst p /\ ws_uid (snd q) = ws_uid (snd p) /\ ws_num_c (snd q) = ws_num_c (snd p) /\
  ws_num_s (snd q) = ws_num_s (snd p) /\ ws_span (snd q) = ws_span (snd p).
Definition same_wing (w w' : wing) : Prop :=
  w_uid w' = w_uid w /\ w_symmetry w' = w_symmetry w /\ w_ctls w' = w_ctls w /\ Forall2 same_seg (w_segs w) (w_segs w').

Lemma same_seg_refl p : same_seg p p.
Proof. repeat split. Qed.
Lemma Forall2_refl {A} (R : A -> A -> Prop) l : (forall x, R x x) -> Forall2 R l l.
Proof. intro H. induction l; constructor; auto. Qed.
Lemma Forall2_trans {A} (R : A -> A -> Prop) : (forall x y z, R x y -> R y z -> R x z) -> forall l1 l2 l3, Forall2 R l1 l2 -> Forall2 R l2 l3 -> Forall2 R l1 l3.
Proof. intros T l1 l2 l3 H. revert l3. induction H; intros l3 H'; inversion H'; subst; constructor; eauto. Qed.
Lemma same_seg_trans x y z : same_seg x y -> same_seg y z -> same_seg x z.
Proof. unfold same_seg. intros (A & B & C & D & E) (A' & B' & C' & D' & E'). repeat split; congruence. Qed.
Lemma same_wing_refl w : same_wing w w.
Proof. repeat split. apply Forall2_refl, same_seg_refl. Qed.
Lemma same_wing_trans x y z : same_wing x y -> same_wing y z -> same_wing x z.
Proof.
  intros (A & B & C & D) (A' & B' & C' & D'). repeat split; try congruence. exact (Forall2_trans _ same_seg_trans _ _ _ D D').
Qed.

Lemma dset_same_seg d k s l : dget d k = Some s -> Forall2 same_seg d (dset d k (set_strips s l)).
Proof.
  induction d as [|[k' s'] d IH]; [discriminate|]. cbn. destruct (String.eqb_spec k k') as [->|N].
  - intros [= ->]. constructor; [repeat split|apply Forall2_refl, same_seg_refl].
  - intro E. constructor; [apply same_seg_refl|exact (IH E)].
Qed.

Definition wing_made (wuid : string) (P : control -> Prop) (w : wing) : Prop :=
  forall k s, In (k, s) (w_segs w) -> made (interp wuid k) P (ws_strips s).

Lemma In_dset {V} (d : dict V) k v k' v' : In (k', v') (dset d k v) -> (k' = k /\ v' = v) \/ In (k', v') d.
Proof.
  induction d as [|[k2 v2] d IH]; cbn; [intros [E|[]]; left; split; congruence|]. destruct (String.eqb_spec k k2) as [->|N].
  - intros [E|I]; [left; split; congruence|right; right; exact I].
  - intros [E|I]; [right; left; exact E|]. destruct (IH I); auto.
Qed.

Lemma on_segment_made wuid P w u e1 e2 c x1 x2 h1 h2 w' : wing_made wuid P w -> P c ->
  on_segment interp wuid w u e1 e2 c x1 x2 h1 h2 = (w', Ok tt) -> wing_made wuid P w' /\ same_wing w w'.
Proof.
  intros M Pc H. apply on_segment_ok in H. destruct H as (k & s & l & -> & G & A & ->). split.
  - intros k' s' I. cbn [w_segs set_segs] in I. apply In_dset in I. destruct I as [(-> & ->)|I]; [|exact (M k' s' I)].
    cbn [ws_strips set_strips]. exact (made_control _ P _ _ _ _ _ _ _ _ _ (M k s (dget_In _ _ _ G)) Pc A).
  - repeat split. cbn [w_segs set_segs]. apply dset_same_seg. exact G.
Qed.

Lemma place_rows_made wuid (P : control -> Prop) c rows : P c -> forall w w', wing_made wuid P w -> place_rows interp wuid w c rows = (w', Ok tt) -> wing_made wuid P w' /\ same_wing w w'.
Proof.
  intro Pc. induction rows as [|r rows IH]; intros w w' M; cbn [place_rows].
  - intros [= <-]. split; [exact M|apply same_wing_refl].
  - destruct (on_segment _ _ _ _ _ _ _ _ _ _ _) as [w1 o] eqn:E. destruct o as [[]|]; [|discriminate]. intro H.
    destruct (on_segment_made _ P _ _ _ _ _ _ _ _ _ _ M Pc E) as (M1 & S1). destruct (IH w1 w' M1 H) as (M2 & S2).
    split; [exact M2|exact (same_wing_trans _ _ _ S1 S2)].
Qed.

Lemma place_wing_control_made wuid P w c w' : wing_made wuid P w -> P (wc_ctl c) ->
  place_wing_control interp dist wuid w c = (w', Ok tt) -> wing_made wuid P w' /\ same_wing w w'.
Proof.
  intros M Pc. unfold place_wing_control. destruct (same_opt _ _); [apply on_segment_made; assumption|].
  destruct (wc_h_inner c); [|discriminate]. destruct (wc_h_outer c); [|discriminate].
  destruct (case_b_rows _ _ _ _ _ _) as [rows|]; [|discriminate]. apply place_rows_made; assumption.
Qed.

Lemma place_controls_made wuid (P : control -> Prop) l : (forall c, In c l -> P (wc_ctl c)) -> forall w w', wing_made wuid P w ->
  place_controls interp dist wuid w l = (w', Ok tt) -> wing_made wuid P w' /\ same_wing w w'.
Proof.
  induction l as [|c l IH]; intros H w w' M; cbn [place_controls].
  - intros [= <-]. split; [exact M|apply same_wing_refl].
  - destruct (place_wing_control _ _ _ _ _) as [w1 o] eqn:E. destruct o as [[]|]; [|discriminate]. intro R.
    destruct (place_wing_control_made wuid P w c w1 M (H c (or_introl eq_refl)) E) as (M1 & S1).
    destruct (IH (fun x I => H x (or_intror I)) w1 w' M1 R) as (M2 & S2). split; [exact M2|exact (same_wing_trans _ _ _ S1 S2)].
Qed.

Lemma add_lines_made ip P etas : forall seg seg', made ip P seg -> add_lines ip seg etas = (seg', Ok tt) -> made ip P seg'.
Proof.
  induction etas as [|e etas IH]; intros seg seg' M; cbn [add_lines]; [intros [= <-]; exact M|].
  destruct (_ || _)%bool; [apply IH; exact M|]. destruct (add_subdivision _ _ _ _ _) as [seg1 o] eqn:E. destruct o as [o|]; [|discriminate].
  apply IH. exact (made_subdiv ip P seg e e true seg1 o M E).
Qed.

Lemma divide_segments_made wuid P l : forall l', (forall k s, In (k, s) l -> made (interp wuid k) P (ws_strips s)) ->
  divide_segments interp wuid l = (l', Ok tt) ->
  (forall k s, In (k, s) l' -> made (interp wuid k) P (ws_strips s)) /\ Forall2 same_seg l l'.
Proof.
  induction l as [|[k s] l IH]; intros l' H; cbn [divide_segments]; [intros [= <-]; split; [exact H|constructor]|].
  destruct (divide_segment interp wuid k s) as [s' o] eqn:E. destruct o as [[]|]; [|discriminate].
  destruct (divide_segments interp wuid l) as [l2 o2] eqn:R. intros [= <- ->].
  destruct (IH l2 (fun k' s0 I => H k' s0 (or_intror I)) eq_refl) as (A & B).
  assert (X : made (interp wuid k) P (ws_strips s') /\ same_seg (k, s) (k, s')).
  { unfold divide_segment in E. destruct (ws_num_s s); [|discriminate]. destruct (linspace_etas z) as [etas|]; [|discriminate].
    destruct (add_lines _ _ _) as [l0 o0] eqn:AL. injection E as <- ->. split; [|repeat split].
    cbn [ws_strips set_strips]. exact (add_lines_made _ P etas _ _ (H k s (or_introl eq_refl)) AL). }
  split; [|constructor; [exact (proj2 X)|exact B]]. intros k' s0 [I|I]; [injection I as <- <-; exact (proj1 X)|exact (A k' s0 I)].
Qed.

Lemma each_wing_ok f l : forall l', each_wing f l = (l', Ok tt) -> Forall2 (fun x y => fst y = fst x /\ f (fst x) (snd x) = (snd y, Ok tt)) l l'.
Proof.
  induction l as [|[k w] l IH]; intro l'; cbn [each_wing]; [intros [= <-]; constructor|].
  destruct (f k w) as [w' o] eqn:E. destruct o as [[]|]; [|discriminate]. destruct (each_wing f l) as [l2 o2] eqn:R. intros [= <- ->].
  constructor; [split; [reflexivity|exact E]|]. exact (IH l2 eq_refl).
Qed.

Definition ctl_of (w : wing) (c : control) : Prop := exists wc, dget (w_ctls w) (ct_uid c) = Some wc.

Lemma pre_panelled a a' : fresh a -> pre_panelling interp dist a = (a', Ok tt) -> panelled a' /\ same_but_strips a a'.
Proof.
  intros F H. unfold pre_panelling in H. destruct (each_wing _ (a_wings a)) as [ws o] eqn:E1. destruct o as [[]|]; [|discriminate].
  destruct (each_wing _ ws) as [ws2 o2] eqn:E2. injection H as <- ->. apply each_wing_ok in E1, E2.
  assert (X : Forall2 (fun x y => fst y = fst x /\ same_wing (snd x) (snd y) /\ wing_made (fst x) (ctl_of (snd x)) (snd y)) (a_wings a) ws2).
  { unfold fresh in F. revert ws2 E2 F. induction E1 as [|[k w] [k1 w1] l l1 (K & P1) E1 IH]; intros ws2 E2 F; inversion E2 as [|? [k2 w2] ? l2 (K2 & P2) E2']; subst; [constructor|].
    cbn [fst snd] in *. subst k1 k2. destruct (F k w (or_introl eq_refl)) as (ND & NDC & FS & FC).
    constructor; [|apply IH; [exact E2'|intros wn w0 I; exact (F wn w0 (or_intror I))]]. cbn [fst snd]. split; [reflexivity|].
    assert (M0 : wing_made k (ctl_of w) w).
    { intros sn s I. rewrite (FS sn s I). split; [exists []; split; [exact Logic.I|reflexivity]|].
      intros st kk v c [<-|[]] [Ev|[]] C. injection Ev as <- <-. discriminate. }
    destruct (place_controls_made k (ctl_of w) (dvalues (w_ctls w))) with (w := w) (w' := w1) as (M1 & S1); [|exact M0|exact P1|].
    { intros c I. unfold dvalues in I. apply in_map_iff in I. destruct I as ([cn c'] & <- & I). cbn [snd].
      exists c'. rewrite (FC cn c' I). exact (dget_In_NoDup _ _ _ NDC I). }
    destruct (divide_segments interp k (w_segs w1)) as [l' r] eqn:D. injection P2 as <- ->.
    destruct (divide_segments_made k (ctl_of w) (w_segs w1) l' M1 D) as (M2 & S2). split; [|exact M2].
    apply (same_wing_trans _ _ _ S1). repeat split. exact S2. }
  split.
  - intros wn w' sn s I Is. cbn [a_wings] in I.
    assert (Y : exists w, same_wing w w' /\ wing_made wn (ctl_of w) w').
    { clear -X I. induction X as [|[k w] [k' w2] l l' (K & S & M) X IH]; [destruct I|]. destruct I as [I|I]; [|exact (IH I)].
      injection I as <- <-. cbn [fst snd] in *. subst k'. exists w. auto. }
    destruct Y as (w & (_ & _ & C & _) & M). destruct (M sn s Is) as ((ops & A & R) & CI). split.
    + exists (interp wn sn), ops. split; [right; exact A|exact R].
    + intros st k v c I1 I2 I3. rewrite C. exact (CI st k v c I1 I2 I3).
  - split; [reflexivity|]. cbn [a_wings]. clear -X. induction X as [|x y l l' (K & (A & B & C & D) & _) X IH]; [constructor|]. constructor; [|exact IH].
    repeat (split; [assumption|]). exact D.
Qed.

End Whole.
