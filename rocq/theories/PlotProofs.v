(** Proofs about the size of aircraft and about figures. *)
From Coq Require Import Reals ZArith List Lra Lia Psatz.
From Verif Require Import Vec PanelModel PlotModel PlotSpec.
Import ListNotations.
Open Scope R_scope.

(** Least and greatest element of a set of numbers. *)
Definition tight (T : R -> Prop) (lo hi : R) : Prop := (forall x, T x -> lo <= x <= hi) /\ T lo /\ T hi.

Lemma tight_ext (T U : R -> Prop) lo hi : (forall x, T x <-> U x) -> tight T lo hi -> tight U lo hi.
Proof. intros E (A & B & C). split; [intros x X; apply A, E, X|]. split; apply E; assumption. Qed.

Lemma tight_union T U lo hi m M : tight T lo hi -> tight U m M ->
  tight (fun x => T x \/ U x) (lower m lo) (raise M hi).
Proof.
  intros (A & B & C) (D & E & F). unfold lower, raise. split; [|split].
  - intros x [X|X]; [apply A in X|apply D in X]; destruct (Rlt_dec m lo), (Rlt_dec hi M); lra.
  - destruct (Rlt_dec m lo); auto.
  - destruct (Rlt_dec hi M); auto.
Qed.

Lemma tight_opp T lo hi : tight T lo hi -> tight (fun x => T (- x)) (- hi) (- lo).
Proof.
  intros (A & B & C). split; [intros x X; apply A in X; lra|]. rewrite !Ropp_involutive. auto.
Qed.

Lemma bbox_tight S lo hi : bounding_box S lo hi <->
  forall a, tight (fun x => exists p, S p /\ coord a p = x) (coord a lo) (coord a hi).
Proof.
  unfold bounding_box, tight. split; intros H a; destruct (H a) as (A & B & C); (split; [|split; [exact B|exact C]]).
  - intros x (p & P & <-). apply A, P.
  - intros p P. apply A. exists p. auto.
Qed.

Definition set_list (p : vec) (l : list vec) (a : axis) (x : R) : Prop := exists q, In q (p :: l) /\ coord a q = x.
Lemma points_tight a l : forall p, tight (set_list p l a) (coord a (points_min p l)) (coord a (points_max p l)).
Proof.
  assert (G : forall p m M, tight (set_list p [] a) (coord a m) (coord a M) ->
    tight (set_list p l a) (coord a (fold_left vmin l m)) (coord a (fold_left vmax l M))); [|].
  2:{ intro p. apply G. unfold set_list. split; [intros x (q & [<-|[]] & <-); lra|]. split; exists p; cbn; auto. }
  intros p m M T.
  cut (forall l0, tight (set_list p l0 a) (coord a m) (coord a M) ->
    tight (set_list p (l0 ++ l) a) (coord a (fold_left vmin l m)) (coord a (fold_left vmax l M))).
  { intro K. exact (K [] T). }
  clear T. revert m M. induction l as [|q l IH]; intros m M l0 T; [rewrite app_nil_r; exact T|].
  cbn [fold_left]. replace (l0 ++ q :: l) with ((l0 ++ [q]) ++ l) by (rewrite <- app_assoc; reflexivity).
  apply IH. destruct T as (A & (b & B1 & B2) & (c & C1 & C2)).
  assert (Em : coord a (vmin m q) = Rmin (coord a m) (coord a q)) by (destruct a; reflexivity).
  assert (EM : coord a (vmax M q) = Rmax (coord a M) (coord a q)) by (destruct a; reflexivity).
  rewrite Em, EM. clear Em EM. unfold set_list.
  assert (I : forall z, In z (p :: l0) -> In z (p :: l0 ++ [q])) by (intros z [<-|Z]; cbn; [auto|right; apply in_or_app; auto]).
  assert (J : In q (p :: l0 ++ [q])) by (right; apply in_or_app; right; left; reflexivity).
  split; [|split].
  - intros x (z & Z & <-). assert (Zc : In z (p :: l0) \/ z = q).
    { destruct Z as [<-|Z]; [left; left; reflexivity|]. apply in_app_or in Z as [Z|[<-|[]]]; [left; right; exact Z|auto]. }
    unfold Rmin, Rmax. destruct (Rle_dec (coord a m) (coord a q)), (Rle_dec (coord a M) (coord a q)), Zc as [Y| ->];
      try (specialize (A (coord a z) (ex_intro _ z (conj Y eq_refl)))); try lra;
      specialize (A (coord a b) (ex_intro _ b (conj B1 eq_refl))); lra.
  - unfold Rmin. destruct (Rle_dec (coord a m) (coord a q)); [exists b|exists q]; auto.
  - unfold Rmax. destruct (Rle_dec (coord a M) (coord a q)); [exists q|exists c]; auto.
Qed.

Definition extended (S : vec -> Prop) (p : vec) (l : list vec) (sym : Z) (x : vec) : Prop :=
  S x \/ In x (p :: l) \/ exists y, In y (p :: l) /\ mirror_image sym y x.

Lemma get_limits_box S p l b sym : bounding_box S (fst b) (snd b) ->
  let b' := get_limits p l b sym in bounding_box (extended S p l sym) (fst b') (snd b').
Proof.
  rewrite !bbox_tight. intros H a. specialize (H a). pose proof (points_tight a l p) as P.
  pose proof (tight_union _ _ _ _ _ _ H P) as U.
  pose proof (tight_union _ _ _ _ _ _ U (tight_opp _ _ _ P)) as V.
  cbv zeta. unfold get_limits.
  set (T := fun x => _) in H. unfold extended.
  assert (E0 : (forall y x, mirror_image sym y x -> coord a x = coord a y) ->
     tight (fun x => exists q, (S q \/ In q (p :: l) \/ (exists y, In y (p :: l) /\ mirror_image sym y q)) /\ coord a q = x)
        (lower (coord a (points_min p l)) (coord a (fst b))) (raise (coord a (points_max p l)) (coord a (snd b)))).
  { intro M. revert U. apply tight_ext. intro x. unfold T, set_list. split.
    - intros [(q & Q & <-)|(q & Q & <-)]; exists q; auto.
    - intros (q & [Q|[Q|(y & Y & Q)]] & <-); [left; exists q; auto|right; exists q; auto|].
      right. exists y. split; [exact Y|]. symmetry. apply M, Q. }
  assert (E1 : (forall y x, mirror_image sym y x -> coord a x = - coord a y) -> (forall y, exists x, mirror_image sym y x) ->
     tight (fun x => exists q, (S q \/ In q (p :: l) \/ (exists y, In y (p :: l) /\ mirror_image sym y q)) /\ coord a q = x)
        (lower (- coord a (points_max p l)) (lower (coord a (points_min p l)) (coord a (fst b))))
        (raise (- coord a (points_min p l)) (raise (coord a (points_max p l)) (coord a (snd b))))).
  { intros M N. revert V. apply tight_ext. intro x. unfold T, set_list. split.
    - intros [[(q & Q & <-)|(q & Q & <-)]|(q & Q & E)]; [exists q; auto|exists q; auto|].
      destruct (N q) as [q' Q']. exists q'. split; [right; right; exists q; auto|]. rewrite (M _ _ Q'), E. ring.
    - intros (q & [Q|[Q|(y & Y & Q)]] & <-); [left; left; exists q; auto|left; right; exists q; auto|].
      right. exists y. split; [exact Y|]. rewrite (M _ _ Q). ring. }
  assert (O : forall lo hi, sym <> 1%Z -> sym <> 2%Z -> sym <> 3%Z ->
    lo = mkV (lower (vx (points_min p l)) (vx (fst b))) (lower (vy (points_min p l)) (vy (fst b))) (lower (vz (points_min p l)) (vz (fst b))) ->
    hi = mkV (raise (vx (points_max p l)) (vx (snd b))) (raise (vy (points_max p l)) (vy (snd b))) (raise (vz (points_max p l)) (vz (snd b))) ->
    tight (fun x => exists q, (S q \/ In q (p :: l) \/ (exists y, In y (p :: l) /\ mirror_image sym y q)) /\ coord a q = x)
      (coord a lo) (coord a hi)).
  { intros lo hi N1 N2 N3 -> ->. destruct a; cbn [coord vx vy vz]; apply E0; intros y x M; inversion M; subst; congruence. }
  clear U V. destruct sym as [|s|s]; [apply O; reflexivity || discriminate| |apply O; reflexivity || discriminate].
  destruct s as [[s|s|]|[s|s|]|]; try (apply O; reflexivity || discriminate); clear O;
    destruct a; cbn [coord vx vy vz fst snd] in *;
    (apply E0; intros y x M; inversion M; subst; reflexivity) || (apply E1; [intros y x M; inversion M; subst; reflexivity|
      intros [? ? ?]; eexists; constructor]).
Qed.

Lemma bbox_ext (S T : vec -> Prop) lo hi : (forall p, S p <-> T p) -> bounding_box S lo hi -> bounding_box T lo hi.
Proof.
  intros E. rewrite !bbox_tight. intros H a. generalize (H a). apply tight_ext. intro x.
  split; intros (p & P & <-); exists p; (split; [apply E, P|reflexivity]).
Qed.

Lemma fold_box (pts : psegment -> vec * list vec) (f : box -> psegment -> box) :
  (forall b s, f b s = get_limits (fst (pts s)) (snd (pts s)) b (fst s)) ->
  (forall s p, In p (fst (pts s) :: snd (pts s)) <-> vertex (snd s) p) ->
  forall segs S b, bounding_box S (fst b) (snd b) ->
  bounding_box (fun p => S p \/ aircraft_vertex segs p) (fst (fold_left f segs b)) (snd (fold_left f segs b)).
Proof.
  intros F P segs. induction segs as [|s segs IH]; intros S b B.
  - cbn [fold_left]. revert B. apply bbox_ext. intro p. split; [auto|]. intros [H|(x & q & [] & _)]. exact H.
  - cbn [fold_left]. apply (get_limits_box S (fst (pts s)) (snd (pts s)) b (fst s)) in B. cbv zeta in B. rewrite <- F in B.
    specialize (IH _ _ B). revert IH. apply bbox_ext. intro p. unfold extended, aircraft_vertex. destruct s as [sym q].
    setoid_rewrite P. cbn [fst snd]. split.
    + intros [[H|[H|(y & Y & M)]]|(x & q' & I & H)]; [left; exact H|right..].
      * exists sym, q. split; [left; reflexivity|left; exact H].
      * exists sym, q. split; [left; reflexivity|right; exists y; auto].
      * exists x, q'. split; [right; exact I|exact H].
    + intros [H|(x & q' & [I|I] & H)]; [auto| |right; exists x, q'; auto].
      injection I as <- <-. left. destruct H as [H|(y & Y & M)]; [auto|right; right; exists y; auto].
Qed.

Lemma origin_box : bounding_box (fun p => p = vzero) vzero vzero.
Proof. intro a. split; [intros p ->; lra|]. split; exists vzero; auto. Qed.

Lemma size_box segs : exists lo hi, bounding_box (with_origin segs) lo hi /\ aircraft_size segs = vnorm (vsub hi lo).
Proof.
  eexists _, _. split; [|reflexivity].
  apply (fold_box (fun s => (qa (snd s), [qb (snd s); qc (snd s); qd (snd s)]))); [reflexivity| |exact origin_box].
  intros s p. unfold vertex. cbn [fst snd In]. intuition congruence.
Qed.

Lemma limits_box segs : bounding_box (with_origin segs) (fst (limits segs)) (snd (limits segs)).
Proof.
  apply (fold_box (fun s => (qa (snd s), [qb (snd s); qc (snd s); qd (snd s); qa (snd s)]))); [reflexivity| |exact origin_box].
  intros s p. unfold vertex. cbn [fst snd In]. intuition congruence.
Qed.

Lemma bbox_unique S lo hi lo' hi' : bounding_box S lo hi -> bounding_box S lo' hi' -> lo = lo' /\ hi = hi'.
Proof.
  intros H H'.
  assert (E : forall a, coord a lo = coord a lo' /\ coord a hi = coord a hi').
  { intro a. destruct (H a) as (A & (p & P & Ep) & (q & Q & Eq)). destruct (H' a) as (A' & (p' & P' & Ep') & (q' & Q' & Eq')).
    pose proof (A _ P'). pose proof (A _ Q'). pose proof (A' _ P). pose proof (A' _ Q). lra. }
  pose proof (E AX). pose proof (E AY). pose proof (E AZ). cbn [coord] in *.
  split; apply vec_eq; tauto.
Qed.

(** The origin counts: an aircraft away from the origin looks larger than it is. *)
Definition away : list psegment := [(0%Z, mkQuad (mkV 10 0 0) (mkV 10 1 0) (mkV 11 1 0) (mkV 11 0 0))].
Lemma away_box : bounding_box (aircraft_vertex away) (mkV 10 0 0) (mkV 11 1 0).
Proof.
  assert (V : forall p, aircraft_vertex away p <-> p = mkV 10 0 0 \/ p = mkV 10 1 0 \/ p = mkV 11 1 0 \/ p = mkV 11 0 0).
  { intro p. split.
    - intros (s & q & [E|[]] & [H|(y & _ & M)]); injection E as <- <-; [exact H|inversion M].
    - intro H. eexists _, _. split; [left; reflexivity|left; exact H]. }
  intro a. split.
  - intros p P. apply V in P. destruct P as [->|[->|[->| ->]]], a; cbn [coord vx vy vz]; lra.
  - split; [exists (mkV 10 0 0)|exists (mkV 11 1 0)]; (split; [apply V; tauto|reflexivity]).
Qed.
Lemma size_wrong : exists segs lo hi, bounding_box (aircraft_vertex segs) lo hi /\ 7 * vnorm (vsub hi lo) < aircraft_size segs.
Proof.
  exists away, (mkV 10 0 0), (mkV 11 1 0). split; [exact away_box|].
  destruct (size_box away) as (lo & hi & B & ->).
  assert (B' : bounding_box (with_origin away) vzero (mkV 11 1 0)).
  { pose proof away_box as A. intro a. destruct (A a) as (A1 & _ & (q & Q & Eq)). split; [|split].
    - intros p [->|P]; [destruct a; cbn [coord vx vy vz vzero]; lra|].
      pose proof (A1 _ P). destruct a; cbn [coord vx vy vz vzero] in *; lra.
    - exists vzero. split; [left; reflexivity|reflexivity].
    - exists q. split; [right; exact Q|exact Eq]. }
  destruct (bbox_unique _ _ _ _ _ B B') as [-> ->]. clear.
  cbn [vsub vx vy vz vzero]. unfold vnorm. cbn [vsub vx vy vz].
  replace (7 * sqrt _) with (sqrt 98).
  - apply sqrt_lt_1_alt. unfold vzero. cbn [vx vy vz]. split; lra.
  - rewrite <- (sqrt_square 7) by lra. rewrite <- sqrt_mult by lra. f_equal. ring.
Qed.

(** Limits of the axes *)
Lemma domain_contains S b a p : bounding_box S (fst b) (snd b) -> S p ->
  fst (domain b a) <= coord a p <= snd (domain b a).
Proof.
  intros B P. pose proof (proj1 (B AX) p P) as X. pose proof (proj1 (B AY) p P) as Y. pose proof (proj1 (B AZ) p P) as Z.
  cbn [coord] in *. unfold domain, scale_factor. set (m := Rmax _ _).
  assert (vx (vsub (snd b) (fst b)) <= m /\ vy (vsub (snd b) (fst b)) <= m /\ vz (vsub (snd b) (fst b)) <= m) as (MX & MY & MZ).
  { unfold m. pose proof (Rmax_l (vx (vsub (snd b) (fst b))) (vy (vsub (snd b) (fst b)))).
    pose proof (Rmax_r (vx (vsub (snd b) (fst b))) (vy (vsub (snd b) (fst b)))).
    pose proof (Rmax_l (Rmax (vx (vsub (snd b) (fst b))) (vy (vsub (snd b) (fst b)))) (vz (vsub (snd b) (fst b)))).
    pose proof (Rmax_r (Rmax (vx (vsub (snd b) (fst b))) (vy (vsub (snd b) (fst b)))) (vz (vsub (snd b) (fst b)))). lra. }
  cbn [vsub vx vy vz] in *. clearbody m. destruct a; cbn [coord fst snd]; lra.
Qed.

Lemma domain_length b a a' : snd (domain b a) - fst (domain b a) = snd (domain b a') - fst (domain b a').
Proof. destruct a, a'; cbn [domain fst snd]; ring. Qed.

Lemma domain_extent S b a : bounding_box S (fst b) (snd b) ->
  exists a' p q, S p /\ S q /\ snd (domain b a) - fst (domain b a) = 105 / 100 * (coord a' p - coord a' q).
Proof.
  intro B.
  assert (E : exists a', Rmax (Rmax (vx (vsub (snd b) (fst b))) (vy (vsub (snd b) (fst b)))) (vz (vsub (snd b) (fst b))) = coord a' (snd b) - coord a' (fst b)).
  { unfold Rmax. destruct (Rle_dec (vx _) (vy _)), (Rle_dec _ (vz _)); [exists AZ|exists AY|exists AZ|exists AX]; reflexivity. }
  destruct E as [a' E]. destruct (B a') as (_ & (q & Q & Eq) & (p & P & Ep)).
  exists a', p, q. split; [exact P|]. split; [exact Q|]. rewrite Ep, Eq, <- E. unfold domain, scale_factor.
  destruct a; cbn [fst snd]; lra.
Qed.

(** What is drawn *)
Lemma plot_shown v line c : shown (plot v line) c <-> shown v c \/ In c line.
Proof.
  unfold shown, plot. cbn [v_lines]. split.
  - intros (l & L & C). apply in_app_or in L as [L|[<-|[]]]; [left; exists l; auto|auto].
  - intros [(l & L & C)|C]; [exists l|exists line]; (split; [apply in_or_app; cbn; auto|exact C]).
Qed.

Definition same_frame (v w : view) : Prop := v_labels v = v_labels w /\ v_limits v = v_limits w.
Definition same_frames (v w : views) : Prop :=
  same_frame (view_3d v) (view_3d w) /\ same_frame (view_yz v) (view_yz w) /\
  same_frame (view_xz v) (view_xz w) /\ same_frame (view_xy v) (view_xy w).
Lemma plot_points_frames v l sym : same_frames (plot_points v l sym) v.
Proof.
  unfold plot_points. destruct sym as [|s|s]; [repeat split| |repeat split].
  destruct s as [[s|s|]|[s|s|]|]; repeat split.
Qed.
Lemma add_wings_frames segs : forall v, same_frames (add_wings v segs) v.
Proof.
  induction segs as [|s segs IH]; intro v; [repeat split|]. cbn [add_wings fold_left].
  change (fold_left _ segs ?w) with (add_wings w segs).
  destruct (IH (plot_points v [qa (snd s); qb (snd s); qc (snd s); qd (snd s); qa (snd s)] (fst s))) as ((A & B) & (C & D) & (E & F) & G & H).
  destruct (plot_points_frames v [qa (snd s); qb (snd s); qc (snd s); qd (snd s); qa (snd s)] (fst s)) as ((A' & B') & (C' & D') & (E' & F') & G' & H').
  repeat split; congruence.
Qed.

Definition drawn (l : list vec) (sym : Z) (p : vec) : Prop := In p l \/ exists y, In y l /\ mirror_image sym y p.
(** Selecting a view *)
Inductive which := W3 | Wyz | Wxz | Wxy.
Definition pick (w : which) (v : views) : view :=
  match w with W3 => view_3d v | Wyz => view_yz v | Wxz => view_xz v | Wxy => view_xy v end.
Definition axes_of (w : which) : list axis :=
  match w with W3 => [AX; AY; AZ] | Wyz => [AY; AZ] | Wxz => [AX; AZ] | Wxy => [AX; AY] end.

Lemma in_map_iff' {A B} (f : A -> B) l y : In y (map f l) <-> exists x, In x l /\ y = f x.
Proof. rewrite in_map_iff. split; intros (x & X & Y); exists x; auto. Qed.

Lemma plot_points_shown w v l sym c :
  shown (pick w (plot_points v l sym)) c <->
  shown (pick w v) c \/ exists p, drawn l sym p /\ c = map (fun a => coord a p) (axes_of w).
Proof.
  assert (O : forall sym', sym' <> 1%Z -> sym' <> 2%Z -> sym' <> 3%Z ->
    (exists p, drawn l sym' p /\ c = map (fun a => coord a p) (axes_of w)) <->
    exists p, In p l /\ c = map (fun a => coord a p) (axes_of w)).
  { intros s N1 N2 N3. unfold drawn. split; intros (p & P & E).
    - destruct P as [P|(y & _ & M)]; [exists p; auto|inversion M; subst; congruence].
    - exists p. auto. }
  assert (M1 : forall y p, mirror_image 1 y p <-> p = mkV (vx y) (vy y) (- vz y))
    by (intros [yx yy yz] p; split; [intro M; inversion M; reflexivity|intros ->; constructor]).
  assert (M2 : forall y p, mirror_image 2 y p <-> p = mkV (vx y) (- vy y) (vz y))
    by (intros [yx yy yz] p; split; [intro M; inversion M; reflexivity|intros ->; constructor]).
  assert (M3 : forall y p, mirror_image 3 y p <-> p = mkV (- vx y) (vy y) (vz y))
    by (intros [yx yy yz] p; split; [intro M; inversion M; reflexivity|intros ->; constructor]).
  assert (Base : forall f : vec -> list R, (forall p, f p = map (fun a => coord a p) (axes_of w)) ->
    (In c (map f l) <-> exists p, In p l /\ c = map (fun a => coord a p) (axes_of w))).
  { intros f F. rewrite in_map_iff'. split; intros (p & P & ->); exists p; rewrite F; auto. }
  unfold plot_points.
  destruct sym as [|s|s].
  1,3: rewrite O by discriminate; destruct w; cbn [pick view_3d view_yz view_xz view_xy axes_of]; rewrite plot_shown, Base by reflexivity; reflexivity.
  assert (Two : forall (m : vec -> vec), (forall y p, mirror_image (Z.pos s) y p <-> p = m y) ->
    forall f g : vec -> list R, (forall p, f p = map (fun a => coord a p) (axes_of w)) ->
    (forall p, g p = map (fun a => coord a (m p)) (axes_of w)) ->
    ((exists p, drawn l (Z.pos s) p /\ c = map (fun a => coord a p) (axes_of w)) <-> In c (map f l) \/ In c (map g l))).
  { intros m Hm f g Hf Hg. unfold drawn. rewrite !in_map_iff'. split.
    - intros (p & [P|(y & Y & M)] & ->); [left; exists p; rewrite Hf; auto|right]. apply Hm in M as ->. exists y. rewrite Hg. auto.
    - intros [(p & P & ->)|(p & P & ->)]; [exists p; rewrite Hf; auto|].
      exists (m p). rewrite Hg. split; [right; exists p; split; [exact P|apply Hm; reflexivity]|reflexivity]. }
  destruct s as [[s|s|]|[s|s|]|].
  all: try (rewrite O by discriminate; destruct w; cbn [pick view_3d view_yz view_xz view_xy axes_of]; rewrite plot_shown, Base by reflexivity; reflexivity).
  all: (specialize (Two _ M1) || specialize (Two _ M2) || specialize (Two _ M3));
    destruct w; cbn [pick view_3d view_yz view_xz view_xy axes_of map coord] in *;
    rewrite ?plot_shown;
    match goal with
    | |- (_ \/ In _ (map ?f _)) \/ In _ (map ?g _) <-> _ => rewrite (Two f g) by reflexivity; tauto
    | |- _ \/ In _ (map ?f _) <-> _ => rewrite (Two f f) by reflexivity; tauto
    end.
Qed.

Lemma add_wings_shown w segs : forall v c,
  shown (pick w (add_wings v segs)) c <->
  shown (pick w v) c \/ exists p, aircraft_vertex segs p /\ c = map (fun a => coord a p) (axes_of w).
Proof.
  induction segs as [|s segs IH]; intros v c.
  - cbn [add_wings fold_left]. split; [auto|]. intros [H|(p & (x & q & [] & _) & _)]. exact H.
  - cbn [add_wings fold_left]. change (fold_left _ segs ?w) with (add_wings w segs).
    rewrite IH, plot_points_shown. clear IH. destruct s as [sym q]. cbn [fst snd].
    assert (V : forall p, In p [qa q; qb q; qc q; qd q; qa q] <-> vertex q p).
    { intro p. unfold vertex. cbn [In]. intuition congruence. }
    unfold drawn, aircraft_vertex. setoid_rewrite V. split.
    + intros [[H|(p & [P|(y & Y & M)] & E)]|(p & (x & q' & I & H) & E)]; [auto|right..].
      * exists p. split; [exists sym, q; split; [left; reflexivity|auto]|exact E].
      * exists p. split; [exists sym, q; split; [left; reflexivity|right; exists y; auto]|exact E].
      * exists p. split; [exists x, q'; split; [right; exact I|exact H]|exact E].
    + intros [H|(p & (x & q' & [I|I] & H) & E)]; [auto| |].
      * injection I as <- <-. left. right. exists p. auto.
      * right. exists p. split; [exists x, q'; auto|exact E].
Qed.

Lemma figure_frame w segs : v_labels (pick w (geometry_figure segs)) = axes_of w /\
  v_limits (pick w (geometry_figure segs)) = map (domain (limits segs)) (axes_of w).
Proof.
  unfold geometry_figure. destruct (add_wings_frames segs (scale_plots init_views segs)) as ((A & B) & (C & D) & (E & F) & G & H).
  destruct w; cbn [pick]; split; rewrite ?A, ?B, ?C, ?D, ?E, ?F, ?G, ?H; reflexivity.
Qed.

Lemma pick_all v x : In x (all_views v) <-> exists w, x = pick w v.
Proof.
  unfold all_views. cbn [In]. split.
  - intros [<-|[<-|[<-|[<-|[]]]]]; [exists W3|exists Wyz|exists Wxz|exists Wxy]; reflexivity.
  - intros [[] ->]; auto.
Qed.

Lemma figure_shows segs v c : In v (all_views (geometry_figure segs)) ->
  (shown v c <-> exists p, aircraft_vertex segs p /\ c = projection v p).
Proof.
  rewrite pick_all. intros [w ->]. unfold projection. destruct (figure_frame w segs) as [-> _].
  unfold geometry_figure. rewrite add_wings_shown. split; [|auto].
  intros [(l & L & _)|H]; [|exact H]. destruct w; destruct L.
Qed.

Lemma figure_inside segs v c : In v (all_views (geometry_figure segs)) -> shown v c ->
  Forall2 (fun x lim => fst lim <= x <= snd lim) c (v_limits v).
Proof.
  intros V C. apply (figure_shows _ _ _ V) in C as (p & P & ->). rewrite pick_all in V. destruct V as [w ->].
  unfold projection. destruct (figure_frame w segs) as [-> ->].
  induction (axes_of w) as [|a l IH]; constructor; [|exact IH].
  eapply domain_contains; [apply limits_box|right; exact P].
Qed.

Lemma figure_aspect segs v l1 l2 : In v (all_views (geometry_figure segs)) ->
  In l1 (v_limits v) -> In l2 (v_limits v) -> snd l1 - fst l1 = snd l2 - fst l2.
Proof.
  rewrite pick_all. intros [w ->]. destruct (figure_frame w segs) as [_ ->].
  rewrite !in_map_iff. intros (a & <- & _) (a' & <- & _). apply domain_length.
Qed.

Lemma figure_fill segs v l : In v (all_views (geometry_figure segs)) -> In l (v_limits v) ->
  exists a p q, with_origin segs p /\ with_origin segs q /\ snd l - fst l = 105 / 100 * (coord a p - coord a q).
Proof.
  rewrite pick_all. intros [w ->]. destruct (figure_frame w segs) as [_ ->].
  rewrite in_map_iff. intros (a & <- & _). apply domain_extent, limits_box.
Qed.

(** Colours *)
Lemma fold_min_le l : forall x v, In v (x :: l) -> fold_left Rmin l x <= v.
Proof.
  induction l as [|y l IH]; intros x v [<-|V]; [cbn; lra|destruct V| |]; cbn [fold_left].
  - pose proof (IH (Rmin x y) (Rmin x y) (or_introl eq_refl)). pose proof (Rmin_l x y). lra.
  - destruct V as [<-|V]; [|apply IH; right; exact V].
    pose proof (IH (Rmin x y) (Rmin x y) (or_introl eq_refl)). pose proof (Rmin_r x y). lra.
Qed.
Lemma fold_max_ge l : forall x v, In v (x :: l) -> v <= fold_left Rmax l x.
Proof.
  induction l as [|y l IH]; intros x v [<-|V]; [cbn; lra|destruct V| |]; cbn [fold_left].
  - pose proof (IH (Rmax x y) (Rmax x y) (or_introl eq_refl)). pose proof (Rmax_l x y). lra.
  - destruct V as [<-|V]; [|apply IH; right; exact V].
    pose proof (IH (Rmax x y) (Rmax x y) (or_introl eq_refl)). pose proof (Rmax_r x y). lra.
Qed.

Lemma normalise_ok data values : normalise data = Some values -> colours data values.
Proof.
  destruct data as [|x0 l]; [discriminate|]. cbn [normalise].
  pose proof (fold_min_le l x0) as Lo. pose proof (fold_max_ge l x0) as Hi.
  assert (LoIn : In (fold_left Rmin l x0) (x0 :: l)).
  { clear. revert x0. induction l as [|y l IH]; intro x; [left; reflexivity|]. cbn [fold_left].
    destruct (IH (Rmin x y)) as [E|I]; [|right; right; exact I]. rewrite <- E. unfold Rmin. destruct (Rle_dec x y); cbn; auto. }
  assert (HiIn : In (fold_left Rmax l x0) (x0 :: l)).
  { clear. revert x0. induction l as [|y l IH]; intro x; [left; reflexivity|]. cbn [fold_left].
    destruct (IH (Rmax x y)) as [E|I]; [|right; right; exact I]. rewrite <- E. unfold Rmax. destruct (Rle_dec x y); cbn; auto. }
  set (lo := fold_left Rmin l x0) in *. set (hi := fold_left Rmax l x0) in *. clearbody lo hi.
  generalize dependent (x0 :: l). clear x0 l. intros data Lo Hi LoIn HiIn E. injection E as <-.
  set (f := fun v => if Req_EM_T (hi - lo) 0 then 0 else (v - lo) / (hi - lo)).
  assert (R : forall v, In v data -> 0 <= f v <= 1).
  { intros v V. unfold f. destruct (Req_EM_T (hi - lo) 0); [lra|]. pose proof (Lo v V). pose proof (Hi v V).
    assert (P : 0 < hi - lo) by lra. split; apply Rmult_le_reg_r with (hi - lo); try lra; unfold Rdiv; rewrite Rmult_assoc, Rinv_l by lra; lra. }
  split; [apply map_length|]. split.
  { apply Forall_forall. intros y Y. apply in_map_iff in Y as (v & <- & V). apply R, V. }
  intros i j k x y z u v w X Y Z U V W. rewrite nth_error_map in U, V, W.
  rewrite X in U. rewrite Y in V. rewrite Z in W. cbn [option_map] in *. injection U as <-. injection V as <-. injection W as <-.
  fold f. apply nth_error_In in X, Y, Z. pose proof (Lo _ X). pose proof (Hi _ X). pose proof (Lo _ Y). pose proof (Hi _ Y).
  unfold f. destruct (Req_EM_T (hi - lo) 0) as [E|E].
  - repeat split; intros; try lra. destruct H4 as (t & T & N). exfalso. apply N. pose proof (Lo _ T). pose proof (Hi _ T). lra.
  - assert (P : 0 < hi - lo) by lra. repeat split.
    + intro L. unfold Rdiv. apply Rmult_le_compat_r; [left; apply Rinv_0_lt_compat; exact P|lra].
    + intro M. pose proof (M _ LoIn). replace (x - lo) with 0 by lra. field. exact E.
    + intros M _. pose proof (M _ HiIn). replace (x - lo) with (hi - lo) by lra. field. exact E.
    + field. exact E.
Qed.

(** Patches *)
Lemma linspace_range n t : (2 <= n)%nat -> In t (linspace01 n) -> 0 <= t <= 1.
Proof.
  intros N T. unfold linspace01 in T. apply in_map_iff in T as (i & <- & I). apply in_seq in I.
  assert (P : 0 < INR (n - 1)) by (apply lt_0_INR; lia).
  pose proof (pos_INR i). assert (INR i <= INR (n - 1)) by (apply le_INR; lia).
  split; apply Rmult_le_reg_r with (INR (n - 1)); try lra; unfold Rdiv; rewrite Rmult_assoc, Rinv_l by lra; lra.
Qed.
Lemma linspace_ends n : (2 <= n)%nat -> In 0 (linspace01 n) /\ In 1 (linspace01 n).
Proof.
  intro N. unfold linspace01. rewrite !in_map_iff. assert (P : 0 < INR (n - 1)) by (apply lt_0_INR; lia). split.
  - exists 0%nat. split; [cbn [INR]; field; lra|apply in_seq; lia].
  - exists (n - 1)%nat. split; [field; lra|apply in_seq; lia].
Qed.
Lemma ceil_nonneg x : 0 <= x -> (0 <= ceil x)%Z.
Proof.
  intro X. unfold ceil. pose proof (base_Int_part (- x)) as [A B].
  assert ((Int_part (- x) < 1)%Z); [|lia]. apply lt_IZR. lra.
Qed.
Lemma ceil_ge x : x <= IZR (ceil x) < x + 1.
Proof. unfold ceil. rewrite opp_IZR. pose proof (base_Int_part (- x)) as [A B]. lra. Qed.

Definition patch_point (q : quad) (r s : R) : vec :=
  vadd (vadd (vscale ((1 - r) * (1 - s)) (qa q)) (vscale (r * (1 - s)) (qb q)))
       (vadd (vscale (r * s) (qc q)) (vscale ((1 - r) * s) (qd q))).
Lemma bilinear_point q r s :
  mkV (bilinear (vx (qa q)) (vx (qb q)) (vx (qc q)) (vx (qd q)) r s)
      (bilinear (vy (qa q)) (vy (qb q)) (vy (qc q)) (vy (qd q)) r s)
      (bilinear (vz (qa q)) (vz (qb q)) (vz (qc q)) (vz (qd q)) r s) = patch_point q r s.
Proof. unfold patch_point, bilinear. apply vec_eq; cbn [vx vy vz vadd vscale]; ring. Qed.

Lemma interpolate_ok q size : 0 < size -> exists rows, interpolate_quad q size = Some rows /\
  (forall p, (exists row, In row rows /\ In p row) -> on_patch q p) /\
  (forall p, vertex q p -> exists row, In row rows /\ In p row).
Proof.
  intro S. unfold interpolate_quad. destruct (Req_EM_T size 0); [lra|].
  set (fr := 1 / 2 * _ + _). set (fs := 1 / 2 * vnorm (vsub (qd q) (qa q)) + _).
  assert (C : forall f, 0 <= f -> (2 <= Z.to_nat (2 + ceil (num_points * f / size)))%nat).
  { intros f F. assert (0 <= num_points * f / size).
    { unfold num_points. apply Rmult_le_pos; [lra|]. left. apply Rinv_0_lt_compat. exact S. }
    pose proof (ceil_nonneg _ H). lia. }
  assert (Fr : 0 <= fr) by (unfold fr; pose proof (vnorm_nonneg (vsub (qb q) (qa q))); pose proof (vnorm_nonneg (vsub (qc q) (qd q))); lra).
  assert (Fs : 0 <= fs) by (unfold fs; pose proof (vnorm_nonneg (vsub (qd q) (qa q))); pose proof (vnorm_nonneg (vsub (qc q) (qb q))); lra).
  pose proof (C _ Fr) as Nr. pose proof (C _ Fs) as Ns. eexists. split; [reflexivity|]. split.
  - intros p (row & Row & P). apply in_map_iff in Row as (s & <- & Is). apply in_map_iff in P as (r & <- & Ir).
    exists r, s. split; [exact (linspace_range _ _ Nr Ir)|]. split; [exact (linspace_range _ _ Ns Is)|]. apply bilinear_point.
  - assert (G : forall r s, In r (linspace01 (Z.to_nat (2 + ceil (num_points * fr / size)))) ->
      In s (linspace01 (Z.to_nat (2 + ceil (num_points * fs / size)))) ->
      forall p, p = patch_point q r s -> exists row, In row
        (map (fun s => map (fun r =>
          mkV (bilinear (vx (qa q)) (vx (qb q)) (vx (qc q)) (vx (qd q)) r s)
              (bilinear (vy (qa q)) (vy (qb q)) (vy (qc q)) (vy (qd q)) r s)
              (bilinear (vz (qa q)) (vz (qb q)) (vz (qc q)) (vz (qd q)) r s))
          (linspace01 (Z.to_nat (2 + ceil (num_points * fr / size)))))
          (linspace01 (Z.to_nat (2 + ceil (num_points * fs / size))))) /\ In p row).
    { intros r s Ir Is p ->. eexists. split; [apply in_map, Is|]. cbv beta. rewrite <- bilinear_point.
      apply (in_map (fun r => mkV (bilinear _ _ _ _ r s) (bilinear _ _ _ _ r s) (bilinear _ _ _ _ r s))). exact Ir. }
    destruct (linspace_ends _ Nr) as [R0 R1]. destruct (linspace_ends _ Ns) as [S0 S1].
    intros p [->|[->|[->| ->]]]; [eapply (G 0 0)|eapply (G 1 0)|eapply (G 1 1)|eapply (G 0 1)]; try assumption;
      unfold patch_point; apply vec_eq; cbn [vx vy vz vadd vscale]; ring.
Qed.

Lemma size_positive segs : 0 < aircraft_size segs <-> exists p, aircraft_vertex segs p /\ p <> vzero.
Proof.
  destruct (size_box segs) as (lo & hi & B & E). rewrite E. split.
  - intro P.
    assert (K : forall a x, coord a x <> 0 -> with_origin segs x -> exists p, aircraft_vertex segs p /\ p <> vzero).
    { intros a x X [->|V]; [destruct a; cbn in X; lra|]. exists x. split; [exact V|]. intros ->. destruct a; cbn in X; lra. }
    assert (Z : forall a, coord a lo = 0 /\ coord a hi = 0 \/ exists p, aircraft_vertex segs p /\ p <> vzero).
    { intro a. destruct (B a) as (_ & (p & P1 & Ep) & (q & Q1 & Eq)). rewrite <- Ep, <- Eq.
      destruct (Req_dec (coord a p) 0); [|right; eauto]. destruct (Req_dec (coord a q) 0); [left; auto|right; eauto]. }
    destruct (Z AX) as [X|X]; [|exact X]. destruct (Z AY) as [Y|Y]; [|exact Y]. destruct (Z AZ) as [W|W]; [|exact W].
    exfalso. cbn [coord] in *. assert (O : vsub hi lo = vzero) by (apply vec_eq; cbn [vx vy vz vsub vzero]; lra).
    rewrite O in P. apply Rlt_not_eq in P. apply P. symmetry. apply vnorm_zero. reflexivity.
  - intros (p & P & N). apply vnorm_pos. intro Z. apply N.
    assert (K : forall a, coord a p = 0).
    { intro a. pose proof (proj1 (B a) p (or_intror P)). pose proof (proj1 (B a) vzero (or_introl eq_refl)).
      pose proof (f_equal (coord a) Z). destruct a; cbn [coord vx vy vz vsub vzero] in *; lra. }
    apply vec_eq; [apply (K AX)|apply (K AY)|apply (K AZ)].
Qed.

Lemma combine_surfaces size values panels : 0 < size -> exists l,
  fold_right (fun (pv : quad * R) acc =>
    match interpolate_quad (fst pv) size, acc with
    | Some s, Some l => Some ((snd pv, s) :: l) | _, _ => None end) (Some []) (combine panels values) = Some l /\
  length l = length (combine panels values) /\
  forall i q v, nth_error (combine panels values) i = Some (q, v) ->
    exists rows, nth_error l i = Some (v, rows) /\ surface_of q rows.
Proof.
  intro S. induction (combine panels values) as [|[q v] pv IH].
  - exists []. split; [reflexivity|]. split; [reflexivity|]. intros [|i] ? ?; discriminate.
  - destruct IH as (l & L & E & H). destruct (interpolate_ok q size S) as (rows & R & A & B).
    cbn [fold_right fst snd]. rewrite R, L. eexists. split; [reflexivity|]. split; [cbn; congruence|].
    intros [|i] q' v' N; cbn [nth_error] in *; [|apply H, N].
    injection N as <- <-. exists rows. split; [reflexivity|]. split; assumption.
Qed.

Lemma nth_combine {A B} (l : list A) : forall (m : list B) i x y,
  nth_error l i = Some x -> nth_error m i = Some y -> nth_error (combine l m) i = Some (x, y).
Proof.
  induction l as [|a l IH]; intros [|b m] [|i] x y X Y; try discriminate; cbn [nth_error combine] in *; [congruence|].
  apply IH; assumption.
Qed.

Lemma results_ok data panels segs : data <> [] -> length panels = length data ->
  (exists p, aircraft_vertex segs p /\ p <> vzero) ->
  exists l, results_surfaces data panels segs = Some l /\ colours data (map fst l) /\
    Forall2 (fun q s => surface_of q (snd s)) panels l.
Proof.
  intros D L V. apply size_positive in V. unfold results_surfaces.
  destruct (normalise data) as [values|] eqn:N; [|destruct data; [contradiction|discriminate]].
  pose proof (normalise_ok _ _ N) as C. destruct (combine_surfaces _ values panels V) as (l & E & Len & H).
  exists l. split; [exact E|].
  assert (LV : length values = length panels) by (destruct C; congruence).
  assert (LL : length l = length panels) by (rewrite Len, combine_length; lia).
  assert (M : map fst l = values).
  { apply nth_ext with (d := 0) (d' := 0); [rewrite map_length; lia|]. rewrite map_length. intros i I.
    destruct (nth_error panels i) as [q|] eqn:Q; [|apply nth_error_None in Q; lia].
    destruct (nth_error values i) as [v|] eqn:X; [|apply nth_error_None in X; lia].
    destruct (H i q v (nth_combine _ _ _ _ _ Q X)) as (rows & R & _).
    rewrite (nth_error_nth values i 0 X). apply nth_error_nth. rewrite nth_error_map, R. reflexivity. }
  rewrite M. split; [exact C|]. clear E C N M.
  assert (G : forall i q, nth_error panels i = Some q -> exists s, nth_error l i = Some s /\ surface_of q (snd s)).
  { intros i q Q. destruct (nth_error values i) as [v|] eqn:X;
      [|apply nth_error_None in X; apply nth_error_Some_lt in Q || (assert (nth_error panels i <> None) by congruence; apply nth_error_Some in H0; lia)].
    destruct (H i q v (nth_combine _ _ _ _ _ Q X)) as (rows & R & S). eexists. split; [exact R|exact S]. }
  clear - G LL. revert l G LL. induction panels as [|q panels IH]; intros [|s l] G LL; try discriminate; constructor.
  - destruct (G 0%nat q eq_refl) as (s' & E & S). injection E as <-. exact S.
  - apply IH; [|cbn in LL; congruence]. intros i q' Q. exact (G (S i) q' Q).
Qed.
