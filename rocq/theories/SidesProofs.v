(** Proofs for C127. *)
From Coq Require Import Reals String List ZArith QArith Qround Qreals Lra Lia Permutation.
From Verif Require Import PyBase Vec StripModel AircraftModel LatticeModel LatticeSpec LatticeProofs PanelModel GeomModel GeomSpec GeomProofs MirrorProofs
  NormalModel NormalSpec NormalProofs VlmModel VlmSpec IsoSpec OrderSpec OrderProofs SidesSpec.
Import ListNotations.
Open Scope R_scope.

Section Sides.
Variables geo geo' : string -> string -> quad.
Variables camber camber' : subarea_visit -> R -> R.
Variables alpha beta : R.
Notation pan := (panels_of geo camber alpha beta).
Notation pan' := (panels_of geo' camber' alpha beta).

(** What the panels of a record depend on. *)
Lemma panels_ext (u u' : subarea_visit) n m m' :
  entry_vertices geo' (as_entry (u', n, m')) = entry_vertices geo (as_entry (u, n, m)) ->
  (forall y, defl_f geo' (as_entry (u', n, m')) y = defl_f geo (as_entry (u, n, m)) y) ->
  (forall k, collocation_xsi (v_xsis u') n k = collocation_xsi (v_xsis u) n k) -> (forall y, camber' u' y = camber u y) ->
  pan' (u', n, m') = pan (u, n, m).
Proof.
  intros V D X C. unfold panels_of. cbn [fst snd]. apply map_ext. intros k. unfold entry_panel. rewrite V. destruct (entry_vertices geo (as_entry (u, n, m))) as [q|] eqn:E; [|reflexivity].
  cbv zeta. cbn [as_entry e_num_c fst snd]. f_equal. fold (as_entry (u', n, m')) (as_entry (u, n, m)). unfold cam_f. rewrite V, E. cbn [as_entry e_visit e_num_c fst snd]. rewrite X, C.
  fold (as_entry (u', n, m')) (as_entry (u, n, m)). rewrite D. reflexivity.
Qed.
Lemma defl_ext (u u' : subarea_visit) n m m' :
  entry_hinge geo' (as_entry (u', n, m')) = entry_hinge geo (as_entry (u, n, m)) ->
  (sa_ctrl (v_sub u) = None <-> sa_ctrl (v_sub u') = None) ->
  (forall c c', sa_ctrl (v_sub u) = Some c -> sa_ctrl (v_sub u') = Some c' ->
    option_map (entry_deflection (as_entry (u', n, m'))) (dget (w_ctls (v_wing u')) (ct_uid c')) = option_map (entry_deflection (as_entry (u, n, m))) (dget (w_ctls (v_wing u)) (ct_uid c))) ->
  forall y, defl_f geo' (as_entry (u', n, m')) y = defl_f geo (as_entry (u, n, m)) y.
Proof.
  intros H N C y. unfold defl_f. rewrite H. cbn [as_entry e_visit fst snd]. fold (as_entry (u', n, m')) (as_entry (u, n, m)).
  destruct (sa_ctrl (v_sub u)) as [c|], (sa_ctrl (v_sub u')) as [c'|]; [|destruct N as [_ N]; discriminate (N eq_refl)|destruct N as [N _]; discriminate (N eq_refl)|reflexivity].
  specialize (C c c' eq_refl eq_refl). destruct (dget (w_ctls (v_wing u')) (ct_uid c')) as [wc'|], (dget (w_ctls (v_wing u)) (ct_uid c)) as [wc|]; cbn [option_map] in C; try discriminate C; [|reflexivity].
  injection C as ->. reflexivity.
Qed.
Lemma num_ext (u u' : subarea_visit) : sa_type (v_sub u') = sa_type (v_sub u) -> (rel_length (v_sub u') == rel_length (v_sub u))%Q -> ws_num_c (v_seg u') = ws_num_c (v_seg u) ->
  (sa_ctrl (v_sub u) = None <-> sa_ctrl (v_sub u') = None) ->
  (forall c c', sa_ctrl (v_sub u) = Some c -> sa_ctrl (v_sub u') = Some c' ->
    option_map wc_num_c (dget (w_ctls (v_wing u')) (ct_uid c')) = option_map wc_num_c (dget (w_ctls (v_wing u)) (ct_uid c))) ->
  num_chordwise u' = num_chordwise u.
Proof.
  intros T L W N C. unfold num_chordwise. rewrite T, W.
  assert (X : match sa_ctrl (v_sub u') with Some c => match dget (w_ctls (v_wing u')) (ct_uid c) with Some wc => Ok (wc_num_c wc) | None => Err KeyError end | None => Ok (ws_num_c (v_seg u)) end =
    match sa_ctrl (v_sub u) with Some c => match dget (w_ctls (v_wing u)) (ct_uid c) with Some wc => Ok (wc_num_c wc) | None => Err KeyError end | None => Ok (ws_num_c (v_seg u)) end).
  { destruct (sa_ctrl (v_sub u)) as [c|], (sa_ctrl (v_sub u')) as [c'|]; [|destruct N as [_ N]; discriminate (N eq_refl)|destruct N as [N _]; discriminate (N eq_refl)|reflexivity].
    specialize (C c c' eq_refl eq_refl). destruct (dget (w_ctls (v_wing u')) (ct_uid c')) as [wc'|], (dget (w_ctls (v_wing u)) (ct_uid c)) as [wc|]; cbn [option_map] in C; try discriminate C; [|reflexivity].
    injection C as ->. reflexivity. }
  rewrite X. match goal with |- bind ?e _ = _ => destruct e as [[n|]|] end; cbn [bind]; try reflexivity.
  destruct (sa_type (v_sub u)); [|reflexivity]. f_equal. apply Qceiling_comp. rewrite L. reflexivity.
Qed.

(** This side. *)
Lemma this_panels x r : this_side geo geo' camber camber' x r -> forall d v, In (obj d) (ws_strips (obj (fst x))) -> In (snd (fst v), obj v) (st_subs (obj d)) ->
  num_chordwise (v, d, fst r, snd r) = num_chordwise (v, d, fst x, snd x) /\
  forall n, pan' ((v, d, fst r, snd r), n, false) = pan ((v, d, fst x, snd x), n, false).
Proof.
  intros (SY & G & ST & NC & CB & CT) d v D V. pose proof (fun c => CT (obj d) _ (obj v) c D V) as K. clear CT. unfold panels_and_deflection in K. split.
  - apply num_ext; try reflexivity; [exact NC|]. unfold v_sub, v_wing. cbn [fst snd]. intros c c' E E'. assert (c' = c) by congruence. subst c'. specialize (K c E).
    destruct (dget _ _), (dget _ _); cbn [option_map] in *; congruence.
  - intros n. apply panels_ext; [| |reflexivity|exact (CB v d)].
    + unfold entry_vertices. cbn [as_entry e_visit e_mirror fst snd]. rewrite !sub_plain. unfold v_quad, v_wing, v_seg. cbn [fst snd]. rewrite G. reflexivity.
    + apply defl_ext; [|reflexivity|].
      * unfold entry_hinge, hinge_axis. cbn [as_entry e_visit e_mirror fst snd]. unfold v_sub. cbn [fst snd]. destruct (sa_hinge (obj v)) as [[h1 h2]|]; [|reflexivity].
        rewrite !hinge_plain. unfold v_quad, v_wing, v_seg. cbn [fst snd]. rewrite G. reflexivity.
      * unfold v_sub, v_wing, entry_deflection. cbn [as_entry e_mirror fst snd]. intros c c' E E'. assert (c' = c) by congruence. subst c'. specialize (K c E).
        destruct (dget _ _), (dget _ _); cbn [option_map] in *; congruence.
Qed.

(** The other side. *)
Lemma along_other a b t : along (mir b) (mir a) (1 - t) = mir (along a b t).
Proof. unfold mir, along. apply vec_eq; vsimp; ring. Qed.
Lemma strip_other q e e' : r_eta_a e' = 1 - r_eta_b e -> r_eta_b e' = 1 - r_eta_a e -> r_eta_c e' = 1 - r_eta_d e -> r_eta_d e' = 1 - r_eta_c e ->
  strip_quad (other_quad q) e' = quad_order XZ (quad_refl XZ (strip_quad q e)).
Proof.
  intros A B C D. unfold strip_quad, other_quad, quad_order, quad_refl, order4, quad_of. cbn [qa qb qc qd]. rewrite A, B, C, D, !along_other. reflexivity.
Qed.
Lemma other_panels x t : w_symmetry (obj (snd x)) = 2%Z -> other_side geo geo' camber camber' x t -> forall d v d' v',
  In (obj d) (ws_strips (obj (fst x))) -> In (snd (fst v), obj v) (st_subs (obj d)) -> In (obj d') (ws_strips (obj (fst t))) -> In (snd (fst v'), obj v') (st_subs (obj d')) ->
  other_strip (obj d) (obj d') -> other_sub (obj v) (obj v') ->
  num_chordwise (v', d', fst t, snd t) = num_chordwise (v, d, fst x, snd x) /\
  forall n, pan' ((v', d', fst t, snd t), n, false) = pan ((v, d, fst x, snd x), n, true).
Proof.
  intros S2 (SY & G & NC & _ & CB & CT) d v d' v' D V D' V' OS OV. pose proof (fun c c' => CT (obj d) _ (obj v) (obj d') _ (obj v') c c' D V D' V' OS OV) as K. clear CT.
  pose proof (fun y => CB v d v' d' y OV OS) as CY. clear CB. unfold panels_and_deflection, panels_and_mirrored_deflection in K.
  destruct OV as (T & XA & XB & XC & XD & HI & CN). destruct OS as (EA & EB & EC & ED & _).
  apply Qeq_eqR in XA, XB, XC, XD, EA, EB, EC, ED. rewrite Q2R_minus in EA, EB, EC, ED. replace (Q2R 1) with 1 in EA, EB, EC, ED by (unfold Q2R; cbn; field). split.
  - apply num_ext; [exact T| |exact NC|exact CN|].
    + unfold v_sub, rel_length. cbn [fst snd]. apply eqR_Qeq. rewrite !Q2R_mult, !Q2R_minus, !Q2R_plus, XA, XB, XC, XD. ring.
    + unfold v_sub, v_wing. cbn [fst snd]. intros c c' E E'. specialize (K c c' E E'). destruct (dget _ _), (dget _ _); cbn [option_map] in *; congruence.
  - intros n.
    assert (SQ : strip_quad (v_quad geo' (v', d', fst t, snd t)) (v_etas (v', d', fst t, snd t)) = quad_order XZ (quad_refl XZ (strip_quad (v_quad geo (v, d, fst x, snd x)) (v_etas (v, d, fst x, snd x))))).
    { unfold v_quad, v_wing, v_seg at 1. cbn [fst snd]. rewrite G. apply strip_other; unfold v_etas, v_strip; cbn [fst snd r_eta_a r_eta_b r_eta_c r_eta_d]; assumption. }
    assert (XS : v_xsis (v', d', fst t, snd t) = xsis_order XZ (v_xsis (v, d, fst x, snd x))).
    { unfold v_xsis, v_sub, xsis_order. cbn [fst snd order4 r_xsi_a r_xsi_b r_xsi_c r_xsi_d]. rewrite XA, XB, XC, XD. reflexivity. }
    apply panels_ext; [| | |exact CY].
    + unfold entry_vertices. cbn [as_entry e_visit e_mirror fst snd]. rewrite sub_plain. change (w_symmetry (v_wing (v, d, fst x, snd x))) with (w_symmetry (obj (snd x))). rewrite S2. change 2%Z with (plane_num XZ). rewrite sub_mirror, SQ, XS. reflexivity.
    + apply defl_ext; [|exact CN|].
      * unfold entry_hinge, hinge_axis. cbn [as_entry e_visit e_mirror fst snd]. unfold v_sub. cbn [fst snd].
        destruct (sa_hinge (obj v)) as [[h1 h2]|], (sa_hinge (obj v')) as [[h1' h2']|]; try contradiction; [|reflexivity]. destruct HI as [H1 H2]. apply Qeq_eqR in H1, H2. rewrite H1, H2.
        rewrite hinge_plain. change (w_symmetry (v_wing (v, d, fst x, snd x))) with (w_symmetry (obj (snd x))). rewrite S2. change 2%Z with (plane_num XZ). rewrite hinge_mirror, SQ. reflexivity.
      * unfold v_sub, v_wing, entry_deflection. cbn [as_entry e_mirror fst snd]. intros c c' E E'. specialize (K c c' E E'). destruct (dget _ _), (dget _ _); cbn [option_map] in *; congruence.
    + intros k. rewrite XS. unfold collocation_xsi, xsis_order. cbn [order4 r_xsi_a r_xsi_b r_xsi_c r_xsi_d]. f_equal; [lra|]. f_equal. lra.
Qed.

(** Below the xy-plane. *)
Lemma strip_under q e : strip_quad (under_quad q) e = quad_order XY (quad_refl XY (strip_quad q e)).
Proof. unfold strip_quad, under_quad, quad_order, quad_refl, order4, quad_of, along. cbn [qa qb qc qd refl]. f_equal; apply vec_eq; vsimp; ring. Qed.
Lemma under_panels x t : w_symmetry (obj (snd x)) = 1%Z -> under_side geo geo' camber camber' x t -> forall d v, In (obj d) (ws_strips (obj (fst x))) -> In (snd (fst v), obj v) (st_subs (obj d)) ->
  num_chordwise (v, d, fst t, snd t) = num_chordwise (v, d, fst x, snd x) /\
  forall n, pan' ((v, d, fst t, snd t), n, false) = pan ((v, d, fst x, snd x), n, true).
Proof.
  intros S1 (SY & G & ST & NC & CB & CT) d v D V. pose proof (fun c => CT (obj d) _ (obj v) c D V) as K. clear CT. unfold panels_and_deflection, panels_and_mirrored_deflection in K.
  assert (SQ : strip_quad (v_quad geo' (v, d, fst t, snd t)) (v_etas (v, d, fst t, snd t)) = quad_order XY (quad_refl XY (strip_quad (v_quad geo (v, d, fst x, snd x)) (v_etas (v, d, fst x, snd x))))).
  { unfold v_quad, v_wing, v_seg at 1. cbn [fst snd]. rewrite G. apply strip_under. }
  split.
  - apply num_ext; try reflexivity; [exact NC|]. unfold v_sub, v_wing. cbn [fst snd]. intros c c' E E'. assert (c' = c) by congruence. subst c'. specialize (K c E).
    destruct (dget _ _), (dget _ _); cbn [option_map] in *; congruence.
  - intros n. apply panels_ext; [| |reflexivity|exact (CB v d)].
    + unfold entry_vertices. cbn [as_entry e_visit e_mirror fst snd]. rewrite sub_plain. change (w_symmetry (v_wing (v, d, fst x, snd x))) with (w_symmetry (obj (snd x))). rewrite S1. change 1%Z with (plane_num XY). rewrite sub_mirror, SQ. reflexivity.
    + apply defl_ext; [|reflexivity|].
      * unfold entry_hinge, hinge_axis. cbn [as_entry e_visit e_mirror fst snd]. unfold v_sub. cbn [fst snd]. destruct (sa_hinge (obj v)) as [[h1 h2]|]; [|reflexivity].
        rewrite hinge_plain. change (w_symmetry (v_wing (v, d, fst x, snd x))) with (w_symmetry (obj (snd x))). rewrite S1. change 1%Z with (plane_num XY). rewrite hinge_mirror, SQ. reflexivity.
      * unfold v_sub, v_wing, entry_deflection. cbn [as_entry e_mirror fst snd]. intros c c' E E'. assert (c' = c) by congruence. subst c'. specialize (K c E).
        destruct (dget _ _), (dget _ _); cbn [option_map] in *; congruence.
Qed.

(** Lists. *)
Lemma flat_split {A B} (f g : A -> list B) l : Permutation (flat_map (fun x => f x ++ g x) l) (flat_map f l ++ flat_map g l).
Proof.
  induction l as [|x l IH]; [constructor|]. cbn [flat_map]. rewrite IH, <- !app_assoc. apply Permutation_app_head. rewrite !app_assoc. apply Permutation_app_tail, Permutation_app_comm.
Qed.
Lemma perm_flat_ext {A B} (f g : A -> list B) l : (forall x, In x l -> Permutation (f x) (g x)) -> Permutation (flat_map f l) (flat_map g l).
Proof.
  induction l as [|x l IH]; intros H; [constructor|]. cbn [flat_map]. apply Permutation_app; [apply H; left; reflexivity|apply IH; intros y Y; apply H; right; exact Y].
Qed.
Lemma flat_2 {A B C} (P : A -> B -> Prop) (f : A -> list C) (g : B -> list C) l l' : Forall2 P l l' ->
  (forall x y, In x l -> In y l' -> P x y -> f x = g y) -> flat_map f l = flat_map g l'.
Proof.
  induction 1 as [|x y l l' H F IH]; intros E; [reflexivity|]. cbn [flat_map]. rewrite (E x y (or_introl eq_refl) (or_introl eq_refl) H), IH; [reflexivity|].
  intros a b A1 B1. apply E; right; assumption.
Qed.
Lemma items_2 {K V K' V'} (P : V -> V' -> Prop) (l : list (K * V)) (l' : list (K' * V')) : Forall2 (fun x x' => P (snd x) (snd x')) l l' ->
  Forall2 (fun i i' => P (obj i) (obj i')) (items l) (items l').
Proof.
  unfold items, enum. generalize 0%nat. intros n F. revert n. induction F as [|[k v] [k' v'] l l' H F IH]; intros n; cbn [enum_from map]; constructor; [exact H|apply IH].
Qed.
Lemma strip_items_flat {B} (f : item nat strip -> list B) (g : strip -> list B) l : (forall d, In d (items (strip_items l)) -> f d = g (obj d)) ->
  flat_map f (items (strip_items l)) = flat_map g l.
Proof.
  intros H. rewrite (flat_map_ext_in f (fun d => g (obj d)) _ H). unfold items, strip_items, enum. rewrite flat_mapped. cbn [obj fst snd]. clear H f.
  assert (X : forall l n m, flat_map (fun x => g (obj (fst x, fst (snd x), snd (snd x)))) (enum_from n (enum_from m l)) = flat_map g l).
  { clear l. induction l as [|x l IH]; intros n m; [reflexivity|]. cbn [enum_from flat_map obj fst snd]. rewrite IH. reflexivity. }
  apply X.
Qed.
Lemma strip_items_In d l : In d (items (strip_items l)) -> In (obj d) l.
Proof.
  intros D. apply items_In in D. unfold strip_items in D. revert D. unfold enum. generalize 0%nat.
  induction l as [|y l IH]; intros i J; [destruct J|]. cbn [enum_from] in J. destruct J as [J|J]; [left; congruence|right; exact (IH _ J)].
Qed.

(** The two halves of a mirrored segment. *)
Definition half (m : bool) (u : subarea_visit) : list panel := match num_chordwise u with Ok n => pan (u, n, m) | Err _ => [] end.
Lemma match_ext {A} (a b : res Z) (f g : Z -> list A) : a = b -> (forall n, f n = g n) -> match a with Ok n => f n | Err _ => [] end = match b with Ok n => g n | Err _ => [] end.
Proof. intros -> E. destruct b; [apply E|reflexivity]. Qed.
Lemma visit_halves (u : subarea_visit) : (w_symmetry (v_wing u) = 1 \/ w_symmetry (v_wing u) = 2)%Z -> visit_panels geo camber alpha beta u = half false u ++ half true u.
Proof.
  intros S. unfold visit_panels, recs0, half. destruct (num_chordwise u); [|reflexivity]. destruct S as [-> | ->]; cbn [Z.eqb flat_map]; rewrite app_nil_r; reflexivity.
Qed.
Lemma visit_single u : w_symmetry (v_wing u) = 0%Z -> visit_panels geo' camber' alpha beta u = match num_chordwise u with Ok n => pan' (u, n, false) | Err _ => [] end.
Proof. intros S. unfold visit_panels, recs0. rewrite S. destruct (num_chordwise u); [|reflexivity]. cbn [Z.eqb flat_map]. apply app_nil_r. Qed.
Lemma this_segment x r : this_side geo geo' camber camber' x r ->
  seg_panels geo' camber' alpha beta r = flat_map (fun d => flat_map (fun v => half false (v, d, fst x, snd x)) (items (st_subs (obj d)))) (items (strip_items (ws_strips (obj (fst x))))).
Proof.
  intros T. pose proof T as (SY & _ & ST & _). unfold seg_panels. rewrite ST. apply flat_map_ext_in. intros d D. apply strip_items_In in D. apply flat_map_ext_in. intros v V. apply items_In in V.
  destruct (this_panels x r T d v D V) as [N P]. rewrite (visit_single (v, d, fst r, snd r)) by exact SY. apply match_ext; [exact N|exact P].
Qed.
Definition far (x : item string wsegment * item string wing) (d : item nat strip) : list panel :=
  flat_map (fun v => half true (v, d, fst x, snd x)) (items (st_subs (obj d))).
Definition left_strip (t : item string wsegment * item string wing) (d : item nat strip) : list panel :=
  flat_map (fun v => visit_panels geo' camber' alpha beta (v, d, fst t, snd t)) (items (st_subs (obj d))).
Lemma other_strip_panels x t d d' : w_symmetry (obj (snd x)) = 2%Z -> other_side geo geo' camber camber' x t ->
  In (obj d) (ws_strips (obj (fst x))) -> In (obj d') (ws_strips (obj (fst t))) -> other_strip (obj d) (obj d') -> far x d = left_strip t d'.
Proof.
  intros S2 T D D' OS. pose proof T as (SY & _). pose proof OS as (_ & _ & _ & _ & F). unfold far, left_strip.
  apply (flat_2 (fun i i' => other_sub (obj i) (obj i'))); [apply items_2; exact F|]. intros v v' V V' OV. apply items_In in V, V'.
  destruct (other_panels x t S2 T d v d' v' D V D' V' OS OV) as [N P]. rewrite (visit_single (v', d', fst t, snd t)) by exact SY. symmetry. apply match_ext; [exact N|exact P].
Qed.
Definition as_item (st : strip) : item nat strip := (0%nat, 0%nat, st).
Lemma other_segment x t : w_symmetry (obj (snd x)) = 2%Z -> other_side geo geo' camber camber' x t ->
  Permutation (seg_panels geo' camber' alpha beta t) (flat_map (far x) (items (strip_items (ws_strips (obj (fst x)))))).
Proof.
  intros S2 T. pose proof T as (_ & _ & _ & (l & F & PL) & _).
  assert (L : forall st', In st' (ws_strips (obj (fst t))) -> exists st, In st (ws_strips (obj (fst x))) /\ other_strip st st').
  { intros st' I. apply (Permutation_in _ (Permutation_sym PL)) in I. clear - F I. induction F as [|a b l l' H F IH]; [destruct I|]. destruct I as [->|I]; [exists a; split; [left; reflexivity|exact H]|].
    destruct (IH I) as (st & A & B). exists st. split; [right; exact A|exact B]. }
  assert (L' : forall st, In st (ws_strips (obj (fst x))) -> exists st', In st' (ws_strips (obj (fst t))) /\ other_strip st st').
  { intros st I. assert (X : exists st', In st' l /\ other_strip st st').
    { clear - F I. induction F as [|a b l l' H F IH]; [destruct I|]. destruct I as [->|I]; [exists b; split; [left; reflexivity|exact H]|]. destruct (IH I) as (st' & A & B). exists st'. split; [right; exact A|exact B]. }
    destruct X as (st' & A & B). exists st'. split; [exact (Permutation_in _ PL A)|exact B]. }
  unfold seg_panels. fold (left_strip t).
  transitivity (flat_map (fun st' => left_strip t (as_item st')) (ws_strips (obj (fst t)))).
  { rewrite (strip_items_flat _ (fun st' => left_strip t (as_item st'))); [reflexivity|]. intros d' D'. apply strip_items_In in D'. destruct (L _ D') as (st & I & O).
    change (left_strip t d' = left_strip t (as_item (obj d'))). rewrite <- (other_strip_panels x t (as_item st) d' S2 T I D' O). apply (other_strip_panels x t (as_item st) (as_item (obj d')) S2 T I D' O). }
  rewrite (strip_items_flat (far x) (fun st => far x (as_item st))).
  - rewrite <- (perm_flat _ _ _ PL). replace (flat_map (fun st => far x (as_item st)) (ws_strips (obj (fst x)))) with (flat_map (fun st' => left_strip t (as_item st')) l); [reflexivity|].
    symmetry. apply (flat_2 other_strip); [exact F|]. intros st st' I I' O. apply (other_strip_panels x t (as_item st) (as_item st') S2 T I); [exact (Permutation_in _ PL I')|exact O].
  - intros d D. apply strip_items_In in D. destruct (L' _ D) as (st' & I & O). rewrite (other_strip_panels x t d (as_item st') S2 T D I O). symmetry. apply (other_strip_panels x t (as_item (obj d)) (as_item st') S2 T D I O).
Qed.
Lemma both_segment x r t : w_symmetry (obj (snd x)) = 2%Z -> this_side geo geo' camber camber' x r -> other_side geo geo' camber camber' x t ->
  Permutation (seg_panels geo camber alpha beta x) (seg_panels geo' camber' alpha beta r ++ seg_panels geo' camber' alpha beta t).
Proof.
  intros S2 R T. rewrite (this_segment x r R), (other_segment x t S2 T), <- flat_split. apply perm_flat_ext. intros d _. unfold far. rewrite <- flat_split. apply perm_flat_ext. intros v _.
  rewrite visit_halves by (right; exact S2). reflexivity.
Qed.
Lemma under_segment x r t : w_symmetry (obj (snd x)) = 1%Z -> this_side geo geo' camber camber' x r -> under_side geo geo' camber camber' x t ->
  Permutation (seg_panels geo camber alpha beta x) (seg_panels geo' camber' alpha beta r ++ seg_panels geo' camber' alpha beta t).
Proof.
  intros S1 R T. rewrite (this_segment x r R). replace (seg_panels geo' camber' alpha beta t) with (flat_map (far x) (items (strip_items (ws_strips (obj (fst x)))))).
  - rewrite <- flat_split. apply perm_flat_ext. intros d _. unfold far. rewrite <- flat_split. apply perm_flat_ext. intros v _. rewrite visit_halves by (left; exact S1). reflexivity.
  - pose proof T as (SY & _ & ST & _). unfold seg_panels. rewrite ST. apply flat_map_ext_in. intros d D. apply strip_items_In in D. unfold far. apply flat_map_ext_in. intros v V. apply items_In in V.
    destruct (under_panels x t S1 T d v D V) as [N P]. rewrite (visit_single (v, d, fst t, snd t)) by exact SY. symmetry. apply match_ext; [exact N|exact P].
Qed.
Lemma both_panels l l' : both_sides geo geo' camber camber' l l' -> Permutation (flat_map (seg_panels geo camber alpha beta) l) (flat_map (seg_panels geo' camber' alpha beta) l').
Proof.
  induction 1 as [|x x' l l' S B IH|x r t l l' S2 R T B IH|x r t l l' S1 R T B IH]; [constructor| | |]; cbn [flat_map].
  - rewrite (same_seg_panels _ _ _ _ alpha beta _ _ S). apply Permutation_app_head, IH.
  - rewrite (both_segment x r t S2 R T), <- !app_assoc, IH. reflexivity.
  - rewrite (under_segment x r t S1 R T), <- !app_assoc, IH. reflexivity.
Qed.
End Sides.

Lemma sides_loads geo geo' camber camber' a a' eps s r : modelled_on_both_sides geo geo' camber camber' a a' ->
  panelled a -> counts_set a -> flags_ok a -> panelled a' -> counts_set a' -> flags_ok a' ->
  exists pans n pans' n', gen_lattice geo camber true (f_alpha s) (f_beta s) a = Ok (pans, n) /\ gen_lattice geo' camber' true (f_alpha s) (f_beta s) a' = Ok (pans', n') /\
    Permutation (set_normals pans n) (set_normals pans' n') /\
    forall g o, loads eps (set_normals pans n) s r g o -> exists g' o', loads eps (set_normals pans' n') s r g' o' /\
      o_F o' = o_F o /\ o_M o' = o_M o /\ o_co o' = o_co o /\ same_panels (set_normals pans n) (set_normals pans' n') o o'.
Proof.
  intros (l & l' & PL & B & PL') P C FL P' C' FL'.
  destruct (lattice_by_segment geo camber (f_alpha s) (f_beta s) a P C FL) as (pans & n & G & E).
  destruct (lattice_by_segment geo' camber' (f_alpha s) (f_beta s) a' P' C' FL') as (pans' & n' & G' & E').
  assert (PM : Permutation (set_normals pans n) (set_normals pans' n')).
  { rewrite E, E', (perm_flat _ _ _ PL), <- (perm_flat _ _ _ PL'). apply both_panels. exact B. }
  exists pans, n, pans', n'. split; [exact G|]. split; [exact G'|]. split; [exact PM|]. intros g o. apply order_loads. exact PM.
Qed.
