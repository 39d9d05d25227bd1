(** Proofs for C128. *)
From Coq Require Import Reals String List ZArith QArith Qround Qreals Lra Lia Permutation.
From Verif Require Import PyBase Vec StripModel AircraftModel LatticeModel LatticeSpec LatticeProofs PanelModel GeomModel GeomSpec GeomProofs MirrorProofs
  NormalModel NormalSpec NormalProofs VlmModel VlmSpec IsoSpec OrderSpec OrderProofs SidesProofs PartsSpec.
Import ListNotations.
Open Scope R_scope.

Lemma Q2R_1 : Q2R 1 = 1.
Proof. unfold Q2R; cbn; field. Qed.
Lemma within_Q lo hi t e : (e == within lo hi t)%Q -> Q2R e = (1 - Q2R t) * Q2R lo + Q2R t * Q2R hi.
Proof. intros E. apply Qeq_eqR in E. rewrite E. unfold within. rewrite Q2R_plus, !Q2R_mult, Q2R_minus, Q2R_1. reflexivity. Qed.
Lemma within_point a b lo hi t e : Q2R e = (1 - Q2R t) * Q2R lo + Q2R t * Q2R hi ->
  vadd (within_R a b lo) (vscale (Q2R t) (vsub (within_R a b hi) (within_R a b lo))) = vadd a (vscale (Q2R e) (vsub b a)).
Proof. intros ->. unfold within_R. apply vec_eq; vsimp; ring. Qed.
Lemma part_strip q g s s' m sym : same_strip g s s' ->
  strip_vertices (part_quad q g) (mkEtas (Q2R (eta_a s')) (Q2R (eta_b s')) (Q2R (eta_c s')) (Q2R (eta_d s'))) m sym =
  strip_vertices q (mkEtas (Q2R (eta_a s)) (Q2R (eta_b s)) (Q2R (eta_c s)) (Q2R (eta_d s))) m sym.
Proof.
  intros (A & B & C & D & _). apply within_Q in A, B, C, D. unfold strip_vertices, part_quad. cbn [qa qb qc qd r_eta_a r_eta_b r_eta_c r_eta_d].
  rewrite (within_point _ _ _ _ _ _ A), (within_point _ _ _ _ _ _ B), (within_point _ _ _ _ _ _ C), (within_point _ _ _ _ _ _ D). reflexivity.
Qed.

Section Parts.
Variables geo geo' : string -> string -> quad.
Variables camber camber' : subarea_visit -> R -> R.
Variables alpha beta : R.
Notation pan := (panels_of geo camber alpha beta).
Notation pan' := (panels_of geo' camber' alpha beta).

Lemma part_panels x l r g : w_symmetry (obj (snd r)) = w_symmetry (obj (snd x)) ->
  geo' (w_uid (obj (snd r))) (ws_uid (obj (fst r))) = part_quad (geo (w_uid (obj (snd x))) (ws_uid (obj (fst x)))) g -> ws_num_c (obj (fst r)) = ws_num_c (obj (fst x)) ->
  (forall sub st sub' st' y, same_sub (obj sub) (obj sub') -> same_strip g (obj st) (obj st') -> camber' (sub', st', fst r, snd r) y = camber (sub, st, fst x, snd x) y) ->
  (forall st k v c, In st l -> In (k, v) (st_subs st) -> sa_ctrl v = Some c -> dget (w_ctls (obj (snd r))) (ct_uid c) = dget (w_ctls (obj (snd x))) (ct_uid c)) ->
  forall d v d' v', In (obj d) l -> In (snd (fst v), obj v) (st_subs (obj d)) -> same_strip g (obj d) (obj d') -> same_sub (obj v) (obj v') ->
  num_chordwise (v', d', fst r, snd r) = num_chordwise (v, d, fst x, snd x) /\
  forall n m, pan' ((v', d', fst r, snd r), n, m) = pan ((v, d, fst x, snd x), n, m).
Proof.
  intros SY G NC CB CT d v d' v' D V OS OV. pose proof (fun c => CT (obj d) _ (obj v) c D V) as K. clear CT. pose proof (fun y => CB v d v' d' y OV OS) as CY. clear CB.
  destruct OV as (T & XA & XB & XC & XD & HI & CN). apply Qeq_eqR in XA, XB, XC, XD.
  assert (SV : forall m sym, strip_vertices (v_quad geo' (v', d', fst r, snd r)) (v_etas (v', d', fst r, snd r)) m sym = strip_vertices (v_quad geo (v, d, fst x, snd x)) (v_etas (v, d, fst x, snd x)) m sym).
  { intros m sym. unfold v_quad, v_wing, v_seg at 1. cbn [fst snd]. rewrite G. exact (part_strip _ g (obj d) (obj d') m sym OS). }
  assert (XS : v_xsis (v', d', fst r, snd r) = v_xsis (v, d, fst x, snd x)).
  { unfold v_xsis, v_sub. cbn [fst snd]. rewrite XA, XB, XC, XD. reflexivity. }
  assert (CI : sa_ctrl (obj v) = None <-> sa_ctrl (obj v') = None) by (rewrite CN; reflexivity). split.
  - apply num_ext; [exact T| |exact NC|exact CI|].
    + unfold v_sub, rel_length. cbn [fst snd]. apply eqR_Qeq. rewrite !Q2R_mult, !Q2R_minus, !Q2R_plus, XA, XB, XC, XD. ring.
    + unfold v_sub, v_wing. cbn [fst snd]. intros c c' E E'. assert (c' = c) by congruence. subst c'. rewrite (K c E). reflexivity.
  - intros n m. apply panels_ext; [| |intros k; rewrite XS; reflexivity|exact CY].
    + unfold entry_vertices, subarea_vertices. cbn [as_entry e_visit e_mirror fst snd]. rewrite SV, XS. unfold v_wing. cbn [fst snd]. rewrite SY. reflexivity.
    + apply defl_ext; [|exact CI|].
      * unfold entry_hinge, hinge_axis, hinge_vertices. cbn [as_entry e_visit e_mirror fst snd]. rewrite !SV. unfold v_sub, v_wing. cbn [fst snd]. rewrite SY.
        destruct (sa_hinge (obj v)) as [[h1 h2]|], (sa_hinge (obj v')) as [[h1' h2']|]; try contradiction; [|reflexivity]. destruct HI as [H1 H2]. apply Qeq_eqR in H1, H2. rewrite H1, H2. reflexivity.
      * unfold v_sub, v_wing, entry_deflection. cbn [as_entry e_mirror fst snd]. intros c c' E E'. assert (c' = c) by congruence. subst c'. rewrite (K c E). reflexivity.
Qed.

Definition of_strip (x : item string wsegment * item string wing) (d : item nat strip) : list panel :=
  flat_map (fun v => visit_panels geo camber alpha beta (v, d, fst x, snd x)) (items (st_subs (obj d))).
Definition of_strip' (x : item string wsegment * item string wing) (d : item nat strip) : list panel :=
  flat_map (fun v => visit_panels geo' camber' alpha beta (v, d, fst x, snd x)) (items (st_subs (obj d))).
Lemma visit_ext u u' : w_symmetry (v_wing u') = w_symmetry (v_wing u) -> num_chordwise u' = num_chordwise u -> (forall n m, pan' (u', n, m) = pan (u, n, m)) ->
  visit_panels geo camber alpha beta u = visit_panels geo' camber' alpha beta u'.
Proof.
  intros S N P. unfold visit_panels, recs0. rewrite N, S. destruct (num_chordwise u); [|reflexivity]. destruct (Z.eqb _ 0); cbn [flat_map]; rewrite !P; reflexivity.
Qed.
Lemma part_of_strip x l r g d d' : w_symmetry (obj (snd r)) = w_symmetry (obj (snd x)) ->
  geo' (w_uid (obj (snd r))) (ws_uid (obj (fst r))) = part_quad (geo (w_uid (obj (snd x))) (ws_uid (obj (fst x)))) g -> ws_num_c (obj (fst r)) = ws_num_c (obj (fst x)) ->
  (forall sub st sub' st' y, same_sub (obj sub) (obj sub') -> same_strip g (obj st) (obj st') -> camber' (sub', st', fst r, snd r) y = camber (sub, st, fst x, snd x) y) ->
  (forall st k v c, In st l -> In (k, v) (st_subs st) -> sa_ctrl v = Some c -> dget (w_ctls (obj (snd r))) (ct_uid c) = dget (w_ctls (obj (snd x))) (ct_uid c)) ->
  In (obj d) l -> same_strip g (obj d) (obj d') -> of_strip x d = of_strip' r d'.
Proof.
  intros SY G NC CB CT D OS. pose proof OS as (_ & _ & _ & _ & F). unfold of_strip, of_strip'.
  apply (flat_2 (fun i i' => same_sub (obj i) (obj i'))); [apply items_2; exact F|]. intros v v' V V' OV. apply items_In in V.
  destruct (part_panels x l r g SY G NC CB CT d v d' v' D V OS OV) as [N P]. apply visit_ext; [exact SY|exact N|exact P].
Qed.
Lemma Forall2_left {A B} (P : A -> B -> Prop) l l' x : Forall2 P l l' -> In x l -> exists y, In y l' /\ P x y.
Proof.
  induction 1 as [|a b l l' H F IH]; intros I; [destruct I|]. destruct I as [->|I]; [exists b; split; [left; reflexivity|exact H]|]. destruct (IH I) as (y & A1 & B1). exists y. split; [right; exact A1|exact B1].
Qed.
Lemma Forall2_right {A B} (P : A -> B -> Prop) l l' y : Forall2 P l l' -> In y l' -> exists x, In x l /\ P x y.
Proof.
  induction 1 as [|a b l l' H F IH]; intros I; [destruct I|]. destruct I as [->|I]; [exists a; split; [left; reflexivity|exact H]|]. destruct (IH I) as (x & A1 & B1). exists x. split; [right; exact A1|exact B1].
Qed.
(** The panels of a strip do not depend on its number if it belongs to a part. *)
Lemma part_number x l r st d : part geo geo' camber camber' x l r -> In st l -> obj d = st -> of_strip x d = of_strip x (as_item st).
Proof.
  intros (g & SY & G & NC & F & CB & CT) I E. destruct (Forall2_left _ _ _ _ F I) as (st' & I' & O).
  rewrite (part_of_strip x l r g d (as_item st') SY G NC CB CT); [|rewrite E; exact I|rewrite E; exact O].
  symmetry. exact (part_of_strip x l r g (as_item st) (as_item st') SY G NC CB CT I O).
Qed.
Lemma part_segment x l r : part geo geo' camber camber' x l r -> seg_panels geo' camber' alpha beta r = flat_map (fun st => of_strip x (as_item st)) l.
Proof.
  intros (g & SY & G & NC & F & CB & CT). unfold seg_panels. rewrite (strip_items_flat _ (fun st' => of_strip' r (as_item st'))).
  - symmetry. apply (flat_2 (same_strip g)); [exact F|]. intros st st' I I' O. exact (part_of_strip x l r g (as_item st) (as_item st') SY G NC CB CT I O).
  - intros d' D'. apply strip_items_In in D'. destruct (Forall2_right _ _ _ _ F D') as (st & I & O). change (of_strip' r d' = of_strip' r (as_item (obj d'))).
    rewrite <- (part_of_strip x l r g (as_item st) d' SY G NC CB CT I O). exact (part_of_strip x l r g (as_item st) (as_item (obj d')) SY G NC CB CT I O).
Qed.
Lemma parts_segment x rs : parts geo geo' camber camber' x rs -> Permutation (seg_panels geo camber alpha beta x) (flat_map (seg_panels geo' camber' alpha beta) rs).
Proof.
  intros (ls & PL & F). unfold seg_panels at 1. rewrite (strip_items_flat _ (fun st => of_strip x (as_item st))).
  - rewrite (perm_flat _ _ _ PL). clear PL. replace (flat_map (seg_panels geo' camber' alpha beta) rs) with (flat_map (fun st => of_strip x (as_item st)) (concat ls)); [reflexivity|].
    induction F as [|l r ls rs P F IH]; [reflexivity|]. cbn [concat flat_map]. rewrite flat_map_app, IH, (part_segment x l r P). reflexivity.
  - intros d D. apply strip_items_In in D. pose proof (Permutation_in _ PL D) as I. apply in_concat in I. destruct I as (l & L & I). destruct (Forall2_left _ _ _ _ F L) as (r & _ & P).
    exact (part_number x l r (obj d) d P I eq_refl).
Qed.
Lemma divided_panels l rss : Forall2 (parts geo geo' camber camber') l rss ->
  Permutation (flat_map (seg_panels geo camber alpha beta) l) (flat_map (seg_panels geo' camber' alpha beta) (concat rss)).
Proof.
  induction 1 as [|x rs l rss P F IH]; [constructor|]. cbn [flat_map concat]. rewrite flat_map_app, IH, (parts_segment x rs P). reflexivity.
Qed.
End Parts.

Lemma parts_loads geo geo' camber camber' a a' eps s r : divided geo geo' camber camber' a a' ->
  panelled a -> counts_set a -> flags_ok a -> panelled a' -> counts_set a' -> flags_ok a' ->
  exists pans n pans' n', gen_lattice geo camber true (f_alpha s) (f_beta s) a = Ok (pans, n) /\ gen_lattice geo' camber' true (f_alpha s) (f_beta s) a' = Ok (pans', n') /\
    Permutation (set_normals pans n) (set_normals pans' n') /\
    forall g o, loads eps (set_normals pans n) s r g o -> exists g' o', loads eps (set_normals pans' n') s r g' o' /\
      o_F o' = o_F o /\ o_M o' = o_M o /\ o_co o' = o_co o /\ same_panels (set_normals pans n) (set_normals pans' n') o o'.
Proof.
  intros (rss & F & PL) P C FL P' C' FL'.
  destruct (lattice_by_segment geo camber (f_alpha s) (f_beta s) a P C FL) as (pans & n & G & E).
  destruct (lattice_by_segment geo' camber' (f_alpha s) (f_beta s) a' P' C' FL') as (pans' & n' & G' & E').
  assert (PM : Permutation (set_normals pans n) (set_normals pans' n')).
  { rewrite E, E', <- (perm_flat _ _ _ PL). apply divided_panels. exact F. }
  exists pans, n, pans', n'. split; [exact G|]. split; [exact G'|]. split; [exact PM|]. intros g o. apply order_loads. exact PM.
Qed.
