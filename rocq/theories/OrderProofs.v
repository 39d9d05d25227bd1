(** Proofs for C126. *)
From Coq Require Import Reals String List ZArith QArith Qreals Lra Lia Permutation FinFun.
From Verif Require Import PyBase Vec StripModel StripSpec AircraftModel LatticeModel LatticeSpec LatticeArrays LatticeProofs PanelModel GeomModel GeomSpec
  NormalModel NormalSpec GeomProofs NormalProofs VlmModel VlmSpec VlmProofs VlmAircraft IsoSpec IsoProofs IsoAircraft OrderSpec.
Import ListNotations.
Open Scope R_scope.

(** ** Lattices *)
Lemma id_iso : isometry 1 (fun v => v).
Proof. split; [left; reflexivity|]. do 3 (split; [reflexivity|]). intros u v. apply vec_eq; vsimp; ring. Qed.
Lemma scale_1 v : vscale 1 v = v.
Proof. apply vec_eq; vsimp; ring. Qed.
Lemma image_id p : image_by 1 (fun v => v) p p.
Proof. do 3 (split; [reflexivity|]). right. do 4 (split; [reflexivity|]). symmetry. apply scale_1. Qed.
Lemma perm_positions {A} (l l' : list A) : Permutation l l' -> exists sg : nat -> nat,
  (forall i j, (i < length l)%nat -> (j < length l)%nat -> sg i = sg j -> i = j) /\ forall i x, nth_error l i = Some x -> nth_error l' (sg i) = Some x.
Proof.
  intros P. apply Permutation_sym in P. destruct l as [|d l0] eqn:E; [exists (fun i => i); split; [auto|intros [|i] x H; discriminate H]|]. rewrite <- E in *. clear E l0.
  apply (proj1 (Permutation_nth l' l d)) in P. destruct P as (L & f & B & I & N). exists f. split; [intros i j X Y; apply I; rewrite <- L; assumption|].
  intros i x H. assert (X : (i < length l)%nat) by (apply nth_error_Some; rewrite H; discriminate). rewrite L in X. rewrite (nth_error_nth' l' d) by (apply B; exact X).
  rewrite <- N by exact X. f_equal. apply nth_error_nth. exact H.
Qed.
Lemma order_loads eps lat lat' s r g o : Permutation lat lat' -> loads eps lat s r g o ->
  exists g' o', loads eps lat' s r g' o' /\ o_F o' = o_F o /\ o_M o' = o_M o /\ o_co o' = o_co o /\ same_panels lat lat' o o'.
Proof.
  intros P H. destruct (perm_positions _ _ P) as (sg & SI & SN).
  assert (IM : images 1 (fun v => v) sg lat lat').
  { split; [symmetry; apply Permutation_length; exact P|]. split; [exact SI|]. intros i p N. exists p. split; [apply SN; exact N|apply image_id]. }
  assert (FL : flow_image 1 (fun v => v) s s) by (repeat split; symmetry; apply scale_1).
  destruct (iso_loads 1 (fun v => v) eps lat lat' sg s s r r g o id_iso IM FL ltac:(repeat split) H) as (g' & o' & H' & F & M & _ & PN).
  rewrite scale_1 in M. exists g', o'. split; [exact H'|]. split; [exact F|]. split; [exact M|]. split.
  - destruct H as (m & _ & _ & _ & V). destruct H' as (m' & _ & _ & _ & V'). rewrite (results_co _ _ _ _ _ _ V), (results_co _ _ _ _ _ _ V'), F, M. reflexivity.
  - exists sg. split; [exact SI|]. intros i p N. split; [apply SN; exact N|]. intros pr X. exact (PN i pr X).
Qed.

(** ** Aircraft *)
Definition bare (v : subarea_visit) : subarea_visit := (fst v, (0%nat, snd (fst (snd v)), snd (snd v))).
Definition plain_entry := (subarea_visit * Z * bool)%type.
Definition nrm (e : entry) : plain_entry := (bare (e_visit e), e_num_c e, e_mirror e).
Definition recs (v : subarea_visit) : list plain_entry :=
  match num_chordwise v with
  | Ok n => (bare v, n, false) :: (if Z.eqb (w_symmetry (v_wing v)) 0 then [] else [(bare v, n, true)])
  | Err _ => []
  end.
Lemma recs_bare v : recs (bare v) = recs v.
Proof. destruct v as [[[a b] c] [[i k] w]]. reflexivity. Qed.
Lemma count_nrm l : forall st st', count_loop st l = Ok st' -> map nrm (bk_list (c_book st')) = map nrm (bk_list (c_book st)) ++ flat_map recs l.
Proof.
  induction l as [|v l IH]; intros st st' H; cbn [count_loop] in H; [injection H as <-; rewrite app_nil_r; reflexivity|].
  unfold count_step in H. cbn [flat_map]. unfold recs at 1. destruct (num_chordwise v) as [n|]; [|discriminate H]. cbn [bind] in H.
  destruct (Z.eqb (w_symmetry (v_wing v)) 0); cbn [bind] in H; apply IH in H; rewrite H; cbn [c_book]; rewrite !update_book_list, !map_app, <- !app_assoc; reflexivity.
Qed.
Definition wing_visits (w : item string wing) : list subarea_visit :=
  flat_map (fun dsw => map (fun v => (v, fst (fst dsw), snd (fst dsw), snd dsw)) (items (st_subs (obj (fst (fst dsw))))))
    (flat_map (fun sw => map (fun d => (d, fst sw, snd sw)) (items (strip_items (ws_strips (obj (fst sw))))))
      (map (fun s => (s, w)) (items (w_segs (obj w))))).
Lemma flat_map_flat {A B C} (f : B -> list C) (g : A -> list B) l : flat_map f (flat_map g l) = flat_map (fun x => flat_map f (g x)) l.
Proof. induction l as [|x l IH]; [reflexivity|]. cbn [flat_map]. rewrite flat_map_app, IH. reflexivity. Qed.
Lemma all_by_wing a : all_subareas a = flat_map wing_visits (all_wings a).
Proof. unfold all_subareas, all_subdivisions, all_segments. rewrite !flat_map_flat. apply flat_map_ext. intros w. unfold wing_visits. rewrite !flat_map_flat. reflexivity. Qed.
Lemma map_flat {A B C} (f : B -> C) (g : A -> list B) l : map f (flat_map g l) = flat_map (fun x => map f (g x)) l.
Proof. induction l as [|x l IH]; [reflexivity|]. cbn [flat_map]. rewrite map_app, IH. reflexivity. Qed.
Lemma flat_mapped {A B C} (f : B -> list C) (g : A -> B) l : flat_map f (map g l) = flat_map (fun x => f (g x)) l.
Proof. induction l as [|x l IH]; [reflexivity|]. cbn [flat_map map]. rewrite IH. reflexivity. Qed.
Lemma visits_bare w : map bare (wing_visits w) = wing_visits (0%nat, snd (fst w), snd w).
Proof.
  unfold wing_visits. rewrite map_flat. destruct w as [[i k] w]. cbn [fst snd obj].
  rewrite !flat_map_flat, !flat_mapped. apply flat_map_ext. intros sg. cbn [fst snd]. rewrite !flat_mapped. apply flat_map_ext. intros d. cbn [fst snd]. rewrite map_map. reflexivity.
Qed.
Definition wing_of (kw : string * wing) : list subarea_visit := wing_visits (0%nat, fst kw, snd kw).
Lemma enum_from_snd {A B} (f : A -> list B) (l : list A) : forall i, flat_map (fun p => f (snd p)) (enum_from i l) = flat_map f l.
Proof. induction l as [|x l IH]; intros i; [reflexivity|]. cbn [enum_from flat_map snd]. rewrite IH. reflexivity. Qed.
Lemma all_bare a : map bare (all_subareas a) = flat_map wing_of (a_wings a).
Proof.
  rewrite all_by_wing, map_flat. transitivity (flat_map (fun w => wing_visits (0%nat, snd (fst w), snd w)) (all_wings a)).
  { apply flat_map_ext. intros w. apply visits_bare. }
  unfold all_wings, items. rewrite flat_mapped. cbn [fst snd]. exact (enum_from_snd wing_of (a_wings a) 0%nat).
Qed.
Lemma flat_recs l : flat_map recs l = flat_map recs (map bare l).
Proof. rewrite flat_mapped. apply flat_map_ext. intros v. symmetry. apply recs_bare. Qed.
Lemma perm_flat {A B} (f : A -> list B) l l' : Permutation l l' -> Permutation (flat_map f l) (flat_map f l').
Proof.
  induction 1; cbn [flat_map]; [constructor|apply Permutation_app_head; assumption| |etransitivity; eassumption].
  rewrite !app_assoc. apply Permutation_app_tail, Permutation_app_comm.
Qed.

Section Panels.
Variable geo : string -> string -> quad.
Variable camber : subarea_visit -> R -> R.
Variables alpha beta : R.
Definition as_entry (x : plain_entry) : entry := mkEntry (fst (fst x)) 0 0 (snd (fst x)) (snd x).
Definition entry_panel (e : entry) (k : Z) : panel :=
  match entry_vertices geo e with
  | Ok q => let p := make_panel (trail_dir alpha beta) q 1 (e_num_c e) k 0 in set_normal p (cam_f geo camber e k (defl_f geo e (pN p)))
  | Err _ => mkPanel vzero vzero vzero vzero vzero vzero vzero vzero vzero vzero vzero 0
  end.
Lemma entry_panel_nrm e k : camber_of_wing camber -> entry_panel e k = entry_panel (as_entry (nrm e)) k.
Proof.
  intros CW. assert (V : entry_vertices geo (as_entry (nrm e)) = entry_vertices geo e) by (destruct e as [[[[a b] c] [[i kk] w]] lo hi n m]; reflexivity).
  assert (D : forall x, defl_f geo (as_entry (nrm e)) x = defl_f geo e x) by (destruct e as [[[[a b] c] [[i kk] w]] lo hi n m]; reflexivity).
  assert (M : forall x, cam_f geo camber (as_entry (nrm e)) k x = cam_f geo camber e k x).
  { intros x. unfold cam_f. rewrite V. destruct (entry_vertices geo e) as [q|]; [|reflexivity]. destruct e as [[[[a b] c] [[i kk] w]] lo hi n m].
    cbn [nrm as_entry bare e_visit e_num_c fst snd]. rewrite (CW a b c 0%nat i kk w). reflexivity. }
  unfold entry_panel. rewrite V. destruct (entry_vertices geo e) as [q|]; [|reflexivity]. cbv zeta. rewrite M, D. reflexivity.
Qed.
Definition panels_of (x : plain_entry) : list panel := map (entry_panel (as_entry x)) (py_range 0 (snd (fst x))).
Lemma py_range_shift lo n : py_range lo (lo + n) = map (fun k => (lo + k)%Z) (py_range 0 n).
Proof. unfold py_range. rewrite map_map. replace (lo + n - lo)%Z with (n - 0)%Z by lia. apply map_ext. intros i. lia. Qed.
Lemma consecutive_map {A} (f : Z -> A) es : forall p q, consecutive p es q -> map f (py_range p q) = flat_map (fun e => map f (py_range (e_lo e) (e_hi e))) es.
Proof.
  induction es as [|e es IH]; intros p q H; cbn [consecutive] in H; cbn [flat_map].
  - subst. unfold py_range. rewrite Z.sub_diag. reflexivity.
  - destruct H as (<- & L & H). pose proof (consecutive_le _ _ _ H) as L'. rewrite <- (py_range_app (e_lo e) (e_hi e) q) by lia. rewrite map_app, (IH _ _ H). reflexivity.
Qed.
Lemma list_by_range {A} (d : A) l n : Z.of_nat (length l) = n -> l = map (fun i => nth (Z.to_nat i) l d) (py_range 0 n).
Proof.
  intros <-. unfold py_range. rewrite map_map. replace (Z.to_nat (Z.of_nat (length l) - 0)) with (length l) by lia.
  apply (nth_ext _ _ d d); [rewrite map_length, seq_length; reflexivity|]. intros i I.
  rewrite (nth_indep (map _ _) d (nth (Z.to_nat (0 + Z.of_nat 0)) l d)) by (rewrite map_length, seq_length; exact I).
  rewrite (map_nth (fun x => nth (Z.to_nat (0 + Z.of_nat x)) l d)). rewrite seq_nth by exact I. f_equal. lia.
Qed.
Lemma lattice_by_wing a : panelled a -> counts_set a -> flags_ok a -> camber_of_wing camber ->
  exists pans n, gen_lattice geo camber true alpha beta a = Ok (pans, n) /\
    set_normals pans n = flat_map panels_of (flat_map recs (flat_map wing_of (a_wings a))).
Proof.
  intros P C FL CW. destruct (final_normals geo camber alpha beta a P C FL) as (st & pans & n & E & G & L1 & L2 & H). exists pans, n. split; [exact G|].
  rewrite <- all_bare, <- flat_recs. pose proof (count_nrm _ _ _ E) as N. cbn [c_book clean_book bk_list map app] in N. rewrite <- N.
  destruct (panel_count_inv a P C) as (st0 & E0 & I1 & _ & _ & _ & I5 & _). rewrite E in E0. injection E0 as <-.
  set (d := mkPanel vzero vzero vzero vzero vzero vzero vzero vzero vzero vzero vzero 0). set (lat := set_normals pans n).
  assert (LL : Z.of_nat (length lat) = c_p st) by (unfold lat, set_normals; rewrite map_length, combine_length; lia).
  rewrite (list_by_range d lat _ LL) at 1. rewrite (consecutive_map _ _ _ _ I1), flat_mapped. rewrite !flat_map_concat_map. f_equal. apply map_ext_in. intros e IE.
  destruct (I5 e IE) as (HI & _). unfold panels_of. cbn [nrm fst snd]. rewrite HI, py_range_shift, map_map. apply map_ext_in. intros k K.
  apply py_range_In in K. destruct (H e (e_lo e + k)%Z IE ltac:(lia)) as (q & p & x & y & z & V & Ep & Np & Ex & _ & _ & Nz & Ey & Ez).
  replace (e_lo e + k - e_lo e)%Z with k in * by lia. rewrite <- entry_panel_nrm by exact CW. unfold entry_panel. rewrite V. cbv zeta. rewrite <- Ep.
  subst x y z. apply nth_error_nth. apply set_normals_nth; assumption.
Qed.
End Panels.
Lemma order_lattice geo camber alpha beta a a' : Permutation (a_wings a) (a_wings a') -> panelled a -> counts_set a -> flags_ok a -> camber_of_wing camber ->
  exists pans n pans' n', gen_lattice geo camber true alpha beta a = Ok (pans, n) /\ gen_lattice geo camber true alpha beta a' = Ok (pans', n') /\
    Permutation (set_normals pans n) (set_normals pans' n').
Proof.
  intros PW P C FL CW. pose proof (fun x => Permutation_in x (Permutation_sym PW)) as IN.
  assert (P' : panelled a') by (intros wn w sn s I; apply (P wn w sn s (IN _ I))).
  assert (C' : counts_set a') by (intros wn w I; apply (C wn w (IN _ I))).
  assert (FL' : flags_ok a') by (intros wn w I; apply (FL wn w (IN _ I))).
  destruct (lattice_by_wing geo camber alpha beta a P C FL CW) as (pans & n & G & E). destruct (lattice_by_wing geo camber alpha beta a' P' C' FL' CW) as (pans' & n' & G' & E').
  exists pans, n, pans', n'. split; [exact G|]. split; [exact G'|]. rewrite E, E'. apply perm_flat, perm_flat, perm_flat, PW.
Qed.
Lemma order_aircraft geo camber a a' eps s r : Permutation (a_wings a) (a_wings a') -> panelled a -> counts_set a -> flags_ok a -> camber_of_wing camber ->
  exists pans n pans' n', gen_lattice geo camber true (f_alpha s) (f_beta s) a = Ok (pans, n) /\ gen_lattice geo camber true (f_alpha s) (f_beta s) a' = Ok (pans', n') /\
    forall g o, loads eps (set_normals pans n) s r g o -> exists g' o', loads eps (set_normals pans' n') s r g' o' /\
      o_F o' = o_F o /\ o_M o' = o_M o /\ o_co o' = o_co o /\ same_panels (set_normals pans n) (set_normals pans' n') o o'.
Proof.
  intros PW P C FL CW. destruct (order_lattice geo camber (f_alpha s) (f_beta s) a a' PW P C FL CW) as (pans & n & pans' & n' & G & G' & PM).
  exists pans, n, pans', n'. split; [exact G|]. split; [exact G'|]. intros g o. apply order_loads. exact PM.
Qed.

(** ** Segments *)
Definition nrm0 (e : entry) : plain_entry := (e_visit e, e_num_c e, e_mirror e).
Definition recs0 (v : subarea_visit) : list plain_entry :=
  match num_chordwise v with
  | Ok n => (v, n, false) :: (if Z.eqb (w_symmetry (v_wing v)) 0 then [] else [(v, n, true)])
  | Err _ => []
  end.
Lemma count_nrm0 l : forall st st', count_loop st l = Ok st' -> map nrm0 (bk_list (c_book st')) = map nrm0 (bk_list (c_book st)) ++ flat_map recs0 l.
Proof.
  induction l as [|v l IH]; intros st st' H; cbn [count_loop] in H; [injection H as <-; rewrite app_nil_r; reflexivity|].
  unfold count_step in H. cbn [flat_map]. unfold recs0 at 1. destruct (num_chordwise v) as [n|]; [|discriminate H]. cbn [bind] in H.
  destruct (Z.eqb (w_symmetry (v_wing v)) 0); cbn [bind] in H; apply IH in H; rewrite H; cbn [c_book]; rewrite !update_book_list, !map_app, <- !app_assoc; reflexivity.
Qed.
Lemma flat_map_ext_in {A B} (f g : A -> list B) l : (forall x, In x l -> f x = g x) -> flat_map f l = flat_map g l.
Proof. intros H. rewrite !flat_map_concat_map. f_equal. apply map_ext_in. exact H. Qed.
Lemma items_In {K V} (l : list (K * V)) x : In x (items l) -> In (snd (fst x), obj x) l.
Proof.
  unfold items. intros I. apply in_map_iff in I. destruct I as ([i [k v]] & <- & I). cbn [fst snd obj].
  assert (G : forall (l : list (K * V)) n, In (i, (k, v)) (enum_from n l) -> In (k, v) l).
  { induction l0 as [|y l0 IH]; intros n J; [destruct J|]. cbn [enum_from] in J. destruct J as [J|J]; [left; congruence|right; apply (IH _ J)]. }
  exact (G l _ I).
Qed.
Section Segments.
Variable geo : string -> string -> quad.
Variable camber : subarea_visit -> R -> R.
Variables alpha beta : R.
Definition visit_panels (v : subarea_visit) : list panel := flat_map (panels_of geo camber alpha beta) (recs0 v).
Definition seg_panels (sw : item string wsegment * item string wing) : list panel :=
  flat_map (fun d => flat_map (fun v => visit_panels (v, d, fst sw, snd sw)) (items (st_subs (obj d)))) (items (strip_items (ws_strips (obj (fst sw))))).
Lemma lattice_by_segment a : panelled a -> counts_set a -> flags_ok a ->
  exists pans n, gen_lattice geo camber true alpha beta a = Ok (pans, n) /\ set_normals pans n = flat_map seg_panels (all_segments a).
Proof.
  intros P C FL. destruct (final_normals geo camber alpha beta a P C FL) as (st & pans & n & E & G & L1 & L2 & H). exists pans, n. split; [exact G|].
  transitivity (flat_map visit_panels (all_subareas a)).
  - unfold visit_panels. rewrite <- flat_map_flat. pose proof (count_nrm0 _ _ _ E) as N. cbn [c_book clean_book bk_list map app] in N. rewrite <- N.
    destruct (panel_count_inv a P C) as (st0 & E0 & I1 & _ & _ & _ & I5 & _). rewrite E in E0. injection E0 as <-.
    set (d := mkPanel vzero vzero vzero vzero vzero vzero vzero vzero vzero vzero vzero 0). set (lat := set_normals pans n).
    assert (LL : Z.of_nat (length lat) = c_p st) by (unfold lat, set_normals; rewrite map_length, combine_length; lia).
    rewrite (list_by_range d lat _ LL) at 1. rewrite (consecutive_map _ _ _ _ I1), flat_mapped. apply flat_map_ext_in. intros e IE.
    destruct (I5 e IE) as (HI & _). unfold panels_of. cbn [nrm0 fst snd]. rewrite HI, py_range_shift, map_map. apply map_ext_in. intros k K.
    apply py_range_In in K. destruct (H e (e_lo e + k)%Z IE ltac:(lia)) as (q & p & x & y & z & V & Ep & Np & Ex & _ & _ & Nz & Ey & Ez).
    replace (e_lo e + k - e_lo e)%Z with k in * by lia.
    assert (X : entry_panel geo camber alpha beta (as_entry (nrm0 e)) k = entry_panel geo camber alpha beta e k) by (destruct e; reflexivity).
    change (e_visit e, e_num_c e, e_mirror e) with (nrm0 e). rewrite X. unfold entry_panel. rewrite V. cbv zeta. rewrite <- Ep.
    subst x y z. apply nth_error_nth. apply set_normals_nth; assumption.
  - unfold all_subareas, all_subdivisions. rewrite !flat_map_flat. apply flat_map_ext. intros sw. unfold seg_panels. rewrite ?flat_map_flat, !flat_mapped. apply flat_map_ext. intros d. rewrite ?flat_mapped. reflexivity.
Qed.
End Segments.
Lemma same_seg_panels geo geo' camber camber' alpha beta x x' : same_segment geo geo' camber camber' x x' ->
  seg_panels geo' camber' alpha beta x' = seg_panels geo camber alpha beta x.
Proof.
  destruct x as [s w], x' as [s' w']. intros (G & SY & ST & NC & CB & CT). cbn [fst snd] in *. unfold seg_panels. cbn [fst snd]. rewrite ST.
  apply flat_map_ext_in. intros d D. apply flat_map_ext_in. intros v V.
  assert (DI : In (obj d) (ws_strips (obj s))).
  { apply items_In in D. unfold strip_items in D. revert D. generalize (ws_strips (obj s)). intros l. unfold enum. generalize 0%nat.
    induction l as [|y l IH]; intros i J; [destruct J|]. cbn [enum_from] in J. destruct J as [J|J]; [left; congruence|right; exact (IH _ J)]. }
  apply items_In in V. pose proof (fun c => CT (obj d) _ (obj v) c DI V) as CT'. clear CT.
  set (u := (v, d, s, w)). set (u' := (v, d, s', w')).
  assert (NU : num_chordwise u' = num_chordwise u).
  { unfold num_chordwise, u, u', v_sub, v_wing, v_seg. cbn [fst snd]. rewrite NC. destruct (sa_ctrl (obj v)) as [c|] eqn:E; [rewrite (CT' c eq_refl); reflexivity|reflexivity]. }
  assert (PU : forall n m, panels_of geo' camber' alpha beta (u', n, m) = panels_of geo camber alpha beta (u, n, m)).
  { intros n m. unfold panels_of. cbn [fst snd]. apply map_ext. intros k.
    assert (VX : entry_vertices geo' (as_entry (u', n, m)) = entry_vertices geo (as_entry (u, n, m))).
    { unfold entry_vertices, as_entry, v_quad, v_etas, v_xsis, v_strip, v_sub, v_wing, v_seg, u, u'. cbn [fst snd e_visit e_mirror]. rewrite G, SY. reflexivity. }
    assert (HX : entry_hinge geo' (as_entry (u', n, m)) = entry_hinge geo (as_entry (u, n, m))).
    { unfold entry_hinge, as_entry, v_quad, v_etas, v_strip, v_sub, v_wing, v_seg, u, u'. cbn [fst snd e_visit e_mirror]. rewrite G, SY. reflexivity. }
    assert (DX : forall y, defl_f geo' (as_entry (u', n, m)) y = defl_f geo (as_entry (u, n, m)) y).
    { intros y. unfold defl_f. rewrite HX. unfold entry_deflection, as_entry, v_sub, v_wing, u, u'. cbn [fst snd e_visit e_mirror].
      destruct (sa_ctrl (obj v)) as [c|] eqn:E; [rewrite (CT' c eq_refl); reflexivity|reflexivity]. }
    assert (MX : forall y, cam_f geo' camber' (as_entry (u', n, m)) k y = cam_f geo camber (as_entry (u, n, m)) k y).
    { intros y. unfold cam_f. rewrite VX. unfold as_entry, v_xsis, v_sub, u, u'. cbn [fst snd e_visit e_num_c]. rewrite CB. reflexivity. }
    unfold entry_panel. rewrite VX. destruct (entry_vertices geo (as_entry (u, n, m))); [|reflexivity]. cbv zeta. rewrite MX, DX. reflexivity. }
  unfold visit_panels, recs0. fold u u'. rewrite NU. change (w_symmetry (v_wing u')) with (w_symmetry (obj w')). change (w_symmetry (v_wing u)) with (w_symmetry (obj w)). rewrite SY.
  destruct (num_chordwise u); [|reflexivity]. destruct (Z.eqb (w_symmetry (obj w)) 0); cbn [flat_map]; rewrite !PU; reflexivity.
Qed.
Lemma segments_lattice geo geo' camber camber' alpha beta a a' : same_segments geo geo' camber camber' a a' ->
  panelled a -> counts_set a -> flags_ok a -> panelled a' -> counts_set a' -> flags_ok a' ->
  exists pans n pans' n', gen_lattice geo camber true alpha beta a = Ok (pans, n) /\ gen_lattice geo' camber' true alpha beta a' = Ok (pans', n') /\
    Permutation (set_normals pans n) (set_normals pans' n').
Proof.
  intros (l & PL & F) P C FL P' C' FL'.
  destruct (lattice_by_segment geo camber alpha beta a P C FL) as (pans & n & G & E). destruct (lattice_by_segment geo' camber' alpha beta a' P' C' FL') as (pans' & n' & G' & E').
  exists pans, n, pans', n'. split; [exact G|]. split; [exact G'|]. rewrite E, E'. rewrite (perm_flat _ _ _ PL). clear - F.
  induction F as [|x x' l l' S F IH]; [constructor|]. cbn [flat_map]. rewrite (same_seg_panels _ _ _ _ alpha beta _ _ S). apply Permutation_app_head, IH.
Qed.
Lemma segments_loads geo geo' camber camber' a a' eps s r : same_segments geo geo' camber camber' a a' ->
  panelled a -> counts_set a -> flags_ok a -> panelled a' -> counts_set a' -> flags_ok a' ->
  exists pans n pans' n', gen_lattice geo camber true (f_alpha s) (f_beta s) a = Ok (pans, n) /\ gen_lattice geo' camber' true (f_alpha s) (f_beta s) a' = Ok (pans', n') /\
    Permutation (set_normals pans n) (set_normals pans' n') /\
    forall g o, loads eps (set_normals pans n) s r g o -> exists g' o', loads eps (set_normals pans' n') s r g' o' /\
      o_F o' = o_F o /\ o_M o' = o_M o /\ o_co o' = o_co o /\ same_panels (set_normals pans n) (set_normals pans' n') o o'.
Proof.
  intros SS P C FL P' C' FL'. destruct (segments_lattice geo geo' camber camber' (f_alpha s) (f_beta s) a a' SS P C FL P' C' FL') as (pans & n & pans' & n' & G & G' & PM).
  exists pans, n, pans', n'. split; [exact G|]. split; [exact G'|]. split; [exact PM|]. intros g o. apply order_loads. exact PM.
Qed.
