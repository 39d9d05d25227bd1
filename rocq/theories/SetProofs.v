(** Proofs for C131. *)
From Coq Require Import Reals String List ZArith QArith Qreals Lra Lia.
From Verif Require Import PyBase Vec StripModel AircraftModel LatticeModel LatticeSpec LatticeProofs PanelModel GeomModel GeomSpec GeomProofs MirrorProofs RotProofs
  NormalModel NormalSpec NormalProofs LatticeArrays VlmModel VlmSpec VlmProofs EnumProofs IsoSpec IsoProofs IsoAircraft OrderSpec OrderProofs SetSpec.
Import ListNotations.
Open Scope R_scope.

Section Set_.
Variable f : settings.
Definition sw (x : item string wing) : item string wing := (fst x, set_wing f (snd x)).
Definition sv (v : subarea_visit) : subarea_visit := (fst v, sw (snd v)).
Definition se (e : entry) : entry := mkEntry (sv (e_visit e)) (e_lo e) (e_hi e) (e_num_c e) (e_mirror e).
Lemma dget_set w c : dget (w_ctls (set_wing f w)) c = option_map (fun wc => set_control (f w wc) wc) (dget (w_ctls w) c).
Proof. apply (dget_map (fun wc => set_control (f w wc) wc)). Qed.
Lemma st_num v : num_chordwise (sv v) = num_chordwise v.
Proof.
  destruct v as [[[sub st] seg] [[i k] w]]. unfold num_chordwise, v_sub, v_wing, v_seg, sv, sw. cbn [fst snd obj].
  destruct (sa_ctrl (obj sub)) as [c|]; [|reflexivity]. rewrite dget_set. destruct (dget (w_ctls w) (ct_uid c)); reflexivity.
Qed.
Lemma st_sym v : w_symmetry (v_wing (sv v)) = w_symmetry (v_wing v).
Proof. destruct v as [[[? ?] ?] [[? ?] ?]]. reflexivity. Qed.
Lemma st_count l : forall st st' r, c_p st' = c_p st -> bk_list (c_book st') = map se (bk_list (c_book st)) -> count_loop st l = Ok r ->
  exists r', count_loop st' (map sv l) = Ok r' /\ bk_list (c_book r') = map se (bk_list (c_book r)).
Proof.
  induction l as [|v l IH]; intros st st' r CP B H; cbn [count_loop map] in H |- *; [injection H as <-; exists st'; auto|].
  unfold count_step in H |- *. rewrite st_num, st_sym. destruct (num_chordwise v) as [n|]; [|discriminate]. cbn [bind] in H |- *.
  destruct (Z.eqb (w_symmetry (v_wing v)) 0); cbn [bind] in H |- *; (eapply IH; [| |exact H]); cbn [c_p c_book]; rewrite ?CP; try reflexivity;
    rewrite !update_book_list, B, !map_app; reflexivity.
Qed.
Lemma st_segments a : all_segments (set_aircraft f a) = map (fun x => (fst x, sw (snd x))) (all_segments a).
Proof.
  unfold all_segments, all_wings, set_aircraft. cbn [a_wings]. rewrite IsoAircraft.items_map, flat_mapped, map_flat. apply flat_map_ext. intros [[i k] w]. cbn [fst snd obj set_wing w_segs]. rewrite map_map. reflexivity.
Qed.
Lemma st_subareas a : all_subareas (set_aircraft f a) = map sv (all_subareas a).
Proof.
  unfold all_subareas, all_subdivisions. rewrite st_segments, !flat_map_flat, flat_mapped, !map_flat. apply flat_map_ext. intros [s w]. cbn [fst snd].
  rewrite ?flat_mapped, ?map_flat, ?flat_mapped. apply flat_map_ext. intros d. cbn [fst snd]. rewrite map_map. reflexivity.
Qed.

Variable geo : string -> string -> quad.
Variable camber : subarea_visit -> R -> R.
Hypothesis CAM : camber_kept f camber.
Lemma st_vertices e : entry_vertices geo (se e) = entry_vertices geo e.
Proof. destruct e as [[[[sub st] seg] [[i k] w]] lo hi n m]. reflexivity. Qed.
Lemma st_hinge e : entry_hinge geo (se e) = entry_hinge geo e.
Proof. destruct e as [[[[sub st] seg] [[i k] w]] lo hi n m]. reflexivity. Qed.
Lemma st_cam e k x : cam_f geo camber (se e) k x = cam_f geo camber e k x.
Proof.
  unfold cam_f. rewrite st_vertices. destruct (entry_vertices geo e) as [q|]; [|reflexivity]. destruct e as [[[[sub st] seg] [[i kk] w]] lo hi n m].
  cbn [se e_visit e_num_c]. unfold sv, sw. cbn [fst snd]. change (v_xsis (sub, st, seg, (i, kk, set_wing f w))) with (v_xsis (sub, st, seg, (i, kk, w))). cbv zeta. rewrite !CAM. reflexivity.
Qed.
Definition turned_by (axis : vec) (d : option Q) (x : vec) : vec :=
  match d with Some d => if truthy (Q2R d) then rot axis (deg2rad (Q2R d)) x else x | None => x end.
Lemma same_turn axis d d' x : same_setting d d' -> turned_by axis d' x = turned_by axis d x.
Proof.
  assert (Z : forall q, (q == 0)%Q -> truthy (Q2R q) = false).
  { intros q E. unfold truthy. destruct (Req_EM_T (Q2R q) 0) as [|N]; [reflexivity|]. exfalso. apply N. rewrite (Qeq_eqR _ _ E). apply RMicromega.Q2R_0. }
  destruct d as [d|], d' as [d'|]; cbn [same_setting turned_by]; intro E; [rewrite (Qeq_eqR _ _ E); reflexivity|rewrite (Z _ E); reflexivity|rewrite (Z _ E); reflexivity|reflexivity].
Qed.
Lemma st_defl e x : setting_kept f (e_visit e) (e_mirror e) -> defl_f geo (se e) x = defl_f geo e x.
Proof.
  intro K. unfold defl_f. rewrite st_hinge. change (v_sub (e_visit (se e))) with (v_sub (e_visit e)).
  destruct (sa_ctrl (v_sub (e_visit e))) as [c|] eqn:E; [|reflexivity].
  replace (dget (w_ctls (v_wing (e_visit (se e)))) (ct_uid c)) with (option_map (fun wc => set_control (f (v_wing (e_visit e)) wc) wc) (dget (w_ctls (v_wing (e_visit e))) (ct_uid c)))
    by (symmetry; apply (dget_set (v_wing (e_visit e)) (ct_uid c))).
  destruct (dget (w_ctls (v_wing (e_visit e))) (ct_uid c)) as [wc|] eqn:D; cbn [option_map]; [|reflexivity].
  specialize (K c wc E D). cbv zeta in K. destruct (entry_hinge geo e) as [axis|]; [|reflexivity].
  change (turned_by axis (entry_deflection (se e) (set_control (f (v_wing (e_visit e)) wc) wc)) x = turned_by axis (entry_deflection e wc) x). apply same_turn.
  unfold entry_deflection. cbn [se e_mirror set_control wc_deflection wc_deflection_mirror]. destruct (e_mirror e); exact K.
Qed.
Lemma st_rows l : entry_rows geo (map se l) = entry_rows geo l.
Proof. induction l as [|e l IH]; [reflexivity|]. cbn [map entry_rows]. rewrite st_vertices, IH. reflexivity. Qed.

Lemma st_wings a wn w : In (wn, w) (a_wings (set_aircraft f a)) -> exists w0, w = set_wing f w0 /\ In (wn, w0) (a_wings a).
Proof. intros I. apply in_map_iff in I. destruct I as ([k w0] & E & I). injection E as <- <-. exists w0. split; [reflexivity|exact I]. Qed.
Lemma st_ok a : panelled a -> counts_set a -> flags_ok a -> panelled (set_aircraft f a) /\ counts_set (set_aircraft f a) /\ flags_ok (set_aircraft f a).
Proof.
  intros P C FL. split; [|split].
  - intros wn w sn s I J. apply st_wings in I. destruct I as (w0 & -> & I). destruct (P _ _ _ _ I J) as (A & B). split; [exact A|]. intros st k v c S V E. destruct (B st k v c S V E) as (wc & G).
    rewrite dget_set, G. eexists. reflexivity.
  - intros wn w I. apply st_wings in I. destruct I as (w0 & -> & I). destruct (C _ _ I) as (A & B). split; [exact A|]. intros cn c J. apply in_map_iff in J. destruct J as ([k c0] & E & J). injection E as <- <-.
    exact (B _ _ J).
  - intros wn w I. apply st_wings in I. destruct I as (w0 & -> & I). exact (FL _ _ I).
Qed.
Lemma set_lattice alpha beta a : panelled a -> counts_set a -> flags_ok a ->
  exists st pans n n', panel_count a = Ok st /\ gen_lattice geo camber true alpha beta a = Ok (pans, n) /\
    gen_lattice geo camber true alpha beta (set_aircraft f a) = Ok (pans, n') /\ length n' = length n /\
    forall e i, In e (bk_list (c_book st)) -> (e_lo e <= i < e_hi e)%Z -> setting_kept f (e_visit e) (e_mirror e) ->
      exists x, nth_error n (Z.to_nat i) = Some x /\ nth_error n' (Z.to_nat i) = Some x.
Proof.
  intros P C FL. destruct (st_ok a P C FL) as (P' & C' & FL').
  destruct (final_normals geo camber alpha beta a P C FL) as (st & pans & n & E & G & L1 & L2 & H).
  destruct (final_normals geo camber alpha beta _ P' C' FL') as (st' & pans' & n' & E' & G' & L1' & L2' & H').
  assert (B : bk_list (c_book st') = map se (bk_list (c_book st))).
  { unfold panel_count in E, E'. rewrite st_subareas in E'. destruct (st_count _ (mkCnt 0 0 0 clean_book) (mkCnt 0 0 0 clean_book) _ eq_refl eq_refl E) as (r' & X & Y). rewrite E' in X. injection X as <-. exact Y. }
  assert (PE : pans' = pans).
  { unfold gen_lattice in G, G'. rewrite E in G. rewrite E' in G'. cbn [bind] in G, G'. rewrite B, st_rows in G'. destruct (entry_rows geo (bk_list (c_book st))) as [rows|]; [|discriminate]. cbn [bind] in G, G'.
    destruct (rotate_loop _ _ (bk_list _) _) as [m|]; [|discriminate]. destruct (rotate_loop _ _ (map _ _) _) as [m'|]; [|discriminate]. cbn [bind] in G, G'. injection G as <- _. injection G' as <- _. reflexivity. }
  subst pans'. exists st, pans, n, n'. split; [exact E|]. split; [exact G|]. split; [exact G'|]. split; [lia|]. intros e i Ie R K.
  destruct (H e i Ie R) as (q & p & x & y & z & V & Ep & Np & Ex & _ & _ & Nz & Ey & Ez).
  destruct (H' (se e) i) as (q' & p' & x' & y' & z' & V' & Ep' & Np' & Ex' & _ & _ & Nz' & Ey' & Ez').
  { rewrite B. apply in_map. exact Ie. }
  { exact R. }
  exists z. split; [exact Nz|]. rewrite Nz'. f_equal. rewrite Np in Np'. injection Np' as <-. subst x'. rewrite st_defl in Ey' by exact K. subst x y y' z z'. apply st_cam.
Qed.
Lemma set_same alpha beta a : panelled a -> counts_set a -> flags_ok a -> (forall v m, In v (all_subareas a) -> setting_kept f v m) ->
  exists x, gen_lattice geo camber true alpha beta a = Ok x /\ gen_lattice geo camber true alpha beta (set_aircraft f a) = Ok x.
Proof.
  intros P C FL K. destruct (set_lattice alpha beta a P C FL) as (st & pans & n & n' & E & G & G' & L & H).
  destruct (panel_count_inv a P C) as (st0 & E0 & I1 & I2 & _ & _ & I5 & _). rewrite E in E0. injection E0 as <-.
  exists (pans, n). split; [exact G|]. rewrite G'. do 2 f_equal.
  destruct (final_normals geo camber alpha beta a P C FL) as (st1 & pans1 & n1 & E1 & G1 & _ & L2 & _). rewrite E in E1. injection E1 as <-. rewrite G in G1. injection G1 as <- <-.
  rewrite (list_by_range vzero n' (c_p st)) by lia. rewrite (list_by_range vzero n (c_p st)) by lia. rewrite !(consecutive_map _ _ _ _ I1).
  apply flat_map_ext_in. intros e Ie. apply map_ext_in. intros i Ii. apply py_range_In in Ii. destruct (recorded_In _ _ _ I2 Ie) as (IV & _).
  destruct (H e i Ie Ii (K _ _ IV)) as (x & X & X'). rewrite (nth_error_nth _ _ _ X), (nth_error_nth _ _ _ X'). reflexivity.
Qed.
End Set_.
