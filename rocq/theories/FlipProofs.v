(** Proofs for C129. *)
From Coq Require Import Reals String List ZArith QArith Qreals Lra Lia Permutation.
From Verif Require Import PyBase Vec StripModel AircraftModel LatticeModel LatticeSpec LatticeProofs PanelModel GeomModel GeomSpec GeomProofs MirrorProofs RotProofs
  NormalModel NormalSpec NormalProofs VlmModel VlmSpec VlmProofs VlmLaws IsoSpec IsoProofs IsoAircraft OrderSpec OrderProofs FlipSpec.
Import ListNotations.
Open Scope R_scope.

Lemma flip_iso : isometry (-1) flip.
Proof. split; [right; reflexivity|]. repeat split; intros; unfold flip, vdot; first [vsimp; ring | apply vec_eq; vsimp; ring]. Qed.
Lemma fl_add u v : flip (vadd u v) = vadd (flip u) (flip v).
Proof. apply (iso_add _ _ flip_iso). Qed.
Lemma fl_scale k u : flip (vscale k u) = vscale k (flip u).
Proof. apply (iso_scale _ _ flip_iso). Qed.
Lemma fl_sub u v : flip (vsub u v) = vsub (flip u) (flip v).
Proof. apply (iso_sub _ _ flip_iso). Qed.
Lemma fl_norm v : vnorm (flip v) = vnorm v.
Proof. apply (iso_norm _ _ flip_iso). Qed.
Lemma fl_cross u v : vcross (flip u) (flip v) = vscale (-1) (flip (vcross u v)).
Proof. apply (iso_cross _ _ flip_iso). Qed.
Lemma fl_along a b k : along (flip a) (flip b) k = flip (along a b k).
Proof. unfold along, flip. apply vec_eq; vsimp; ring. Qed.
(** Normals are turned about the z-axis. *)
Definition turn (v : vec) : vec := vscale (-1) (flip v).
Lemma fl_rot axis th v : rot (flip axis) (- th) (turn v) = turn (rot axis th v).
Proof.
  unfold rot, turn. rewrite fl_norm, <- (fl_scale (/ vnorm axis) axis). set (k := vscale (/ vnorm axis) axis). rewrite sin_neg, cos_neg. unfold flip, vdot. apply vec_eq; vsimp; ring.
Qed.
Lemma fl_surface q s c : surface (flipped_quad q) s c = flip (surface q s c).
Proof. unfold surface, flipped_quad. cbn [qa qb qc qd]. rewrite !fl_along. reflexivity. Qed.
Lemma fl_trail alpha beta : trail_dir (- alpha) beta = flip (trail_dir alpha beta).
Proof.
  unfold trail_dir, freestream_direction, deg2rad. replace (- alpha * (PI / 180)) with (- (alpha * (PI / 180))) by ring. rewrite sin_neg, cos_neg. unfold flip. apply vec_eq; vsimp; ring.
Qed.
Lemma fl_raw P Q R S : raw (flip P) (flip Q) (flip R) (flip S) = turn (raw P Q R S).
Proof.
  unfold turn. rewrite !raw_eq, fl_scale. assert (E : forall a b, midpoint (flip a) (flip b) = flip (midpoint a b)) by (intros; apply fl_along).
  rewrite !E, !fl_along, <- !fl_sub, fl_cross. apply vec_eq; vsimp; ring.
Qed.
Definition flip_panel (p : panel) : panel :=
  mkPanel (flip (pP p)) (flip (pQ p)) (flip (pR p)) (flip (pS p)) (flip (pV1 p)) (flip (pV2 p)) (flip (pV3 p)) (flip (pV4 p)) (flip (pC p)) (flip (pB p)) (turn (pN p)) (pA p).
Lemma turn_norm v : vnorm (turn v) = vnorm v.
Proof. unfold turn. replace (vscale (-1) (flip v)) with (mkV (- vx v) (- vy v) (vz v)) by (unfold flip; apply vec_eq; vsimp; ring). unfold vnorm. cbn [vx vy vz]. f_equal. ring. Qed.
Lemma fl_panel dir P Q R S : panel_of_corners (flip dir) (flip P) (flip Q) (flip R) (flip S) = flip_panel (panel_of_corners dir P Q R S).
Proof.
  assert (E : forall p p' : panel, pP p = pP p' -> pQ p = pQ p' -> pR p = pR p' -> pS p = pS p' -> pV1 p = pV1 p' -> pV2 p = pV2 p' ->
    pV3 p = pV3 p' -> pV4 p = pV4 p' -> pC p = pC p' -> pB p = pB p' -> pN p = pN p' -> pA p = pA p' -> p = p').
  { intros [] []; cbn. intros; subst; reflexivity. }
  apply E; try reflexivity; try (unfold panel_of_corners, flip_panel, flip; apply vec_eq; vsimp; ring).
  - unfold flip_panel. cbn [pN]. rewrite !pN_eq, fl_raw, turn_norm. unfold turn. rewrite fl_scale. apply vec_eq; vsimp; ring.
  - unfold flip_panel. cbn [pA]. unfold panel_of_corners. cbn [pA].
    assert (X : pan_span (flip P) (flip Q) (flip R) (flip S) = flip (pan_span P Q R S)) by (unfold pan_span, flip; apply vec_eq; vsimp; ring).
    assert (Y : pan_chord (flip P) (flip Q) (flip R) (flip S) = flip (pan_chord P Q R S)) by (unfold pan_chord, flip; apply vec_eq; vsimp; ring).
    rewrite X, Y, !fl_norm. reflexivity.
Qed.
Lemma fl_make dir q ps pc i j : make_panel (flip dir) (flipped_quad q) ps pc i j = flip_panel (make_panel dir q ps pc i j).
Proof. unfold make_panel. rewrite !corner_surface, !fl_surface. apply fl_panel. Qed.
Definition on_res {A B} (f : A -> B) (x : res A) : res B := match x with Ok a => Ok (f a) | Err e => Err e end.
Lemma fl_point p k b : vadd (flip p) (vscale k (vsub (flip b) (flip p))) = flip (vadd p (vscale k (vsub b p))).
Proof. unfold flip. apply vec_eq; vsimp; ring. Qed.
Lemma fl_strip q e m sym : strip_vertices (flipped_quad q) e m sym = on_res flipped_quad (strip_vertices q e m sym).
Proof.
  unfold strip_vertices. change (qa (flipped_quad q)) with (flip (qa q)). change (qb (flipped_quad q)) with (flip (qb q)). change (qc (flipped_quad q)) with (flip (qc q)). change (qd (flipped_quad q)) with (flip (qd q)). rewrite !fl_point. destruct m; [|reflexivity].
  unfold mirror_vertices, mirror_point, order_mirrored, is_plane. cbn [snd]. destruct (Z.eqb sym 1); [|destruct (Z.eqb sym 2); [|destruct (Z.eqb sym 3)]]; reflexivity.
Qed.
Lemma fl_subarea q e x m sym : subarea_vertices (flipped_quad q) e x m sym = on_res flipped_quad (subarea_vertices q e x m sym).
Proof.
  unfold subarea_vertices. rewrite fl_strip. destruct (strip_vertices q e m sym) as [sd|]; cbn [on_res bind]; [|reflexivity].
  match goal with |- context [bind ?u _] => destruct u as [[[[xa xb] xc] xd]|] end; cbn [bind on_res]; [|reflexivity]. unfold flipped_quad. cbn [qa qb qc qd]. rewrite !fl_point. reflexivity.
Qed.
Lemma fl_hinge q e h1 h2 m sym : hinge_axis (flipped_quad q) e h1 h2 m sym = on_res flip (hinge_axis q e h1 h2 m sym).
Proof.
  unfold hinge_axis, hinge_vertices. rewrite fl_strip. destruct (strip_vertices q e m sym) as [sd|]; cbn [on_res bind]; [|reflexivity].
  destruct (if (m && Z.eqb sym 2)%bool then (h2, h1) else (h1, h2)) as [x1 x2]. cbn [bind on_res fst snd]. unfold flipped_quad. cbn [qa qb qc qd]. rewrite !fl_point, fl_sub. reflexivity.
Qed.
Lemma fl_camber_axis q : camber_axis (flipped_quad q) = flip (camber_axis q).
Proof.
  unfold camber_axis, flipped_quad. cbn [qa qb qc qd]. rewrite <- !fl_sub, fl_cross. set (ad := vsub (qd q) (qa q)). set (n := vcross (vsub (qb q) (qa q)) ad).
  replace (vcross (vscale (-1) (flip n)) (flip ad)) with (flip (vcross n ad)) by (unfold flip; apply vec_eq; vsimp; ring). rewrite fl_norm, <- fl_scale, <- fl_add, <- fl_sub. reflexivity.
Qed.
Lemma truthy_opp x : truthy (- x) = truthy x.
Proof. unfold truthy. destruct (Req_EM_T (- x) 0), (Req_EM_T x 0); try reflexivity; lra. Qed.
Lemma deg_opp x : deg2rad (- x) = - deg2rad x.
Proof. unfold deg2rad. ring. Qed.

Section Flip.
Variables geo geo' : string -> string -> quad.
Variables camber camber' : subarea_visit -> R -> R.
Variables alpha beta : R.
Hypothesis GEO : forall w s, geo' w s = flipped_quad (geo w s).
Hypothesis CAM : flipped_camber camber camber'.

Definition fw (x : item string wing) : item string wing := (fst x, flipped_wing (snd x)).
Definition fv (v : subarea_visit) : subarea_visit := (fst v, fw (snd v)).
Lemma fl_num v : num_chordwise (fv v) = num_chordwise v.
Proof.
  destruct v as [[[sub st] seg] [[i k] w]]. unfold num_chordwise, v_sub, v_wing, v_seg, fv, fw. cbn [fst snd obj flipped_wing w_ctls].
  destruct (sa_ctrl (obj sub)) as [c|]; [|reflexivity]. rewrite dget_map. destruct (dget (w_ctls w) (ct_uid c)); reflexivity.
Qed.
Lemma fl_vertices v n m : entry_vertices geo' (as_entry (fv v, n, m)) = on_res flipped_quad (entry_vertices geo (as_entry (v, n, m))).
Proof.
  destruct v as [[[sub st] seg] [[i k] w]]. unfold entry_vertices. cbn [as_entry e_visit e_mirror fst snd]. unfold v_quad at 1. rewrite GEO. rewrite <- fl_subarea. reflexivity.
Qed.
Lemma fl_entry_hinge v n m : entry_hinge geo' (as_entry (fv v, n, m)) = on_res flip (entry_hinge geo (as_entry (v, n, m))).
Proof.
  destruct v as [[[sub st] seg] [[i k] w]]. unfold entry_hinge. cbn [as_entry e_visit e_mirror fst snd]. unfold v_sub, fv at 1. cbn [fst snd]. destruct (sa_hinge (obj sub)) as [[h1 h2]|]; [|reflexivity].
  unfold v_quad at 1. rewrite GEO. rewrite <- fl_hinge. reflexivity.
Qed.
Lemma fl_defl v n m x : defl_f geo' (as_entry (fv v, n, m)) (turn x) = turn (defl_f geo (as_entry (v, n, m)) x).
Proof.
  unfold defl_f. rewrite fl_entry_hinge. generalize (entry_hinge geo (as_entry (v, n, m))). intros ax. cbn [as_entry e_visit fst snd].
  destruct v as [[[sub st] seg] [[i k] w]]. unfold v_sub, v_wing, fv, fw. cbn [fst snd obj flipped_wing w_ctls]. destruct (sa_ctrl (obj sub)) as [c|]; [|reflexivity].
  rewrite dget_map. destruct (dget (w_ctls w) (ct_uid c)) as [wc|]; cbn [option_map]; [|reflexivity]. destruct ax as [ax|]; cbn [on_res]; [|reflexivity].
  unfold entry_deflection, flipped_control. cbn [as_entry fst snd e_mirror wc_deflection wc_deflection_mirror]. destruct m.
  - destruct (wc_deflection_mirror wc) as [d|]; cbn [option_map]; [|reflexivity]. rewrite Q2R_opp, truthy_opp, deg_opp. destruct (truthy (Q2R d)); [apply fl_rot|reflexivity].
  - destruct (wc_deflection wc) as [d|]; cbn [option_map]; [|reflexivity]. rewrite Q2R_opp, truthy_opp, deg_opp. destruct (truthy (Q2R d)); [apply fl_rot|reflexivity].
Qed.
Lemma fl_cam v n m k x : cam_f geo' camber' (as_entry (fv v, n, m)) k (turn x) = turn (cam_f geo camber (as_entry (v, n, m)) k x).
Proof.
  unfold cam_f. rewrite fl_vertices. destruct (entry_vertices geo (as_entry (v, n, m))) as [q|]; cbn [on_res]; [|reflexivity]. cbn [as_entry e_visit e_num_c fst snd].
  destruct v as [[[sub st] seg] [[i kk] w]]. change (v_xsis (fv (sub, st, seg, (i, kk, w)))) with (v_xsis (sub, st, seg, (i, kk, w))).
  change (fv (sub, st, seg, (i, kk, w))) with (sub, st, seg, (i, kk, flipped_wing w)). rewrite CAM, deg_opp. cbv zeta. rewrite truthy_opp, fl_camber_axis.
  destruct (truthy _); [apply fl_rot|reflexivity].
Qed.
Lemma set_flip p y : set_normal (flip_panel p) (turn y) = flip_panel (set_normal p y).
Proof. reflexivity. Qed.
Lemma fl_entry_panel v n m k : entry_panel geo' camber' (- alpha) beta (as_entry (fv v, n, m)) k = flip_panel (entry_panel geo camber alpha beta (as_entry (v, n, m)) k).
Proof.
  unfold entry_panel. rewrite fl_vertices. destruct (entry_vertices geo (as_entry (v, n, m))) as [q|]; cbn [on_res].
  - cbv zeta. rewrite fl_trail. cbn [as_entry e_num_c fst snd]. rewrite fl_make. fold (as_entry (v, n, m)) (as_entry (fv v, n, m)). cbn [flip_panel pN]. rewrite fl_defl, fl_cam. apply set_flip.
  - unfold flip_panel, turn, flip. cbn. unfold vzero, vscale. cbn. repeat f_equal; ring.
Qed.
Lemma fl_visit v : visit_panels geo' camber' (- alpha) beta (fv v) = map flip_panel (visit_panels geo camber alpha beta v).
Proof.
  unfold visit_panels, recs0. rewrite fl_num. destruct (num_chordwise v) as [n|]; [|reflexivity].
  assert (S : w_symmetry (v_wing (fv v)) = w_symmetry (v_wing v)) by (destruct v as [[[? ?] ?] [[? ?] ?]]; reflexivity). rewrite S.
  assert (P : forall m, panels_of geo' camber' (- alpha) beta (fv v, n, m) = map flip_panel (panels_of geo camber alpha beta (v, n, m))).
  { intros m. unfold panels_of. cbn [fst snd]. rewrite map_map. apply map_ext. intros k. apply fl_entry_panel. }
  destruct (Z.eqb _ 0); cbn [flat_map]; rewrite !P, ?map_app; reflexivity.
Qed.
Lemma fl_seg x : seg_panels geo' camber' (- alpha) beta (fst x, fw (snd x)) = map flip_panel (seg_panels geo camber alpha beta x).
Proof.
  unfold seg_panels. rewrite map_flat. cbn [fst snd]. apply flat_map_ext. intros d. rewrite map_flat. apply flat_map_ext. intros v. apply (fl_visit (v, d, fst x, snd x)).
Qed.
Lemma fl_segments a : all_segments (flipped_aircraft a) = map (fun x => (fst x, fw (snd x))) (all_segments a).
Proof.
  unfold all_segments, all_wings, flipped_aircraft. cbn [a_wings]. rewrite items_map, flat_mapped, map_flat. apply flat_map_ext. intros [[i k] w]. cbn [fst snd obj flipped_wing w_segs]. rewrite map_map. reflexivity.
Qed.
Lemma fl_panels a : flat_map (seg_panels geo' camber' (- alpha) beta) (all_segments (flipped_aircraft a)) = map flip_panel (flat_map (seg_panels geo camber alpha beta) (all_segments a)).
Proof. rewrite fl_segments, flat_mapped, map_flat. apply flat_map_ext. intros x. apply fl_seg. Qed.
End Flip.

(** Loads. *)
Lemma fl_images lat : images (-1) flip (fun i => i) lat (map flip_panel lat).
Proof.
  split; [apply map_length|]. split; [auto|]. intros i p N. exists (flip_panel p). split; [apply map_nth_error; exact N|]. do 3 (split; [reflexivity|]). right. repeat split.
Qed.
Lemma fl_flow s : flow_image (-1) flip s (flipped_flow s).
Proof.
  split; [reflexivity|]. split; [reflexivity|]. unfold wind, rates, flipped_flow, flip, rad. cbn [f_airspeed f_alpha f_beta f_P f_Q f_R].
  replace (- f_alpha s * PI / 180) with (- (f_alpha s * PI / 180)) by (unfold Rdiv; ring). rewrite sin_neg, cos_neg. split; apply vec_eq; vsimp; ring.
Qed.
Lemma fl_refs r : refs_image flip r (flipped_refs r).
Proof. repeat split. Qed.
Lemma fl_coeffs s r F M :
  let c := vlm_coeffs s r F M in let c' := vlm_coeffs (flipped_flow s) (flipped_refs r) (flip F) (vscale (-1) (flip M)) in
  c_D c' = c_D c /\ c_C c' = c_C c /\ c_L c' = - c_L c /\
  c_Cx c' = c_Cx c /\ c_Cy c' = c_Cy c /\ c_CD c' = c_CD c /\ c_CC c' = c_CC c /\ c_Cn c' = c_Cn c /\
  opposite (c_Cz c) (c_Cz c') /\ opposite (c_CL c) (c_CL c') /\ opposite (c_Cl c) (c_Cl c') /\ opposite (c_Cm c) (c_Cm c').
Proof.
  cbv zeta. unfold vlm_coeffs, dyn_pressure. cbn [flipped_flow flipped_refs f_alpha f_beta f_rho f_airspeed r_area r_span r_chord].
  rewrite deg_opp, sin_neg, cos_neg.
  set (sb := sin (deg2rad (f_beta s))). set (cb := cos (deg2rad (f_beta s))). set (sa := sin (deg2rad (f_alpha s))). set (ca := cos (deg2rad (f_alpha s))). clearbody sb cb sa ca.
  set (q := if Req_EM_T _ 0 then 1 else _). clearbody q. cbn [c_D c_C c_L c_Cx c_Cy c_Cz c_CD c_CC c_CL c_Cl c_Cm c_Cn].
  assert (ED : cb * ca * vx (flip F) + - sb * vy (flip F) + cb * - sa * vz (flip F) = cb * ca * vx F + - sb * vy F + cb * sa * vz F) by (unfold flip; vsimp; ring).
  assert (EC : sb * ca * vx (flip F) + cb * vy (flip F) + sb * - sa * vz (flip F) = sb * ca * vx F + cb * vy F + sb * sa * vz F) by (unfold flip; vsimp; ring).
  assert (EL : - - sa * vx (flip F) + 0 * vy (flip F) + ca * vz (flip F) = - (- sa * vx F + 0 * vy F + ca * vz F)) by (unfold flip; vsimp; ring).
  rewrite ED, EC, EL.
  split; [reflexivity|]. split; [reflexivity|]. split; [reflexivity|]. split; [reflexivity|]. split; [reflexivity|]. split; [reflexivity|]. split; [reflexivity|].
  split; [f_equal; unfold flip; vsimp; ring|]. split; [apply cdiv_opp|]. split; [apply cdiv_opp|].
  split.
  - replace (vx (vscale (-1) (flip M))) with (- vx M) by (unfold flip; vsimp; ring). apply cdiv_opp.
  - replace (vy (vscale (-1) (flip M))) with (- vy M) by (unfold flip; vsimp; ring). apply cdiv_opp.
Qed.
Lemma fl_wings a wn w : In (wn, w) (a_wings (flipped_aircraft a)) -> exists w0, w = flipped_wing w0 /\ In (wn, w0) (a_wings a).
Proof. intros I. apply in_map_iff in I. destruct I as ([k w0] & E & I). injection E as <- <-. exists w0. split; [reflexivity|exact I]. Qed.
Lemma fl_ok a : panelled a -> counts_set a -> flags_ok a -> panelled (flipped_aircraft a) /\ counts_set (flipped_aircraft a) /\ flags_ok (flipped_aircraft a).
Proof.
  intros P C FL. split; [|split].
  - intros wn w sn s I J. apply fl_wings in I. destruct I as (w0 & -> & I). destruct (P _ _ _ _ I J) as (A & B). split; [exact A|]. intros st k v c S V E. destruct (B st k v c S V E) as (wc & G).
    cbn [flipped_wing w_ctls]. rewrite dget_map, G. eexists. reflexivity.
  - intros wn w I. apply fl_wings in I. destruct I as (w0 & -> & I). destruct (C _ _ I) as (A & B). split; [exact A|]. intros cn c J. apply in_map_iff in J. destruct J as ([k c0] & E & J). injection E as <- <-.
    exact (B _ _ J).
  - intros wn w I. apply fl_wings in I. destruct I as (w0 & -> & I). exact (FL _ _ I).
Qed.
Lemma flipped_loads geo geo' camber camber' a eps s r : (forall w x, geo' w x = flipped_quad (geo w x)) -> flipped_camber camber camber' -> panelled a -> counts_set a -> flags_ok a ->
  let s' := flipped_flow s in
  exists pans n pans' n', gen_lattice geo camber true (f_alpha s) (f_beta s) a = Ok (pans, n) /\
    gen_lattice geo' camber' true (f_alpha s') (f_beta s') (flipped_aircraft a) = Ok (pans', n') /\
    forall g o, loads eps (set_normals pans n) s r g o -> exists g' o', loads eps (set_normals pans' n') s' (flipped_refs r) g' o' /\
      o_F o' = flip (o_F o) /\ o_M o' = vscale (-1) (flip (o_M o)) /\
      (forall i pr, nth_error (o_panels o) i = Some pr -> exists pr', nth_error (o_panels o') i = Some pr' /\ o_f pr' = flip (o_f pr) /\ o_iw pr' = flip (o_iw pr)) /\
      let c := o_co o in let c' := o_co o' in
      c_D c' = c_D c /\ c_C c' = c_C c /\ c_L c' = - c_L c /\
      c_Cx c' = c_Cx c /\ c_Cy c' = c_Cy c /\ c_CD c' = c_CD c /\ c_CC c' = c_CC c /\ c_Cn c' = c_Cn c /\
      opposite (c_Cz c) (c_Cz c') /\ opposite (c_CL c) (c_CL c') /\ opposite (c_Cl c) (c_Cl c') /\ opposite (c_Cm c) (c_Cm c').
Proof.
  intros GE CA P C FL s'. destruct (fl_ok a P C FL) as (P' & C' & FL').
  destruct (lattice_by_segment geo camber (f_alpha s) (f_beta s) a P C FL) as (pans & n & G & E).
  destruct (lattice_by_segment geo' camber' (f_alpha s') (f_beta s') (flipped_aircraft a) P' C' FL') as (pans' & n' & G' & E').
  exists pans, n, pans', n'. split; [exact G|]. split; [exact G'|]. intros g o H.
  assert (IM : images (-1) flip (fun i => i) (set_normals pans n) (set_normals pans' n')).
  { rewrite E', E. unfold s', flipped_flow. cbn [f_alpha f_beta]. rewrite (fl_panels geo geo' camber camber' (f_alpha s) (f_beta s) GE CA a). apply fl_images. }
  destruct (iso_loads _ _ _ _ _ _ _ _ _ _ _ _ flip_iso IM (fl_flow s) (fl_refs r) H) as (g' & o' & H' & A & B & _ & D).
  exists g', o'. split; [exact H'|]. split; [exact A|]. split; [exact B|]. split; [exact D|]. cbv zeta.
  destruct H as (m & _ & _ & _ & H). destruct H' as (m' & _ & _ & _ & H'). rewrite (results_co _ _ _ _ _ _ H), (results_co _ _ _ _ _ _ H'), A, B. apply fl_coeffs.
Qed.
Lemma flat_flipped geo : flat geo -> forall w x, geo w x = flipped_quad (geo w x).
Proof.
  intros F w x. destruct (F w x) as (A & B & C & D). destruct (geo w x) as [[ax ay az] [bx by_ bz] [cx cy cz] [dx dy dz]]. unfold flipped_quad, flip. cbn [qa qb qc qd vx vy vz] in *. subst. rewrite Ropp_0. reflexivity.
Qed.
Lemma flat_flip v : vz v = 0 -> flip v = v.
Proof. destruct v as [x y z]. cbn. intros ->. unfold flip. cbn. rewrite Ropp_0. reflexivity. Qed.
(** Flat wings without camber: the geometry is its own image. *)
Lemma flat_loads geo a eps s r : flat geo -> panelled a -> counts_set a -> flags_ok a -> vz (r_CG r) = 0 -> vz (r_RP r) = 0 ->
  let camber := fun (_ : subarea_visit) (_ : R) => 0 in let s' := flipped_flow s in
  exists pans n pans' n', gen_lattice geo camber true (f_alpha s) (f_beta s) a = Ok (pans, n) /\
    gen_lattice geo camber true (f_alpha s') (f_beta s') (flipped_aircraft a) = Ok (pans', n') /\
    forall g o, loads eps (set_normals pans n) s r g o -> exists g' o', loads eps (set_normals pans' n') s' r g' o' /\
      let c := o_co o in let c' := o_co o' in
      c_L c' = - c_L c /\ c_CD c' = c_CD c /\ c_CC c' = c_CC c /\ c_Cn c' = c_Cn c /\
      opposite (c_CL c) (c_CL c') /\ opposite (c_Cl c) (c_Cl c') /\ opposite (c_Cm c) (c_Cm c').
Proof.
  intros F P C FL G1 G2 camber s'. assert (CA : flipped_camber camber camber) by (intros ? ? ? ? ? ? ?; unfold camber; ring).
  destruct (flipped_loads geo geo camber camber a eps s r (flat_flipped geo F) CA P C FL) as (pans & n & pans' & n' & G & G' & H).
  assert (R1 : flipped_refs r = r) by (unfold flipped_refs; rewrite (flat_flip _ G1), (flat_flip _ G2); destruct r; reflexivity). rewrite R1 in H.
  exists pans, n, pans', n'. split; [exact G|]. split; [exact G'|]. intros g o L. destruct (H g o L) as (g' & o' & L' & _ & _ & _ & K). exists g', o'. split; [exact L'|].
  cbv zeta in *. destruct K as (_ & _ & K1 & _ & _ & K2 & K3 & K4 & _ & K5 & K6 & K7). auto 8.
Qed.
Lemma opp_zero d : (d == 0)%Q -> Qopp d = d.
Proof. destruct d as [n p]. unfold Qeq, Qopp. cbn. intros E. rewrite Z.mul_1_r in E. subst. reflexivity. Qed.
Lemma opp_none o : (forall d, o = Some d -> (d == 0)%Q) -> option_map Qopp o = o.
Proof. destruct o as [d|]; [|reflexivity]. intros H. cbn. rewrite (opp_zero d (H d eq_refl)). reflexivity. Qed.
Lemma map_id_in {A} (f : A -> A) l : (forall x, In x l -> f x = x) -> map f l = l.
Proof. intros H. rewrite <- (map_id l) at 2. apply map_ext_in. exact H. Qed.
Lemma undeflected_flipped a : undeflected a -> flipped_aircraft a = a.
Proof.
  intros U. destruct a as [u ws]. unfold flipped_aircraft. cbn [a_uid a_wings]. f_equal. apply map_id_in. intros [wn w] I. cbn [fst snd]. f_equal. destruct w as [wu sy sg ct]. unfold flipped_wing. cbn [w_uid w_symmetry w_segs w_ctls].
  f_equal. apply map_id_in. intros [cn c] J. cbn [fst snd]. f_equal. destruct (U wn _ cn c I J) as (A & B). unfold flipped_control. rewrite (opp_none _ A), (opp_none _ B). destruct c; reflexivity.
Qed.
Lemma wing_loads geo a eps s r : flat geo -> undeflected a -> panelled a -> counts_set a -> flags_ok a -> vz (r_CG r) = 0 -> vz (r_RP r) = 0 ->
  let camber := fun (_ : subarea_visit) (_ : R) => 0 in let s' := flipped_flow s in
  exists pans n pans' n', gen_lattice geo camber true (f_alpha s) (f_beta s) a = Ok (pans, n) /\
    gen_lattice geo camber true (f_alpha s') (f_beta s') a = Ok (pans', n') /\
    forall g o, loads eps (set_normals pans n) s r g o -> exists g' o', loads eps (set_normals pans' n') s' r g' o' /\
      let c := o_co o in let c' := o_co o' in
      c_L c' = - c_L c /\ c_CD c' = c_CD c /\ c_CC c' = c_CC c /\ c_Cn c' = c_Cn c /\
      opposite (c_CL c) (c_CL c') /\ opposite (c_Cl c) (c_Cl c') /\ opposite (c_Cm c) (c_Cm c').
Proof. intros F U P C FL G1 G2 camber s'. pose proof (flat_loads geo a eps s r F P C FL G1 G2) as H. rewrite (undeflected_flipped a U) in H. exact H. Qed.
