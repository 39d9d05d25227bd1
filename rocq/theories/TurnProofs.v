(** Proofs for C130; the first part follows IsoPitch.v for any rotation. *)
From Coq Require Import Reals String List ZArith QArith Qreals Lra Lia.
From Verif Require Import PyBase Vec StripModel AircraftModel LatticeModel LatticeSpec PanelModel GeomModel GeomSpec
  NormalModel NormalSpec EnumProofs LatticeProofs GeomProofs MirrorProofs RotProofs NormalProofs VlmModel VlmSpec VlmProofs VlmLaws VlmSymmetry VlmAircraft
  IsoSpec IsoProofs IsoAircraft TurnSpec.
Import ListNotations.
Open Scope R_scope.

Definition turned_panel (Q : vec -> vec) (p : panel) : panel :=
  mkPanel (Q (pP p)) (Q (pQ p)) (Q (pR p)) (Q (pS p)) (Q (pV1 p)) (Q (pV2 p)) (Q (pV3 p)) (Q (pV4 p)) (Q (pC p)) (Q (pB p)) (Q (pN p)) (pA p).

Section Turn.
Variable T : vec -> vec.
Hypothesis ISO : rotation T.
Lemma pt_add u v : T (vadd u v) = vadd (T u) (T v).
Proof. apply (iso_add _ _ ISO). Qed.
Lemma pt_scale k u : T (vscale k u) = vscale k (T u).
Proof. apply (iso_scale _ _ ISO). Qed.
Lemma pt_sub u v : T (vsub u v) = vsub (T u) (T v).
Proof. apply (iso_sub _ _ ISO). Qed.
Lemma pt_dot u v : vdot (T u) (T v) = vdot u v.
Proof. apply (iso_dot _ _ ISO). Qed.
Lemma pt_norm v : vnorm (T v) = vnorm v.
Proof. apply (iso_norm _ _ ISO). Qed.
Lemma pt_cross u v : vcross (T u) (T v) = T (vcross u v).
Proof. rewrite (iso_cross _ _ ISO). apply vec_eq; vsimp; ring. Qed.
Lemma pt_lin v : T v = vadd (vscale (vx v) (T (mkV 1 0 0))) (vadd (vscale (vy v) (T (mkV 0 1 0))) (vscale (vz v) (T (mkV 0 0 1)))).
Proof. rewrite <- !pt_scale, <- !pt_add. f_equal. apply vec_eq; vsimp; ring. Qed.
Ltac lin := repeat match goal with
  | |- context [T ?v] => lazymatch v with mkV 1 0 0 => fail | mkV 0 1 0 => fail | mkV 0 0 1 => fail | _ => rewrite (pt_lin v) end
  end; generalize (T (mkV 1 0 0)) (T (mkV 0 1 0)) (T (mkV 0 0 1)); intros.
Lemma pt_along a b k : along (T a) (T b) k = T (along a b k).
Proof. unfold along. rewrite pt_add, !pt_scale. reflexivity. Qed.
Lemma pt_rot axis th v : T (rot axis th v) = rot (T axis) th (T v).
Proof. unfold rot. rewrite (pt_norm axis), <- (pt_scale (/ vnorm axis) axis). set (k := vscale (/ vnorm axis) axis). rewrite !pt_add, !pt_scale, pt_cross, pt_dot. reflexivity. Qed.
Lemma pt_surface q s c : surface (turned_quad T q) s c = T (surface q s c).
Proof. unfold surface, turned_quad. cbn [qa qb qc qd]. rewrite !pt_along. reflexivity. Qed.
Lemma pt_raw P Q R S : raw (T P) (T Q) (T R) (T S) = T (raw P Q R S).
Proof.
  rewrite !raw_eq, pt_scale, <- pt_cross, !pt_sub, !pt_along. f_equal.
  assert (E : forall a b, midpoint (T a) (T b) = T (midpoint a b)) by (intros; apply pt_along).
  rewrite !E. reflexivity.
Qed.
Lemma pt_panel dir P Q R S : panel_of_corners (T dir) (T P) (T Q) (T R) (T S) = turned_panel T (panel_of_corners dir P Q R S).
Proof.
  assert (E : forall p p' : panel, pP p = pP p' -> pQ p = pQ p' -> pR p = pR p' -> pS p = pS p' -> pV1 p = pV1 p' -> pV2 p = pV2 p' ->
    pV3 p = pV3 p' -> pV4 p = pV4 p' -> pC p = pC p' -> pB p = pB p' -> pN p = pN p' -> pA p = pA p' -> p = p').
  { intros [] []; cbn. intros; subst; reflexivity. }
  apply E; try reflexivity; try (unfold panel_of_corners, turned_panel; cbn [pV1 pV2 pV3 pV4 pC pB]; lin; apply vec_eq; vsimp; ring).
  - unfold turned_panel. cbn [pN]. rewrite !pN_eq, pt_raw, pt_norm, pt_scale. reflexivity.
  - unfold turned_panel. cbn [pA]. unfold panel_of_corners. cbn [pA].
    assert (X : pan_span (T P) (T Q) (T R) (T S) = T (pan_span P Q R S)) by (unfold pan_span; lin; apply vec_eq; vsimp; ring).
    assert (Y : pan_chord (T P) (T Q) (T R) (T S) = T (pan_chord P Q R S)) by (unfold pan_chord; lin; apply vec_eq; vsimp; ring).
    rewrite X, Y, !pt_norm. reflexivity.
Qed.
Lemma pt_make dir q ps pc i j : make_panel (T dir) (turned_quad T q) ps pc i j = turned_panel T (make_panel dir q ps pc i j).
Proof. unfold make_panel. rewrite !corner_surface, !pt_surface. apply pt_panel. Qed.
Lemma pt_lattice dir rows : lattice (T dir) (map (fun x => (turned_quad T (fst x), snd x)) rows) = map (turned_panel T) (lattice dir rows).
Proof.
  unfold lattice. rewrite IsoAircraft.flat_map_map, map_flat_map. apply flat_map_ext. intros [q [s c]]. cbn [fst snd]. unfold sub_panels. rewrite map_map.
  apply map_ext. intro k. apply pt_make.
Qed.

Variable geo : string -> string -> quad.
Variable camber : subarea_visit -> R -> R.
Definition tgeo (w s : string) : quad := turned_quad T (geo w s).
Definition res_map {A B} (f : A -> B) (x : res A) : res B := match x with Ok a => Ok (f a) | Err e => Err e end.
Definition turned_into_itself (p : plane) : Prop := forall v, refl p (T v) = T (refl p v).
Definition side_entry (e : entry) : Prop := e_mirror e = true -> exists p, w_symmetry (v_wing (e_visit e)) = plane_num p /\ turned_into_itself p.

Lemma pt_strip q e : strip_quad (turned_quad T q) e = turned_quad T (strip_quad q e).
Proof. unfold strip_quad, turned_quad. cbn [qa qb qc qd]. rewrite !pt_along. reflexivity. Qed.
Lemma pt_sub_quad q x : sub_quad (turned_quad T q) x = turned_quad T (sub_quad q x).
Proof. unfold sub_quad, turned_quad. cbn [qa qb qc qd]. rewrite !pt_along. reflexivity. Qed.
Lemma pt_order p q : turned_into_itself p -> quad_order p (quad_refl p (turned_quad T q)) = turned_quad T (quad_order p (quad_refl p q)).
Proof. intro H. destruct p; unfold quad_order, quad_refl, order4, quad_of, turned_quad; cbn [qa qb qc qd]; rewrite !H; reflexivity. Qed.
Lemma pt_vertices e : side_entry e -> entry_vertices tgeo e = res_map (turned_quad T) (entry_vertices geo e).
Proof.
  intro S. unfold entry_vertices, v_quad, tgeo. destruct (e_mirror e) eqn:M.
  - destruct (S M) as (p & E & H). rewrite E. rewrite !sub_mirror. cbn [res_map]. rewrite pt_strip, pt_order, pt_sub_quad by exact H. reflexivity.
  - rewrite !sub_plain. cbn [res_map]. rewrite pt_strip, pt_sub_quad. reflexivity.
Qed.
Lemma pt_hinge e : side_entry e -> entry_hinge tgeo e = res_map T (entry_hinge geo e).
Proof.
  intro S. unfold entry_hinge, hinge_axis, v_quad, tgeo. destruct (sa_hinge (v_sub (e_visit e))) as [[h1 h2]|]; [|reflexivity].
  destruct (e_mirror e) eqn:M.
  - destruct (S M) as (p & E & H). rewrite E. rewrite !hinge_mirror. cbn [bind fst snd res_map]. rewrite pt_strip.
    unfold quad_refl. cbn [qa qb qc qd]. unfold turned_quad at 1 2 3 4. cbn [qa qb qc qd]. rewrite pt_sub. destruct p; cbn [fst snd]; rewrite <- !pt_along, <- !H; reflexivity.
  - rewrite !hinge_plain. cbn [bind fst snd res_map]. rewrite pt_strip. unfold turned_quad. cbn [qa qb qc qd]. rewrite !pt_along, pt_sub. reflexivity.
Qed.
Lemma pt_camber_axis q : camber_axis (turned_quad T q) = T (camber_axis q).
Proof.
  unfold camber_axis, turned_quad. cbn [qa qb qc qd]. rewrite <- !pt_sub, !pt_cross, pt_norm, <- pt_scale, <- pt_add, <- pt_sub. reflexivity.
Qed.

Lemma upd_map n i f g : (forall x, g (T x) = T (f x)) -> upd (map T n) i g = res_map (map T) (upd n i f).
Proof.
  intro H. unfold upd. rewrite nth_error_map. destruct (nth_error n (Z.to_nat i)) as [x|]; [|reflexivity]. cbn [option_map res_map].
  rewrite H, map_app, firstn_map, skipn_map. reflexivity.
Qed.
Lemma upd_all_map l f g : (forall i x, g i (T x) = T (f i x)) -> forall n, upd_all (map T n) l g = res_map (map T) (upd_all n l f).
Proof.
  intro H. induction l as [|i l IH]; intro n; cbn [upd_all]; [reflexivity|]. rewrite (upd_map n i (f i) (g i) (H i)).
  destruct (upd n i (f i)) as [n'|]; cbn [res_map bind]; [apply IH|reflexivity].
Qed.
Lemma pt_deflect e n : side_entry e -> deflect tgeo e (map T n) = res_map (map T) (deflect geo e n).
Proof.
  intro S. unfold deflect. destruct (sa_ctrl _) as [c|]; [|reflexivity]. destruct (dget _ _) as [wc|]; [|reflexivity].
  rewrite pt_hinge by exact S. destruct (entry_hinge geo e) as [axis|]; cbn [bind res_map]; [|reflexivity].
  destruct (entry_deflection e wc) as [d|]; [|reflexivity]. destruct (truthy _); [|reflexivity].
  apply upd_all_map. intros _ x. symmetry. apply pt_rot.
Qed.
Lemma pt_camber_rot e n : side_entry e -> camber_rot tgeo camber e (map T n) = res_map (map T) (camber_rot geo camber e n).
Proof.
  intro S. unfold camber_rot. rewrite pt_vertices by exact S. destruct (entry_vertices geo e) as [sub|]; cbn [bind res_map]; [|reflexivity].
  apply upd_all_map. intros i x. destruct (truthy _); [|reflexivity]. rewrite pt_camber_axis. symmetry. apply pt_rot.
Qed.
Lemma pt_rotate_loop l : Forall side_entry l -> forall n, rotate_loop tgeo camber l (map T n) = res_map (map T) (rotate_loop geo camber l n).
Proof.
  induction 1 as [|e l S _ IH]; intro n; cbn [rotate_loop]; [reflexivity|]. rewrite pt_deflect by exact S.
  destruct (deflect geo e n) as [n1|]; cbn [bind res_map]; [|reflexivity]. rewrite pt_camber_rot by exact S.
  destruct (camber_rot geo camber e n1) as [n2|]; cbn [bind res_map]; [apply IH|reflexivity].
Qed.
Lemma pt_rows l : Forall side_entry l -> entry_rows tgeo l = res_map (map (fun x => (turned_quad T (fst x), snd x))) (entry_rows geo l).
Proof.
  induction 1 as [|e l S _ IH]; cbn [entry_rows]; [reflexivity|]. rewrite pt_vertices by exact S.
  destruct (entry_vertices geo e) as [q|]; cbn [bind res_map]; [|reflexivity]. rewrite IH. destruct (entry_rows geo l); reflexivity.
Qed.

Definition side_wing (w : wing) : Prop := w_symmetry w = 0%Z \/ exists p, w_symmetry w = plane_num p /\ turned_into_itself p.
Lemma count_visits l : forall st r, count_loop st l = Ok r -> (forall e, In e (bk_list (c_book st)) -> side_entry e) ->
  (forall v, In v l -> side_wing (v_wing v)) -> forall e, In e (bk_list (c_book r)) -> side_entry e.
Proof.
  induction l as [|v l IH]; intros st r H A B; cbn [count_loop] in H; [injection H as <-; exact A|].
  unfold count_step in H. destruct (num_chordwise v) as [n|]; [|discriminate]. cbn [bind] in H.
  pose proof (B v (or_introl eq_refl)) as BV.
  destruct (Z.eqb_spec (w_symmetry (v_wing v)) 0) as [E|E]; cbn [bind] in H; (eapply IH; [exact H| |intros; apply B; right; assumption]);
    cbn [c_book]; rewrite !update_book_list; intros e I.
  - apply in_app_iff in I as [I|[<-|[]]]; [apply A; exact I|]. intro X. discriminate.
  - rewrite <- app_assoc in I. apply in_app_iff in I as [I|[<-|[<-|[]]]]; [apply A; exact I|intro X; discriminate|].
    intros _. cbn [e_visit]. destruct BV; [contradiction|assumption].
Qed.
Lemma side_visits a : mirrors_turned T a -> forall v, In v (all_subareas a) -> side_wing (v_wing v).
Proof.
  intros H v I. destruct v as [[[[[na ka] v] [[nd kd] d]] [[ns ks] s]] [[nw kw] w]]. apply all_subareas_In in I.
  destruct I as (Iw & _). apply nth_error_In in Iw. exact (H _ _ Iw).
Qed.
Lemma direction_trail s : trail_dir (f_alpha s) (f_beta s) = vscale infty (direction s).
Proof. unfold trail_dir, freestream_direction, direction. rewrite !deg2rad_rad. apply vec_eq; vsimp; ring. Qed.
Lemma pt_gen_lattice s s' a : mirrors_turned T a -> direction s' = T (direction s) ->
  gen_lattice tgeo camber true (f_alpha s') (f_beta s') a =
  res_map (fun x => (map (turned_panel T) (fst x), map T (snd x))) (gen_lattice geo camber true (f_alpha s) (f_beta s) a).
Proof.
  intros S DI. unfold gen_lattice. destruct (panel_count a) as [st|] eqn:E; cbn [bind res_map]; [|reflexivity].
  assert (F : Forall side_entry (bk_list (c_book st))).
  { apply Forall_forall. apply (count_visits _ _ _ E); [cbn; contradiction|]. apply side_visits. exact S. }
  rewrite pt_rows by exact F. destruct (entry_rows geo (bk_list (c_book st))) as [rows|]; cbn [bind res_map]; [|reflexivity].
  rewrite (direction_trail s'), DI, <- pt_scale, <- direction_trail, pt_lattice, map_map.
  replace (map (fun x => pN (turned_panel T x)) (lattice (trail_dir (f_alpha s) (f_beta s)) rows)) with (map T (map pN (lattice (trail_dir (f_alpha s) (f_beta s)) rows)))
    by (rewrite map_map; reflexivity).
  rewrite pt_rotate_loop by exact F. destruct (rotate_loop geo camber _ _) as [n|]; reflexivity.
Qed.
Lemma turned_images pans n : images 1 T (fun i => i) (set_normals pans n) (set_normals (map (turned_panel T) pans) (map T n)).
Proof.
  assert (E : set_normals (map (turned_panel T) pans) (map T n) = map (turned_panel T) (set_normals pans n)).
  { unfold set_normals. revert n. induction pans as [|p pans IH]; intros [|x n]; cbn [map combine]; try reflexivity. f_equal. apply IH. }
  rewrite E. split; [apply map_length|]. split; [auto|]. intros i p N. exists (turned_panel T p). rewrite nth_error_map, N. split; [reflexivity|].
  do 3 (split; [reflexivity|]). right. do 4 (split; [reflexivity|]). cbn [pN turned_panel]. apply vec_eq; vsimp; ring.
Qed.
Lemma turned_flow_image s s' : turned_flow T s s' -> flow_image 1 T s s'.
Proof.
  intros (A & B & C & D). split; [exact A|]. split; [exact B|]. split.
  - unfold wind. fold (direction s') (direction s). rewrite A, C, pt_scale. reflexivity.
  - rewrite D. apply vec_eq; vsimp; ring.
Qed.
Lemma turned_refs_image r : refs_image T r (turned_refs T r).
Proof. repeat split. Qed.
Lemma drag_dot s r F M : c_D (vlm_coeffs s r F M) = vdot F (direction s).
Proof. unfold vlm_coeffs, direction, vdot. cbn [c_D]. rewrite !deg2rad_rad. vsimp. ring. Qed.
Lemma across s r F M : let c := vlm_coeffs s r F M in c_D c * c_D c + (c_C c * c_C c + c_L c * c_L c) = vdot F F.
Proof.
  cbv zeta. unfold vlm_coeffs, vdot. cbn [c_D c_C c_L]. rewrite !deg2rad_rad. set (a := rad (f_alpha s)). set (b := rad (f_beta s)).
  pose proof (sin2_cos2 a) as A. pose proof (sin2_cos2 b) as B. unfold Rsqr in A, B.
  set (sa := sin a) in *. set (ca := cos a) in *. set (sb := sin b) in *. set (cb := cos b) in *. clearbody sa ca sb cb.
  transitivity ((sb * sb + cb * cb) * ((ca * ca * (vx F * vx F) + 2 * ca * sa * vx F * vz F + sa * sa * (vz F * vz F)) + vy F * vy F) + (sa * sa * (vx F * vx F) - 2 * ca * sa * vx F * vz F + ca * ca * (vz F * vz F))); [ring|].
  rewrite B. transitivity ((sa * sa + ca * ca) * (vx F * vx F + vz F * vz F) + vy F * vy F); [ring|]. rewrite A. ring.
Qed.
Lemma turned_loads a eps s s' r pans n g o : mirrors_turned T a -> turned_flow T s s' ->
  gen_lattice geo camber true (f_alpha s) (f_beta s) a = Ok (pans, n) -> loads eps (set_normals pans n) s r g o ->
  exists pans' n', gen_lattice (fun w x => turned_quad T (geo w x)) camber true (f_alpha s') (f_beta s') a = Ok (pans', n') /\
    exists g' o', loads eps (set_normals pans' n') s' (turned_refs T r) g' o' /\
    o_F o' = T (o_F o) /\ o_M o' = T (o_M o) /\
    (forall i pr, nth_error (o_panels o) i = Some pr -> exists pr', nth_error (o_panels o') i = Some pr' /\ o_f pr' = T (o_f pr) /\ o_iw pr' = T (o_iw pr)) /\
    let c := o_co o in let c' := o_co o' in
    c_D c' = c_D c /\ c_CD c' = c_CD c /\ c_C c' * c_C c' + c_L c' * c_L c' = c_C c * c_C c + c_L c * c_L c.
Proof.
  intros S TF G H. exists (map (turned_panel T) pans), (map T n). pose proof TF as (V & RH & DI & _).
  split; [pose proof (pt_gen_lattice s s' a S DI) as E; rewrite G in E; exact E|].
  destruct (iso_loads _ _ _ _ _ _ _ s' _ (turned_refs T r) _ _ ISO (turned_images pans n) (turned_flow_image s s' TF) (turned_refs_image r) H) as (g' & o' & H' & A & B & _ & C).
  exists g', o'. split; [exact H'|]. split; [exact A|]. split; [rewrite B; apply vec_eq; vsimp; ring|]. split; [exact C|]. cbv zeta.
  destruct H as (m & _ & _ & _ & H). destruct H' as (m' & _ & _ & _ & H'). rewrite (results_co _ _ _ _ _ _ H), (results_co _ _ _ _ _ _ H').
  assert (ED : c_D (vlm_coeffs s' (turned_refs T r) (o_F o') (o_M o')) = c_D (vlm_coeffs s r (o_F o) (o_M o))) by (rewrite !drag_dot, A, DI; apply pt_dot).
  split; [exact ED|]. split.
  - unfold vlm_coeffs in ED |- *. cbn [c_D c_CD] in ED |- *. rewrite ED. unfold dyn_pressure. rewrite V, RH. reflexivity.
  - pose proof (across s r (o_F o) (o_M o)) as X. pose proof (across s' (turned_refs T r) (o_F o') (o_M o')) as Y. cbv zeta in X, Y. rewrite ED in Y. rewrite A, pt_dot in Y. rewrite A. lra.
Qed.
End Turn.

(** ** Angles of the turned flow *)
Lemma angle_exists x z : x * x + z * z = 1 -> exists t, - PI <= t <= PI /\ cos t = x /\ sin t = z.
Proof.
  intro H. assert (X : -1 <= x <= 1) by nra. pose proof (acos_bound x) as (B0 & B1). pose proof PI_RGT_0 as PP.
  destruct (Rle_dec 0 z) as [Z|Z].
  - exists (acos x). split; [lra|]. split; [apply cos_acos; exact X|]. rewrite sin_acos by exact X. replace (1 - x²) with (z * z) by (unfold Rsqr; lra). apply sqrt_square. exact Z.
  - exists (- acos x). split; [lra|]. rewrite cos_neg, sin_neg. split; [apply cos_acos; exact X|]. rewrite sin_acos by exact X.
    replace (1 - x²) with ((- z) * (- z)) by (unfold Rsqr; lra). rewrite sqrt_square by lra. ring.
Qed.
Lemma rad_deg t : rad (t * 180 / PI) = t.
Proof. unfold rad. field. pose proof PI_RGT_0. lra. Qed.
Lemma deg_bound t k : - (k * PI) <= t <= k * PI -> - (k * 180) <= t * 180 / PI <= k * 180.
Proof.
  intros (A & B). pose proof PI_RGT_0 as PP. assert (E : t = (t * 180 / PI) * (PI / 180)) by (field; lra).
  assert (P1 : 0 < PI / 180) by lra. split; apply (Rmult_le_reg_r (PI / 180)); try exact P1; rewrite <- E; lra.
Qed.
Lemma unit_direction w : vdot w w = 1 -> exists alpha beta, -180 <= alpha <= 180 /\ -90 <= beta <= 90 /\
  mkV (cos (rad alpha) * cos (rad beta)) (- sin (rad beta)) (sin (rad alpha) * cos (rad beta)) = w.
Proof.
  intro H. unfold vdot in H. assert (Y : -1 <= - vy w <= 1) by nra. pose proof (asin_bound (- vy w)) as (B0 & B1).
  pose (b := asin (- vy w)). assert (SB : sin b = - vy w) by (apply sin_asin; exact Y).
  assert (CB : 0 <= cos b) by (apply cos_ge_0; unfold b; lra). pose proof (sin2_cos2 b) as SC. unfold Rsqr in SC. rewrite SB in SC.
  assert (EX : exists t, - PI <= t <= PI /\ cos t * cos b = vx w /\ sin t * cos b = vz w).
  { destruct (Req_EM_T (cos b) 0) as [Z|Z].
    - exists 0. pose proof PI_RGT_0. split; [lra|]. rewrite Z in *. assert (vx w * vx w + vz w * vz w = 0) by lra. assert (vx w = 0) by nra. assert (vz w = 0) by nra. split; lra.
    - destruct (angle_exists (vx w / cos b) (vz w / cos b)) as (t & BT & CT & ST).
      + replace (vx w / cos b * (vx w / cos b) + vz w / cos b * (vz w / cos b)) with ((vx w * vx w + vz w * vz w) / (cos b * cos b)) by (field; exact Z).
        replace (vx w * vx w + vz w * vz w) with (cos b * cos b) by lra. field. exact Z.
      + exists t. split; [exact BT|]. rewrite CT, ST. split; field; exact Z. }
  destruct EX as (t & BT & CT & ST). exists (t * 180 / PI), (b * 180 / PI). rewrite !rad_deg.
  split; [pose proof (deg_bound t 1 ltac:(lra)); lra|]. split; [pose proof (deg_bound b (1/2) ltac:(unfold b; lra)); lra|].
  rewrite CT, ST, SB. apply vec_eq; vsimp; ring.
Qed.
Lemma direction_unit s : vdot (direction s) (direction s) = 1.
Proof.
  unfold direction, vdot. vsimp. pose proof (sin2_cos2 (rad (f_alpha s))) as A. pose proof (sin2_cos2 (rad (f_beta s))) as B. unfold Rsqr in A, B.
  set (sa := sin (rad (f_alpha s))) in *. set (ca := cos (rad (f_alpha s))) in *. set (sb := sin (rad (f_beta s))) in *. set (cb := cos (rad (f_beta s))) in *. clearbody sa ca sb cb.
  transitivity ((sa * sa + ca * ca) * (cb * cb) + sb * sb); [ring|]. rewrite A. lra.
Qed.
Lemma turned_exists Q s : rotation Q -> exists s', turned_flow Q s s' /\ -180 <= f_alpha s' <= 180 /\ -90 <= f_beta s' <= 90.
Proof.
  intro ISO. destruct (unit_direction (Q (direction s))) as (a & b & A & B & E); [rewrite (pt_dot Q ISO); apply direction_unit|].
  exists (mkFlow (f_airspeed s) (f_rho s) a b (vx (Q (rates s))) (vy (Q (rates s))) (vz (Q (rates s)))).
  split; [|split; [exact A|exact B]]. split; [reflexivity|]. split; [reflexivity|]. split; [exact E|]. unfold rates at 1. cbn [f_P f_Q f_R]. apply vec_eq; vsimp; reflexivity.
Qed.

(** ** Yaw and roll *)
Lemma yaw_iso t : rotation (yaw t).
Proof.
  pose proof (pitch_cs t) as E. unfold yaw. set (c := cos _) in *. set (s := sin _) in *. clearbody c s.
  split; [left; reflexivity|]. split; [intros; apply vec_eq; vsimp; ring|]. split; [intros; apply vec_eq; vsimp; ring|]. split.
  - intros u v. unfold vdot. vsimp. transitivity ((c * c + s * s) * (vx u * vx v + vy u * vy v) + vz u * vz v); [ring|rewrite E; ring].
  - intros u v. apply vec_eq; vsimp; [ring|ring|]. transitivity ((c * c + s * s) * (vx u * vy v - vy u * vx v)); [ring|rewrite E; ring].
Qed.
Lemma roll_iso t : rotation (roll t).
Proof.
  pose proof (pitch_cs t) as E. unfold roll. set (c := cos _) in *. set (s := sin _) in *. clearbody c s.
  split; [left; reflexivity|]. split; [intros; apply vec_eq; vsimp; ring|]. split; [intros; apply vec_eq; vsimp; ring|]. split.
  - intros u v. unfold vdot. vsimp. transitivity ((c * c + s * s) * (vy u * vy v + vz u * vz v) + vx u * vx v); [ring|rewrite E; ring].
  - intros u v. apply vec_eq; vsimp; [|ring|ring]. transitivity ((c * c + s * s) * (vy u * vz v - vz u * vy v)); [ring|rewrite E; ring].
Qed.
Definition yawed_flow (t : R) (s : flow) : flow :=
  let w := yaw t (rates s) in mkFlow (f_airspeed s) (f_rho s) 0 (f_beta s + t) (vx w) (vy w) (vz w).
Lemma rad_0 : rad 0 = 0.
Proof. unfold rad. field. Qed.
Lemma flow_yaw t s : f_alpha s = 0 -> turned_flow (yaw t) s (yawed_flow t s).
Proof.
  intro A. split; [reflexivity|]. split; [reflexivity|]. split; [|reflexivity]. unfold direction, yawed_flow. cbn [f_alpha f_beta].
  rewrite A, rad_0, rad_plus, sin_plus, cos_plus, sin_0, cos_0. unfold yaw. apply vec_eq; vsimp; ring.
Qed.
Lemma yaw_loads t geo camber a eps s r pans n g o : mirrors_turned (yaw t) a -> f_alpha s = 0 ->
  gen_lattice geo camber true (f_alpha s) (f_beta s) a = Ok (pans, n) -> loads eps (set_normals pans n) s r g o ->
  let s' := mkFlow (f_airspeed s) (f_rho s) 0 (f_beta s + t) (vx (yaw t (rates s))) (vy (yaw t (rates s))) (vz (yaw t (rates s))) in
  exists pans' n', gen_lattice (fun w x => turned_quad (yaw t) (geo w x)) camber true (f_alpha s') (f_beta s') a = Ok (pans', n') /\
    exists g' o', loads eps (set_normals pans' n') s' (turned_refs (yaw t) r) g' o' /\
    let c := o_co o in let c' := o_co o' in
    c_D c' = c_D c /\ c_C c' = c_C c /\ c_L c' = c_L c /\
    c_CD c' = c_CD c /\ c_CC c' = c_CC c /\ c_CL c' = c_CL c /\ c_Cn c' = c_Cn c /\ c_Cz c' = c_Cz c.
Proof.
  intros S A0 G H. change (mkFlow _ _ _ _ _ _ _) with (yawed_flow t s). intro s'.
  destruct (turned_loads (yaw t) (yaw_iso t) geo camber a eps s s' r pans n g o S (flow_yaw t s A0) G H) as (pans' & n' & G' & g' & o' & H' & A & B & _ & C & D & _).
  exists pans', n'. split; [exact G'|]. exists g', o'. split; [exact H'|]. cbv zeta in C, D |- *. split; [exact C|].
  destruct H as (m & _ & _ & _ & H). destruct H' as (m' & _ & _ & _ & H'). rewrite (results_co _ _ _ _ _ _ H), (results_co _ _ _ _ _ _ H') in *.
  pose proof (pitch_cs t) as E.
  assert (EC : c_C (vlm_coeffs s' (turned_refs (yaw t) r) (o_F o') (o_M o')) = c_C (vlm_coeffs s r (o_F o) (o_M o))).
  { unfold vlm_coeffs. cbn [c_C]. rewrite A, !deg2rad_rad. unfold s', yawed_flow. cbn [f_alpha f_beta]. rewrite A0, rad_0, rad_plus, sin_plus, cos_plus, sin_0, cos_0. unfold yaw. vsimp.
    set (F := o_F o). set (ct := cos (rad t)) in *. set (st := sin (rad t)) in *. set (sb := sin _). set (cb := cos _). clearbody F ct st sb cb.
    transitivity ((ct * ct + st * st) * (sb * vx F + cb * vy F)); [ring|rewrite E; ring]. }
  assert (EL : c_L (vlm_coeffs s' (turned_refs (yaw t) r) (o_F o') (o_M o')) = c_L (vlm_coeffs s r (o_F o) (o_M o))).
  { unfold vlm_coeffs. cbn [c_L]. rewrite A, !deg2rad_rad. unfold s', yawed_flow. cbn [f_alpha f_beta]. rewrite A0, rad_0, sin_0, cos_0. unfold yaw. vsimp. ring. }
  split; [exact EC|]. split; [exact EL|]. split; [exact D|].
  unfold vlm_coeffs in EC, EL |- *. cbn [c_C c_L c_CC c_CL c_Cn c_Cz] in EC, EL |- *. rewrite EC, EL. split; [reflexivity|]. split; [reflexivity|]. rewrite A, B. split; reflexivity.
Qed.
Lemma roll_90 v : roll 90 v = mkV (vx v) (- vz v) (vy v).
Proof. unfold roll. replace (rad 90) with (PI / 2) by (unfold rad; field). rewrite cos_PI2, sin_PI2. apply vec_eq; vsimp; ring. Qed.
Lemma banked_loads geo camber a eps s r pans n g o : mirrors_turned (roll 90) a -> f_beta s = 0 ->
  gen_lattice geo camber true (f_alpha s) (f_beta s) a = Ok (pans, n) -> loads eps (set_normals pans n) s r g o ->
  let s' := mkFlow (f_airspeed s) (f_rho s) 0 (f_alpha s) (f_P s) (- f_R s) (f_Q s) in
  exists pans' n', gen_lattice (fun w x => turned_quad (roll 90) (geo w x)) camber true (f_alpha s') (f_beta s') a = Ok (pans', n') /\
    exists g' o', loads eps (set_normals pans' n') s' (turned_refs (roll 90) r) g' o' /\
    let c := o_co o in let c' := o_co o' in
    c_D c' = c_D c /\ c_C c' = - c_L c /\ c_L c' = c_C c /\ c_CD c' = c_CD c /\ opposite (c_CL c) (c_CC c') /\ c_CL c' = c_CC c /\ c_Cl c' = c_Cl c.
Proof.
  intros S B0 G H s'.
  assert (TF : turned_flow (roll 90) s s').
  { split; [reflexivity|]. split; [reflexivity|]. split.
    - rewrite roll_90. unfold direction, s'. cbn [f_alpha f_beta]. rewrite B0, rad_0, sin_0, cos_0. apply vec_eq; vsimp; ring.
    - rewrite roll_90. apply vec_eq; reflexivity. }
  destruct (turned_loads (roll 90) (roll_iso 90) geo camber a eps s s' r pans n g o S TF G H) as (pans' & n' & G' & g' & o' & H' & A & B & _ & C & D & _).
  exists pans', n'. split; [exact G'|]. exists g', o'. split; [exact H'|]. cbv zeta in C, D |- *. split; [exact C|].
  destruct H as (m & _ & _ & _ & H). destruct H' as (m' & _ & _ & _ & H'). rewrite (results_co _ _ _ _ _ _ H), (results_co _ _ _ _ _ _ H') in *.
  rewrite roll_90 in A, B.
  assert (EC : c_C (vlm_coeffs s' (turned_refs (roll 90) r) (o_F o') (o_M o')) = - c_L (vlm_coeffs s r (o_F o) (o_M o))).
  { unfold vlm_coeffs. cbn [c_C c_L]. rewrite A, !deg2rad_rad. unfold s'. cbn [f_alpha f_beta]. rewrite rad_0, sin_0, cos_0. vsimp. ring. }
  assert (EL : c_L (vlm_coeffs s' (turned_refs (roll 90) r) (o_F o') (o_M o')) = c_C (vlm_coeffs s r (o_F o) (o_M o))).
  { unfold vlm_coeffs. cbn [c_C c_L]. rewrite A, !deg2rad_rad. unfold s'. cbn [f_alpha f_beta]. rewrite B0, rad_0, sin_0, cos_0. vsimp. ring. }
  split; [exact EC|]. split; [exact EL|]. split; [exact D|].
  unfold vlm_coeffs in EC, EL |- *. cbn [c_C c_L c_CC c_CL c_Cl] in EC, EL |- *. rewrite EC, EL. split; [apply cdiv_opp|]. split; [reflexivity|]. rewrite B. reflexivity.
Qed.
