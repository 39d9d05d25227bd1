(** Turned aircraft (C99) and unloaded aircraft (C100). *)
From Coq Require Import Reals List ZArith String QArith Qreals Lra Lia.
From Verif Require Import PyBase Vec StripModel AircraftModel LatticeModel LatticeSpec PanelModel GeomModel GeomSpec
  NormalModel NormalSpec EnumProofs LatticeProofs GeomProofs MirrorProofs RotProofs NormalProofs VlmModel VlmSpec VlmProofs VlmLaws VlmSymmetry VlmAircraft
  IsoSpec IsoProofs IsoAircraft.
Import ListNotations.
Open Scope R_scope.

Section Pitch.
Variable t : R.
Notation T := (pitch t).
Let ISO := pitch_iso t.
Lemma pt_add u v : T (vadd u v) = vadd (T u) (T v).
Proof. apply (iso_add _ _ ISO). Qed.
Lemma pt_scale k u : T (vscale k u) = vscale k (T u).
Proof. apply (iso_scale _ _ ISO). Qed.
Lemma pt_sub u v : T (vsub u v) = vsub (T u) (T v).
Proof. apply (iso_sub _ _ ISO). Qed.
Lemma pt_dot u v : vdot (T u) (T v) = vdot u v.
Proof. apply (iso_dot _ _ ISO). Qed.
Lemma pt_norm v : vnorm (T v) = vnorm v.
Proof. apply (iso_norm _ _ ISO). Qed.
Lemma pt_cross u v : vcross (T u) (T v) = T (vcross u v).
Proof. rewrite (iso_cross _ _ ISO). apply vec_eq; vsimp; ring. Qed.
Lemma pt_along a b k : along (T a) (T b) k = T (along a b k).
Proof. unfold along, pitch. apply vec_eq; vsimp; ring. Qed.
Lemma pt_refl v : refl XZ (T v) = T (refl XZ v).
Proof. unfold pitch. apply vec_eq; vsimp; ring. Qed.
Lemma pt_rot axis th v : T (rot axis th v) = rot (T axis) th (T v).
Proof. unfold rot. rewrite (pt_norm axis), <- (pt_scale (/ vnorm axis) axis). set (k := vscale (/ vnorm axis) axis). rewrite !pt_add, !pt_scale, pt_cross, pt_dot. reflexivity. Qed.
Lemma pt_surface q s c : surface (pitched_quad t q) s c = T (surface q s c).
Proof. unfold surface, pitched_quad. cbn [qa qb qc qd]. rewrite !pt_along. reflexivity. Qed.
Lemma pt_trail alpha beta : trail_dir (alpha + t) beta = T (trail_dir alpha beta).
Proof.
  unfold trail_dir, freestream_direction. rewrite !deg2rad_rad, rad_plus, sin_plus, cos_plus. unfold pitch. apply vec_eq; vsimp; ring.
Qed.
Lemma pt_raw P Q R S : raw (T P) (T Q) (T R) (T S) = T (raw P Q R S).
Proof.
  rewrite !raw_eq, pt_scale, <- pt_cross, !pt_sub, !pt_along. f_equal.
  assert (E : forall a b, midpoint (T a) (T b) = T (midpoint a b)) by (intros; apply pt_along).
  rewrite !E. reflexivity.
Qed.
Lemma pt_panel dir P Q R S : panel_of_corners (T dir) (T P) (T Q) (T R) (T S) = pitched_panel t (panel_of_corners dir P Q R S).
Proof.
  assert (E : forall p p' : panel, pP p = pP p' -> pQ p = pQ p' -> pR p = pR p' -> pS p = pS p' -> pV1 p = pV1 p' -> pV2 p = pV2 p' ->
    pV3 p = pV3 p' -> pV4 p = pV4 p' -> pC p = pC p' -> pB p = pB p' -> pN p = pN p' -> pA p = pA p' -> p = p').
  { intros [] []; cbn. intros; subst; reflexivity. }
  apply E; try reflexivity; try (unfold panel_of_corners, pitched_panel, pitch; apply vec_eq; vsimp; ring).
  - unfold pitched_panel. cbn [pN]. rewrite !pN_eq, pt_raw, pt_norm, pt_scale. reflexivity.
  - unfold pitched_panel. cbn [pA]. unfold panel_of_corners. cbn [pA].
    assert (X : pan_span (T P) (T Q) (T R) (T S) = T (pan_span P Q R S)) by (unfold pan_span, pitch; apply vec_eq; vsimp; ring).
    assert (Y : pan_chord (T P) (T Q) (T R) (T S) = T (pan_chord P Q R S)) by (unfold pan_chord, pitch; apply vec_eq; vsimp; ring).
    rewrite X, Y, !pt_norm. reflexivity.
Qed.
Lemma pt_make dir q ps pc i j : make_panel (T dir) (pitched_quad t q) ps pc i j = pitched_panel t (make_panel dir q ps pc i j).
Proof. unfold make_panel. rewrite !corner_surface, !pt_surface. apply pt_panel. Qed.
Lemma pt_lattice dir rows : lattice (T dir) (map (fun x => (pitched_quad t (fst x), snd x)) rows) = map (pitched_panel t) (lattice dir rows).
Proof.
  unfold lattice. rewrite IsoAircraft.flat_map_map, map_flat_map. apply flat_map_ext. intros [q [s c]]. cbn [fst snd]. unfold sub_panels. rewrite map_map.
  apply map_ext. intro k. apply pt_make.
Qed.

Variable geo : string -> string -> quad.
Variable camber : subarea_visit -> R -> R.
Definition tgeo (w s : string) : quad := pitched_quad t (geo w s).
Definition res_map {A B} (f : A -> B) (x : res A) : res B := match x with Ok a => Ok (f a) | Err e => Err e end.
Definition side_entry (e : entry) : Prop := e_mirror e = true -> w_symmetry (v_wing (e_visit e)) = 2%Z.

Lemma pt_strip q e : strip_quad (pitched_quad t q) e = pitched_quad t (strip_quad q e).
Proof. unfold strip_quad, pitched_quad. cbn [qa qb qc qd]. rewrite !pt_along. reflexivity. Qed.
Lemma pt_sub_quad q x : sub_quad (pitched_quad t q) x = pitched_quad t (sub_quad q x).
Proof. unfold sub_quad, pitched_quad. cbn [qa qb qc qd]. rewrite !pt_along. reflexivity. Qed.
Lemma pt_order q : quad_order XZ (quad_refl XZ (pitched_quad t q)) = pitched_quad t (quad_order XZ (quad_refl XZ q)).
Proof. unfold quad_order, quad_refl, order4, quad_of, pitched_quad. cbn [qa qb qc qd]. rewrite !pt_refl. reflexivity. Qed.
Lemma pt_vertices e : side_entry e -> entry_vertices tgeo e = res_map (pitched_quad t) (entry_vertices geo e).
Proof.
  intro S. unfold entry_vertices, v_quad, tgeo. destruct (e_mirror e) eqn:M.
  - rewrite (S M). change 2%Z with (plane_num XZ). rewrite !sub_mirror. cbn [res_map]. rewrite pt_strip, pt_order, pt_sub_quad. reflexivity.
  - rewrite !sub_plain. cbn [res_map]. rewrite pt_strip, pt_sub_quad. reflexivity.
Qed.
Lemma pt_hinge e : side_entry e -> entry_hinge tgeo e = res_map T (entry_hinge geo e).
Proof.
  intro S. unfold entry_hinge, hinge_axis, v_quad, tgeo. destruct (sa_hinge (v_sub (e_visit e))) as [[h1 h2]|]; [|reflexivity].
  destruct (e_mirror e) eqn:M.
  - rewrite (S M). change 2%Z with (plane_num XZ). rewrite !hinge_mirror. cbn [bind fst snd res_map]. rewrite pt_strip.
    unfold quad_refl. cbn [qa qb qc qd]. unfold pitched_quad at 1 2 3 4. cbn [qa qb qc qd]. rewrite !pt_refl, !pt_along, pt_sub. reflexivity.
  - rewrite !hinge_plain. cbn [bind fst snd res_map]. rewrite pt_strip. unfold pitched_quad. cbn [qa qb qc qd]. rewrite !pt_along, pt_sub. reflexivity.
Qed.
Lemma pt_camber_axis q : camber_axis (pitched_quad t q) = T (camber_axis q).
Proof.
  unfold camber_axis, pitched_quad. cbn [qa qb qc qd]. rewrite <- !pt_sub, !pt_cross, pt_norm, <- pt_scale, <- pt_add, <- pt_sub. reflexivity.
Qed.

Lemma upd_map n i f g : (forall x, g (T x) = T (f x)) -> upd (map T n) i g = res_map (map T) (upd n i f).
Proof.
  intro H. unfold upd. rewrite nth_error_map. destruct (nth_error n (Z.to_nat i)) as [x|]; [|reflexivity]. cbn [option_map res_map].
  rewrite H, map_app, firstn_map, skipn_map. reflexivity.
Qed.
Lemma upd_all_map l f g : (forall i x, g i (T x) = T (f i x)) -> forall n, upd_all (map T n) l g = res_map (map T) (upd_all n l f).
Proof.
  intro H. induction l as [|i l IH]; intro n; cbn [upd_all]; [reflexivity|]. rewrite (upd_map n i (f i) (g i) (H i)).
  destruct (upd n i (f i)) as [n'|]; cbn [res_map bind]; [apply IH|reflexivity].
Qed.
Lemma pt_deflect e n : side_entry e -> deflect tgeo e (map T n) = res_map (map T) (deflect geo e n).
Proof.
  intro S. unfold deflect. destruct (sa_ctrl _) as [c|]; [|reflexivity]. destruct (dget _ _) as [wc|]; [|reflexivity].
  rewrite pt_hinge by exact S. destruct (entry_hinge geo e) as [axis|]; cbn [bind res_map]; [|reflexivity].
  destruct (entry_deflection e wc) as [d|]; [|reflexivity]. destruct (truthy _); [|reflexivity].
  apply upd_all_map. intros _ x. symmetry. apply pt_rot.
Qed.
Lemma pt_camber_rot e n : side_entry e -> camber_rot tgeo camber e (map T n) = res_map (map T) (camber_rot geo camber e n).
Proof.
  intro S. unfold camber_rot. rewrite pt_vertices by exact S. destruct (entry_vertices geo e) as [sub|]; cbn [bind res_map]; [|reflexivity].
  apply upd_all_map. intros i x. destruct (truthy _); [|reflexivity]. rewrite pt_camber_axis. symmetry. apply pt_rot.
Qed.
Lemma pt_rotate_loop l : Forall side_entry l -> forall n, rotate_loop tgeo camber l (map T n) = res_map (map T) (rotate_loop geo camber l n).
Proof.
  induction 1 as [|e l S _ IH]; intro n; cbn [rotate_loop]; [reflexivity|]. rewrite pt_deflect by exact S.
  destruct (deflect geo e n) as [n1|]; cbn [bind res_map]; [|reflexivity]. rewrite pt_camber_rot by exact S.
  destruct (camber_rot geo camber e n1) as [n2|]; cbn [bind res_map]; [apply IH|reflexivity].
Qed.
Lemma pt_rows l : Forall side_entry l -> entry_rows tgeo l = res_map (map (fun x => (pitched_quad t (fst x), snd x))) (entry_rows geo l).
Proof.
  induction 1 as [|e l S _ IH]; cbn [entry_rows]; [reflexivity|]. rewrite pt_vertices by exact S.
  destruct (entry_vertices geo e) as [q|]; cbn [bind res_map]; [|reflexivity]. rewrite IH. destruct (entry_rows geo l); reflexivity.
Qed.

Lemma count_visits l : forall st r, count_loop st l = Ok r -> (forall e, In e (bk_list (c_book st)) -> side_entry e) ->
  (forall v, In v l -> (w_symmetry (v_wing v) = 0 \/ w_symmetry (v_wing v) = 2)%Z) -> forall e, In e (bk_list (c_book r)) -> side_entry e.
Proof.
  induction l as [|v l IH]; intros st r H A B; cbn [count_loop] in H; [injection H as <-; exact A|].
  unfold count_step in H. destruct (num_chordwise v) as [n|]; [|discriminate]. cbn [bind] in H.
  pose proof (B v (or_introl eq_refl)) as BV.
  destruct (Z.eqb_spec (w_symmetry (v_wing v)) 0) as [E|E]; cbn [bind] in H; (eapply IH; [exact H| |intros; apply B; right; assumption]);
    cbn [c_book]; rewrite !update_book_list; intros e I.
  - apply in_app_iff in I as [I|[<-|[]]]; [apply A; exact I|]. intro X. discriminate.
  - rewrite <- app_assoc in I. apply in_app_iff in I as [I|[<-|[<-|[]]]]; [apply A; exact I|intro X; discriminate|].
    intros _. cbn [e_visit]. destruct BV; [contradiction|assumption].
Qed.
Lemma side_visits a : side_mirrors a -> forall v, In v (all_subareas a) -> (w_symmetry (v_wing v) = 0 \/ w_symmetry (v_wing v) = 2)%Z.
Proof.
  intros H v I. destruct v as [[[[[na ka] v] [[nd kd] d]] [[ns ks] s]] [[nw kw] w]]. apply all_subareas_In in I.
  destruct I as (Iw & _). apply nth_error_In in Iw. exact (H _ _ Iw).
Qed.
Lemma pt_gen_lattice alpha beta a : side_mirrors a ->
  gen_lattice tgeo camber true (alpha + t) beta a =
  res_map (fun x => (map (pitched_panel t) (fst x), map T (snd x))) (gen_lattice geo camber true alpha beta a).
Proof.
  intro S. unfold gen_lattice. destruct (panel_count a) as [st|] eqn:E; cbn [bind res_map]; [|reflexivity].
  assert (F : Forall side_entry (bk_list (c_book st))).
  { apply Forall_forall. apply (count_visits _ _ _ E); [cbn; contradiction|]. apply side_visits. exact S. }
  rewrite pt_rows by exact F. destruct (entry_rows geo (bk_list (c_book st))) as [rows|]; cbn [bind res_map]; [|reflexivity].
  rewrite pt_trail, pt_lattice, map_map.
  replace (map (fun x => pN (pitched_panel t x)) (lattice (trail_dir alpha beta) rows)) with (map T (map pN (lattice (trail_dir alpha beta) rows)))
    by (rewrite map_map; reflexivity).
  rewrite pt_rotate_loop by exact F. destruct (rotate_loop geo camber _ _) as [n|]; reflexivity.
Qed.
End Pitch.

Lemma pitched_images t pans n : images 1 (pitch t) (fun i => i) (set_normals pans n) (set_normals (map (pitched_panel t) pans) (map (pitch t) n)).
Proof.
  assert (E : set_normals (map (pitched_panel t) pans) (map (pitch t) n) = map (pitched_panel t) (set_normals pans n)).
  { unfold set_normals. revert n. induction pans as [|p pans IH]; intros [|x n]; cbn [map combine]; try reflexivity. f_equal. apply IH. }
  rewrite E. split; [apply map_length|]. split; [auto|]. intros i p N. exists (pitched_panel t p). rewrite nth_error_map, N. split; [reflexivity|].
  do 3 (split; [reflexivity|]). right. do 4 (split; [reflexivity|]). cbn [pN pitched_panel]. apply vec_eq; vsimp; ring.
Qed.

(** ** No flow through the panels *)
Lemma zero_rsum {A} (h : A -> R) l : (forall x, In x l -> h x = 0) -> rsum (map h l) = 0.
Proof.
  induction l as [|x l IH]; intro H; [reflexivity|]. cbn [map]. rewrite rsum_cons, (H x (or_introl eq_refl)), IH; [ring|].
  intros y Y. apply H. right. exact Y.
Qed.
Lemma zero_vsum {A} (h : A -> vec) l : (forall x, In x l -> h x = vzero) -> vsum (map h l) = vzero.
Proof.
  induction l as [|x l IH]; intro H; [reflexivity|]. cbn [map vsum fold_right]. fold (vsum (map h l)). rewrite (H x (or_introl eq_refl)), IH.
  - apply vec_eq; vsimp; ring.
  - intros y Y. apply H. right. exact Y.
Qed.
Lemma in_zeros {A} (l : list A) m p x : In (p, x) (combine l (repeat 0 m)) -> x = 0.
Proof. intro I. apply in_combine_r, repeat_spec in I. exact I. Qed.

Lemma no_load eps lat s r g o : (forall p, In p lat -> vdot (onset s (r_CG r) (pC p)) (pN p) = 0) -> loads eps lat s r g o ->
  (forall x, In x g -> x = 0) /\ (forall pr, In pr (o_panels o) -> o_f pr = vzero /\ o_iw pr = vzero) /\ o_F o = vzero /\ o_M o = vzero /\
  c_D (o_co o) = 0 /\ c_C (o_co o) = 0 /\ c_L (o_co o) = 0.
Proof.
  intros Z (m & D & U & S & H).
  assert (ZS : solves m (boundary lat s r) (repeat 0 (List.length lat))).
  { apply (solves_iff eps lat s r _ m D). split; [apply repeat_length|]. intros p I. unfold tangent.
    rewrite zero_rsum.
    - rewrite vel_onset, vdot_scale_l, (Z p I). ring.
    - intros [q x] X. apply in_zeros in X. subst x. cbn [snd]. ring. }
  pose proof (U _ _ S ZS) as ->. clear S ZS U. split; [intros x X; apply repeat_spec in X; exact X|].
  destruct (vlm_results_inv _ _ _ _ _ _ H) as (-> & FA).
  assert (IZ : forall p, induced eps p (combine lat (repeat 0 (List.length lat))) = vzero).
  { intro p. unfold induced. apply zero_vsum. intros [q x] X. apply in_zeros in X. subst x. cbn [snd]. apply vec_eq; vsimp; ring. }
  assert (FZ : forall x, In x (combine lat (repeat 0 (List.length lat))) -> kj_force eps lat (repeat 0 (List.length lat)) s r (fst x) (snd x) = vzero).
  { intros [q x] X. apply in_zeros in X. subst x. cbn [fst snd]. unfold kj_force. apply vec_eq; vsimp; ring. }
  assert (F0 : o_F (results_val eps lat s r (repeat 0 (List.length lat))) = vzero) by (unfold results_val; cbn [o_F]; apply zero_vsum; exact FZ).
  split.
  { unfold results_val. cbn [o_panels]. intros pr I. apply in_map_iff in I as (x & <- & X). unfold loads_val. cbn [fst o_f o_iw]. rewrite IZ, FZ by exact X. auto. }
  split; [exact F0|]. split.
  { unfold results_val. cbn [o_M]. apply zero_vsum. intros x X. rewrite FZ by exact X. apply vec_eq; vsimp; ring. }
  rewrite (results_co _ _ _ _ _ _ H), F0. unfold vlm_coeffs. cbn [c_D c_C c_L]. unfold vzero. cbn [vx vy vz]. split; [ring|]. split; ring.
Qed.

(** Panels in planes parallel to the x-axis. *)
Lemma along_x_affine n c a b k : vdot n a = c -> vdot n b = c -> vdot n (along a b k) = c.
Proof. intros A B. transitivity ((1 - k) * vdot n a + k * vdot n b); [unfold along, vdot; vsimp; ring|rewrite A, B; ring]. Qed.
Definition in_pl (n : vec) (c : R) (q : quad) : Prop := vdot n (qa q) = c /\ vdot n (qb q) = c /\ vdot n (qc q) = c /\ vdot n (qd q) = c.
Lemma in_pl_strip n c q e : in_pl n c q -> in_pl n c (strip_quad q e).
Proof. intros (A & B & C & D). unfold strip_quad, in_pl. cbn [qa qb qc qd]. repeat split; apply along_x_affine; assumption. Qed.
Lemma in_pl_sub n c q x : in_pl n c q -> in_pl n c (sub_quad q x).
Proof. intros (A & B & C & D). unfold sub_quad, in_pl. cbn [qa qb qc qd]. repeat split; apply along_x_affine; assumption. Qed.
Lemma in_pl_order p n c q : in_pl n c q -> in_pl (refl p n) c (quad_order p (quad_refl p q)).
Proof.
  assert (E : forall v, vdot (refl p n) (refl p v) = vdot n v) by (intro v; unfold vdot; destruct p; vsimp; ring).
  intros (A & B & C & D). unfold in_pl, quad_order, quad_refl, quad_of, order4. destruct p; cbn [qa qb qc qd]; rewrite !E; auto.
Qed.
Lemma refl_x p n : vx n = 0 -> vx (refl p n) = 0.
Proof. intro H. destruct p; vsimp; lra. Qed.
Lemma refl_nz p n : n <> vzero -> refl p n <> vzero.
Proof. intros H E. apply H. destruct p; unfold vzero in *; injection E as E1 E2 E3; apply vec_eq; cbn [vx vy vz]; lra. Qed.
Lemma normal_x dir q n c k i j m : n <> vzero -> vx n = 0 -> in_pl n c q -> vx (pN (make_panel dir q k i j m)) = 0.
Proof.
  intros NZ NX (A & B & C & D). unfold make_panel. rewrite !corner_surface, pN_eq.
  assert (E : forall s h, vdot n (surface q s h) = c).
  { intros s h. unfold surface. repeat (apply along_x_affine; try assumption). }
  set (P := surface q _ _). set (Q := surface q _ _). set (R := surface q _ _). set (S := surface q _ _).
  assert (EP : vdot n P = c) by apply E. assert (EQ : vdot n Q = c) by apply E. assert (ER : vdot n R = c) by apply E. assert (ES : vdot n S = c) by apply E.
  clearbody P Q R S. clear E A B C D. set (kk := / vnorm _). clearbody kk. rewrite raw_eq.
  set (u := vsub (midpoint R S) (midpoint P Q)). set (v := vsub (along P S (3 / 4)) (along Q R (3 / 4))).
  assert (U : vdot n u = 0) by (unfold u, midpoint, along, vdot in *; vsimp; lra).
  assert (V : vdot n v = 0) by (unfold v, along, vdot in *; vsimp; lra).
  clearbody u v. unfold vdot in U, V. rewrite NX in U, V. vsimp.
  assert (W : vy u * vz v - vz u * vy v = 0).
  { destruct (Req_dec (vy n) 0) as [Y|Y].
    - assert (Z : vz n <> 0) by (intro Z; apply NZ; apply vec_eq; unfold vzero; cbn [vx vy vz]; assumption).
      rewrite Y in U, V. assert (vz u = 0) by nra. assert (vz v = 0) by nra. nra.
    - apply (Rmult_eq_reg_l (vy n)); [|exact Y].
      transitivity ((0 * vx u + vy n * vy u + vz n * vz u) * vz v - (0 * vx v + vy n * vy v + vz n * vz v) * vz u); [ring|rewrite U, V; ring]. }
  rewrite W. ring.
Qed.

Lemma no_load_aircraft geo camber a s r : panelled a -> counts_set a -> flags_ok a -> undeflected a -> (forall v x, camber v x = 0) ->
  (forall v, In v (all_subareas a) -> along_x (v_quad geo v)) ->
  f_alpha s = 0 -> f_beta s = 0 -> f_P s = 0 -> f_Q s = 0 -> f_R s = 0 ->
  exists pans n, gen_lattice geo camber true (f_alpha s) (f_beta s) a = Ok (pans, n) /\
  forall p, In p (set_normals pans n) -> vdot (onset s (r_CG r) (pC p)) (pN p) = 0.
Proof.
  intros P C FL U CZ AX A0 B0 P0 Q0 R0. destruct (normals_unchanged geo camber (f_alpha s) (f_beta s) a P C FL U CZ) as (pans0 & G0).
  destruct (final_normals geo camber (f_alpha s) (f_beta s) a P C FL) as (st & pans & n & E & G & L1 & L2 & H).
  rewrite G0 in G. injection G as -> <-. exists pans, (map pN pans). split; [exact G0|]. intros p I.
  destruct (panel_count_inv a P C) as (st' & E' & I1 & I2 & _). rewrite E in E'. injection E' as <-.
  apply In_nth_error in I as (k & K). pose proof (set_normals_nth_inv _ _ _ _ K) as KL.
  destruct (consecutive_unique _ 0 (c_p st) (Z.of_nat k) I1 ltac:(lia)) as (i & e & Ie & R & _). apply nth_error_In in Ie.
  destruct (H e (Z.of_nat k) Ie R) as (q & p0 & x & y & z & V & Ep & Np & Ex & _). rewrite Nat2Z.id in Np.
  assert (NP : p = set_normal p0 (pN p0)).
  { assert (X : nth_error (map pN pans) k = Some (pN p0)) by (rewrite nth_error_map, Np; reflexivity).
    rewrite (set_normals_nth _ _ _ _ _ Np X) in K. congruence. }
  assert (NX : vx (pN p) = 0).
  { rewrite NP. cbn [set_normal pN]. rewrite Ep.
    destruct (AX (e_visit e) (VlmAircraft.recorded_In _ _ _ I2 Ie)) as (nn & c & NZ & X0 & PL).
    pose proof (in_pl_strip nn c _ (v_etas (e_visit e)) PL) as PS. unfold entry_vertices in V. destruct (e_mirror e) eqn:M.
    - assert (W : exists pl, w_symmetry (v_wing (e_visit e)) = plane_num pl).
      { destruct (Forall_forall (entry_ok) (bk_list (c_book st))) as (FF & _). pose proof (panel_count_inv a P C) as (st2 & E2 & SI). rewrite E in E2. injection E2 as <-.
        destruct (FF (entries_ok a st P FL SI) e Ie) as (W & _). exact (W M). }
      destruct W as (pl & W). rewrite W, sub_mirror in V. injection V as <-.
      apply (normal_x _ _ (refl pl nn) c); [apply refl_nz; exact NZ|apply refl_x; exact X0|]. apply in_pl_sub, in_pl_order. exact PS.
    - rewrite sub_plain in V. injection V as <-. apply (normal_x _ _ nn c); [exact NZ|exact X0|]. apply in_pl_sub. exact PS. }
  unfold onset, wind, rates. rewrite A0, B0, P0, Q0, R0. unfold rad. replace (0 * PI / 180) with 0 by (unfold Rdiv; ring). rewrite cos_0, sin_0.
  unfold vdot. vsimp. rewrite NX. ring.
Qed.

Lemma image_by_of p p' : image_of p p' -> image_by (-1) mir p p'.
Proof.
  intros (A & B & C & H). split; [exact A|]. split; [exact B|]. split; [exact C|].
  destruct H as [(D & E & F & G & N)|(D & E & F & G & N)]; [left|right]; do 4 (split; [assumption|]); rewrite N; apply vec_eq; vsimp; ring.
Qed.
Lemma mirrored_aircraft_loads geo camber a eps s r : panelled a -> counts_set a -> flags_ok a -> camber_of_shape camber ->
  (forall v, In v (all_subareas a) -> symmetric_shape geo camber v) -> vy (r_CG r) = 0 -> vy (r_RP r) = 0 ->
  let s' := mirrored_flow s in
  exists pans n pans' n', gen_lattice geo camber true (f_alpha s) (f_beta s) a = Ok (pans, n) /\
    gen_lattice geo camber true (f_alpha s') (f_beta s') (mirrored_aircraft a) = Ok (pans', n') /\
    forall g o, loads eps (set_normals pans n) s r g o -> exists g' o', loads eps (set_normals pans' n') s' r g' o' /\
      o_F o' = mir (o_F o) /\ o_M o' = vscale (-1) (mir (o_M o)) /\
      let c := o_co o in let c' := o_co o' in
      c_CD c' = c_CD c /\ c_CL c' = c_CL c /\ c_Cm c' = c_Cm c /\
      opposite (c_CC c) (c_CC c') /\ opposite (c_Cl c) (c_Cl c') /\ opposite (c_Cn c) (c_Cn c').
Proof.
  intros P C FL CS SV CG RP s'. destruct (mirrored_lattice geo camber (f_alpha s) (f_beta s) a P C FL CS SV) as (pans & n & pans' & n' & sg & G & G' & IM).
  exists pans, n, pans', n'. split; [exact G|]. split; [exact G'|]. intros g o H.
  destruct (mirrored_loads eps _ _ sg s r g o IM H) as (g' & o' & H' & A & B & _ & CC). exists g', o'.
  assert (E : mirrored_refs r = r).
  { destruct r as [ra rs rc cg rp]. cbn [r_CG r_RP] in CG, RP. unfold mirrored_refs. cbn [r_area r_span r_chord r_CG r_RP].
    rewrite <- (mir_fix cg CG), <- (mir_fix rp RP). reflexivity. }
  rewrite E in H'. split; [exact H'|]. split; [exact A|]. split; [exact B|]. cbv zeta in CC |- *. tauto.
Qed.
Lemma pitched_aircraft_loads t geo camber a eps s r pans n g o : side_mirrors a ->
  gen_lattice geo camber true (f_alpha s) (f_beta s) a = Ok (pans, n) -> loads eps (set_normals pans n) s r g o ->
  f_P s = 0 -> f_Q s = 0 -> f_R s = 0 ->
  let s' := mkFlow (f_airspeed s) (f_rho s) (f_alpha s + t) (f_beta s) 0 0 0 in
  exists pans' n', gen_lattice (fun w s => pitched_quad t (geo w s)) camber true (f_alpha s') (f_beta s') a = Ok (pans', n') /\
    exists g' o', loads eps (set_normals pans' n') s' (pitched_refs t r) g' o' /\
    let c := o_co o in let c' := o_co o' in
    c_CD c' = c_CD c /\ c_CC c' = c_CC c /\ c_CL c' = c_CL c /\ c_Cm c' = c_Cm c.
Proof.
  intros S G H P Q R s'. exists (map (pitched_panel t) pans), (map (pitch t) n).
  split; [pose proof (pt_gen_lattice t geo camber (f_alpha s) (f_beta s) a S) as E; rewrite G in E; exact E|].
  destruct (pitched_loads t eps _ _ _ s r g o (pitched_images t pans n) H) as (g' & o' & H' & _ & _ & _ & CC). exists g', o'.
  assert (E : pitched_flow t s = s').
  { unfold pitched_flow, s', rates, pitch. rewrite P, Q, R. cbn [vx vy vz]. f_equal; ring. }
  rewrite E in H'. split; [exact H'|]. cbv zeta in CC |- *. tauto.
Qed.
Lemma flat_aircraft_loads geo camber a eps s r : panelled a -> counts_set a -> flags_ok a -> undeflected a -> (forall v x, camber v x = 0) ->
  (forall v, In v (all_subareas a) -> along_x (v_quad geo v)) ->
  f_alpha s = 0 -> f_beta s = 0 -> f_P s = 0 -> f_Q s = 0 -> f_R s = 0 ->
  exists pans n, gen_lattice geo camber true (f_alpha s) (f_beta s) a = Ok (pans, n) /\
  forall g o, loads eps (set_normals pans n) s r g o ->
    (forall x, In x g -> x = 0) /\ (forall pr, In pr (o_panels o) -> o_f pr = vzero) /\ o_F o = vzero /\ o_M o = vzero.
Proof.
  intros P C FL U CZ AX A B X Y Z. destruct (no_load_aircraft geo camber a s r P C FL U CZ AX A B X Y Z) as (pans & n & G & N).
  exists pans, n. split; [exact G|]. intros g o H. destruct (no_load _ _ _ _ _ _ N H) as (H1 & H2 & H3 & H4 & _).
  split; [exact H1|]. split; [intros pr I; apply (H2 pr I)|]. split; assumption.
Qed.
Ltac discriminate_vec := let E := fresh in intro E; unfold vzero in E; injection E; intros; lra.
