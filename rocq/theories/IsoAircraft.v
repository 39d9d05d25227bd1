(** Mirrored and turned aircraft (C98-C100). *)
From Coq Require Import Reals List ZArith String QArith Qreals Lra Lia.
From Verif Require Import PyBase Vec StripModel AircraftModel LatticeModel LatticeSpec PanelModel GeomModel GeomSpec
  NormalModel NormalSpec LatticeProofs GeomProofs MirrorProofs RotProofs NormalProofs VlmModel VlmSpec VlmProofs VlmLaws VlmSymmetry VlmAircraft
  IsoSpec IsoProofs.
Import ListNotations.
Open Scope R_scope.

(** ** The aircraft with mirrored control settings *)
Definition mv (v : subarea_visit) : subarea_visit := (fst v, (fst (snd v), mirrored_wing (snd (snd v)))).
Definition me (e : entry) : entry := mkEntry (mv (e_visit e)) (e_lo e) (e_hi e) (e_num_c e) (e_mirror e).

Lemma enum_from_map {A B} (f : A -> B) l : forall i, enum_from i (map f l) = map (fun p => (fst p, f (snd p))) (enum_from i l).
Proof. induction l as [|x l IH]; intro i; cbn [enum_from map fst snd]; [reflexivity|]. rewrite IH. reflexivity. Qed.
Lemma items_map {K V} (f : V -> V) (l : list (K * V)) : items (map (fun x => (fst x, f (snd x))) l) = map (fun p => (fst p, f (snd p))) (items l).
Proof. unfold items, enum. rewrite enum_from_map, !map_map. reflexivity. Qed.
Lemma flat_map_map {A B C} (f : B -> list C) (g : A -> B) l : flat_map f (map g l) = flat_map (fun x => f (g x)) l.
Proof. induction l as [|x l IH]; cbn [map flat_map]; [reflexivity|]. rewrite IH. reflexivity. Qed.
Lemma map_flat_map {A B C} (f : B -> C) (g : A -> list B) l : map f (flat_map g l) = flat_map (fun x => map f (g x)) l.
Proof. induction l as [|x l IH]; cbn [map flat_map]; [reflexivity|]. rewrite map_app, IH. reflexivity. Qed.

Definition mw (x : item string wing) : item string wing := (fst x, mirrored_wing (snd x)).
Lemma mirrored_segments a : all_segments (mirrored_aircraft a) = map (fun x => (fst x, mw (snd x))) (all_segments a).
Proof.
  unfold all_segments, all_wings. cbn [mirrored_aircraft a_wings]. rewrite items_map, flat_map_map, map_flat_map.
  apply flat_map_ext. intro x. rewrite map_map. reflexivity.
Qed.
Lemma mirrored_subdivisions a : all_subdivisions (mirrored_aircraft a) = map (fun x => (fst x, mw (snd x))) (all_subdivisions a).
Proof.
  unfold all_subdivisions. rewrite mirrored_segments, flat_map_map, map_flat_map. apply flat_map_ext. intro x. rewrite map_map. reflexivity.
Qed.
Lemma mirrored_subareas a : all_subareas (mirrored_aircraft a) = map mv (all_subareas a).
Proof.
  unfold all_subareas. rewrite mirrored_subdivisions, flat_map_map, map_flat_map. apply flat_map_ext. intro x. rewrite map_map. reflexivity.
Qed.

Lemma dget_map {V W} (f : V -> W) (d : dict V) k : dget (map (fun x => (fst x, f (snd x))) d) k = option_map f (dget d k).
Proof. induction d as [|[k' v] d IH]; cbn [dget map fst snd]; [reflexivity|]. destruct (String.eqb k k'); [reflexivity|exact IH]. Qed.
Lemma mv_sub v : v_sub (mv v) = v_sub v.
Proof. destruct v as [[[x y] z] [[i k] w]]. reflexivity. Qed.
Lemma mv_seg v : v_seg (mv v) = v_seg v.
Proof. destruct v as [[[x y] z] [[i k] w]]. reflexivity. Qed.
Lemma mv_wing v : v_wing (mv v) = mirrored_wing (v_wing v).
Proof. destruct v as [[[x y] z] [[i k] w]]. reflexivity. Qed.
Lemma mv_etas v : v_etas (mv v) = v_etas v.
Proof. destruct v as [[[x y] z] [[i k] w]]. reflexivity. Qed.
Lemma mv_xsis v : v_xsis (mv v) = v_xsis v.
Proof. destruct v as [[[x y] z] [[i k] w]]. reflexivity. Qed.
Lemma mv_quad geo v : v_quad geo (mv v) = v_quad geo v.
Proof. destruct v as [[[x y] z] [[i k] w]]. reflexivity. Qed.
Lemma mv_chordwise v : num_chordwise (mv v) = num_chordwise v.
Proof.
  unfold num_chordwise. rewrite mv_sub, mv_seg, mv_wing. cbn [mirrored_wing w_ctls]. destruct (sa_ctrl (v_sub v)) as [c|]; [|reflexivity].
  rewrite dget_map. destruct (dget (w_ctls (v_wing v)) (ct_uid c)); reflexivity.
Qed.

Definition same_count (st st' : cnt) : Prop := c_p st' = c_p st /\ bk_list (c_book st') = map me (bk_list (c_book st)).
Lemma mirrored_count l : forall st st' r, same_count st st' -> count_loop st l = Ok r ->
  exists r', count_loop st' (map mv l) = Ok r' /\ same_count r r'.
Proof.
  induction l as [|v l IH]; intros st st' r (P & B) H; cbn [map count_loop] in *.
  - injection H as <-. exists st'. split; [reflexivity|split; assumption].
  - unfold count_step in *. rewrite mv_chordwise, mv_wing. destruct (num_chordwise v) as [n|]; [|discriminate]. cbn [bind] in *.
    cbn [mirrored_wing w_symmetry]. destruct (Z.eqb (w_symmetry (v_wing v)) 0); cbn [bind] in *;
      (eapply IH; [|exact H]); (split; [cbn [c_p]; rewrite P; reflexivity|]); cbn [c_book]; rewrite !update_book_list, B, !map_app, P; reflexivity.
Qed.
Lemma mirrored_panelled a : panelled a -> panelled (mirrored_aircraft a).
Proof.
  intros H wn w sn s I J. cbn [mirrored_aircraft a_wings] in I. apply in_map_iff in I as ([wn0 w0] & E & I). injection E as <- <-.
  cbn [mirrored_wing w_segs w_ctls] in *. destruct (H _ _ _ _ I J) as (A & B). split; [exact A|]. intros st k v c S V C. destruct (B st k v c S V C) as (wc & G).
  cbn [snd]. rewrite dget_map, G. eexists. reflexivity.
Qed.
Lemma mirrored_counts a : counts_set a -> counts_set (mirrored_aircraft a).
Proof.
  intros H wn w I. cbn [mirrored_aircraft a_wings] in I. apply in_map_iff in I as ([wn0 w0] & E & I). injection E as <- <-.
  destruct (H _ _ I) as (A & B). cbn [snd mirrored_wing w_segs w_ctls]. split; [exact A|]. intros cn c J. apply in_map_iff in J as ([cn0 c0] & E & J). injection E as <- <-.
  exact (B _ _ J).
Qed.
Lemma mirrored_flags a : flags_ok a -> flags_ok (mirrored_aircraft a).
Proof.
  intros H wn w I. cbn [mirrored_aircraft a_wings] in I. apply in_map_iff in I as ([wn0 w0] & E & I). injection E as <- <-. exact (H _ _ I).
Qed.

(** ** Rotations of single panels *)
Lemma vertices_me geo e : entry_vertices geo (me e) = entry_vertices geo e.
Proof. unfold entry_vertices. cbn [me e_visit e_mirror]. rewrite mv_quad, mv_etas, mv_xsis, mv_wing. reflexivity. Qed.
Lemma camber_mv camber v y : camber_of_shape camber -> camber (mv v) y = camber v y.
Proof. intro H. destruct v as [[[x u] z] [[i k] w]]. apply H. Qed.
Lemma cam_me geo camber e k x : camber_of_shape camber -> cam_f geo camber (me e) k x = cam_f geo camber e k x.
Proof. intro H. unfold cam_f. rewrite vertices_me. cbn [me e_visit e_num_c]. rewrite mv_xsis, camber_mv by exact H. reflexivity. Qed.
Lemma hinge_me geo e : entry_hinge geo (me e) = entry_hinge geo e.
Proof. unfold entry_hinge. cbn [me e_visit e_mirror]. rewrite mv_sub, mv_quad, mv_etas, mv_wing. reflexivity. Qed.

Lemma refl_refl v : refl XZ (refl XZ v) = v.
Proof. apply vec_eq; vsimp; ring. Qed.
Lemma hinge_pair geo e e' : e_visit e' = e_visit e -> e_mirror e = false -> e_mirror e' = true -> w_symmetry (v_wing (e_visit e)) = 2%Z ->
  entry_hinge geo e' = bind (entry_hinge geo e) (fun a => Ok (vscale (-1) (refl XZ a))).
Proof.
  intros EV EM EM' SY. unfold entry_hinge, hinge_axis. rewrite EV, EM, EM', SY. destruct (sa_hinge (v_sub (e_visit e))) as [[h1 h2]|]; [|reflexivity].
  rewrite hinge_plain. change 2%Z with (plane_num XZ). rewrite hinge_mirror. cbn [bind fst snd]. f_equal.
  unfold quad_refl. cbn [qa qb qc qd]. rewrite <- !refl_along. apply vec_eq; vsimp; ring.
Qed.
Lemma defl_cases geo e x : defl_f geo e x =
  match sa_ctrl (v_sub (e_visit e)) with
  | None => x
  | Some c => match dget (w_ctls (v_wing (e_visit e))) (ct_uid c) with
              | None => x
              | Some wc => match entry_hinge geo e, entry_deflection e wc with
                           | Ok axis, Some d => if truthy (Q2R d) then rot axis (deg2rad (Q2R d)) x else x
                           | _, _ => x
                           end
              end
  end.
Proof. reflexivity. Qed.
Lemma defl_pair geo e e' x : e_visit e' = e_visit e -> e_mirror e = false -> e_mirror e' = true -> w_symmetry (v_wing (e_visit e)) = 2%Z ->
  defl_f geo (me e') (refl XZ x) = refl XZ (defl_f geo e x) /\ defl_f geo (me e) (refl XZ x) = refl XZ (defl_f geo e' x).
Proof.
  intros EV EM EM' SY. rewrite !defl_cases, !hinge_me, (hinge_pair geo e e' EV EM EM' SY). unfold entry_deflection. cbn [me e_visit e_mirror].
  rewrite !mv_sub, !mv_wing, EV, EM, EM'. destruct (sa_ctrl (v_sub (e_visit e))) as [c|]; [|split; reflexivity].
  cbn [mirrored_wing w_ctls]. rewrite dget_map. destruct (dget (w_ctls (v_wing (e_visit e))) (ct_uid c)) as [wc|]; cbn [option_map]; [|split; reflexivity].
  unfold mirrored_control. rewrite SY. cbn [Z.eqb wc_deflection wc_deflection_mirror].
  destruct (entry_hinge geo e) as [axis|]; cbn [bind]; [|split; reflexivity]. split.
  - destruct (wc_deflection wc) as [d|]; [|reflexivity]. destruct (truthy (Q2R d)); [|reflexivity]. symmetry. apply rot_refl.
  - destruct (wc_deflection_mirror wc) as [d|]; [|reflexivity]. destruct (truthy (Q2R d)); [|reflexivity]. rewrite rot_refl.
    f_equal. apply vec_eq; vsimp; ring.
Qed.
Lemma rot_odd axis th x : rot axis th (vscale (-1) x) = vscale (-1) (rot axis th x).
Proof. unfold rot, vdot. apply vec_eq; vsimp; ring. Qed.
Lemma rot_neg axis th x : vy axis = 0 -> rot axis (- th) (refl XZ x) = refl XZ (rot axis th x).
Proof.
  intro A. rewrite rot_refl. unfold rot. rewrite cos_neg, sin_neg.
  assert (E : vscale (-1) (refl XZ axis) = vscale (-1) axis) by (apply vec_eq; vsimp; lra). rewrite E, vnorm_scale, Rabs_left by lra.
  replace (- (-1) * vnorm axis) with (vnorm axis) by ring. unfold vdot. apply vec_eq; vsimp; ring.
Qed.
Lemma Q2R_opp_deg d : deg2rad (Q2R (- d)) = - deg2rad (Q2R d).
Proof. rewrite Q2R_opp. unfold deg2rad. ring. Qed.
Lemma truthy_opp x : truthy (- x) = truthy x.
Proof. unfold truthy. destruct (Req_EM_T x 0), (Req_EM_T (- x) 0); try reflexivity; exfalso; lra. Qed.
Lemma defl_plane geo e x : e_mirror e = false -> w_symmetry (v_wing (e_visit e)) = 0%Z ->
  (let q := v_quad geo (e_visit e) in vy (qa q) = 0 /\ vy (qb q) = 0 /\ vy (qc q) = 0 /\ vy (qd q) = 0) ->
  defl_f geo (me e) (vscale (-1) (refl XZ x)) = vscale (-1) (refl XZ (defl_f geo e x)).
Proof.
  intros EM SY (A & B & C & D). rewrite !defl_cases, hinge_me. unfold entry_deflection, entry_hinge, hinge_axis. cbn [me e_visit e_mirror].
  rewrite !mv_sub, !mv_wing, EM. destruct (sa_ctrl (v_sub (e_visit e))) as [c|]; [|reflexivity].
  cbn [mirrored_wing w_ctls]. rewrite dget_map. destruct (dget (w_ctls (v_wing (e_visit e))) (ct_uid c)) as [wc|]; cbn [option_map]; [|reflexivity].
  unfold mirrored_control. rewrite SY. cbn [Z.eqb wc_deflection]. destruct (sa_hinge (v_sub (e_visit e))) as [[h1 h2]|]; [|reflexivity].
  rewrite hinge_plain. cbn [bind fst snd]. set (axis := vsub _ _).
  assert (AX : vy axis = 0).
  { unfold axis, strip_quad, along. cbn [qa qb qc qd]. vsimp. rewrite A, B, C, D. ring. }
  clearbody axis. destruct (wc_deflection wc) as [d|]; cbn [option_map]; [|reflexivity].
  rewrite Q2R_opp, truthy_opp. destruct (truthy (Q2R d)); [|reflexivity]. rewrite <- Q2R_opp, Q2R_opp_deg, rot_odd, rot_neg by exact AX. reflexivity.
Qed.

(** ** Mirrored panels *)
Lemma trail_dir_opp alpha beta : trail_dir alpha (- beta) = refl XZ (trail_dir alpha beta).
Proof.
  unfold trail_dir, freestream_direction, deg2rad. replace (- beta * (PI / 180)) with (- (beta * (PI / 180))) by ring. rewrite sin_neg, cos_neg.
  apply vec_eq; vsimp; ring.
Qed.
Lemma mirrored_panel_trail dir q n i : (1 <= n)%Z ->
  let p := make_panel dir q 1 n i 0 in
  let p' := make_panel (refl XZ dir) (quad_order XZ (quad_refl XZ q)) 1 n i 0 in
  pV1 p' = mir (pV4 p) /\ pV2 p' = mir (pV3 p) /\ pV3 p' = mir (pV2 p) /\ pV4 p' = mir (pV1 p) /\
  pC p' = mir (pC p) /\ pB p' = mir (pB p) /\ pN p' = mir (pN p) /\ pA p' = pA p.
Proof.
  intro Hn. cbv zeta. unfold make_panel. rewrite !corner_surface.
  assert (E : forall s c, surface (quad_order XZ (quad_refl XZ q)) s c = refl XZ (surface q (1 - s) c)).
  { intros s c. rewrite <- surface_refl, <- (surface_order XZ (quad_refl XZ q) (1 - s) c). cbn [par_s par_c].
    replace (1 - (1 - s)) with s by ring. reflexivity. }
  rewrite !E.
  replace (1 - 1 / 1 * 0) with (1 / 1 * (0 + 1)) by field. replace (1 - 1 / 1 * (0 + 1)) with (1 / 1 * 0) by field.
  apply panel_xz.
Qed.
Lemma plane_panel_trail dir q n i : in_xz (qa q) -> in_xz (qb q) -> in_xz (qc q) -> in_xz (qd q) ->
  let p := make_panel dir q 1 n i 0 in let p' := make_panel (refl XZ dir) q 1 n i 0 in
  pV1 p' = mir (pV1 p) /\ pV2 p' = mir (pV2 p) /\ pV3 p' = mir (pV3 p) /\ pV4 p' = mir (pV4 p) /\
  pC p' = mir (pC p) /\ pB p' = mir (pB p) /\ pN p' = vscale (-1) (mir (pN p)) /\ pA p' = pA p.
Proof.
  intros A B C D. cbv zeta. unfold make_panel. rewrite !corner_surface.
  assert (E : forall s c, vy (surface q s c) = 0).
  { intros s c. unfold surface, along, in_xz in *. vsimp. rewrite A, B, C, D. ring. }
  set (P := surface q _ _). set (Q := surface q _ _). set (R := surface q _ _). set (S := surface q _ _).
  assert (EP : vy P = 0) by apply E. assert (EQ : vy Q = 0) by apply E. assert (ER : vy R = 0) by apply E. assert (ES : vy S = 0) by apply E.
  clearbody P Q R S. clear E. rewrite !pN_eq.
  assert (RAW : vscale (/ vnorm (raw P Q R S)) (raw P Q R S) = vscale (-1) (mir (vscale (/ vnorm (raw P Q R S)) (raw P Q R S)))).
  { set (k := / vnorm (raw P Q R S)). clearbody k. rewrite raw_eq. unfold mir, midpoint, along. apply vec_eq; vsimp; rewrite ?EP, ?EQ, ?ER, ?ES; field. }
  split; [|split; [|split; [|split; [|split; [|split; [|split; [exact RAW|reflexivity]]]]]]];
    unfold panel_of_corners, mir; apply vec_eq; vsimp; rewrite ?EP, ?EQ, ?ER, ?ES; ring.
Qed.
Lemma order_refl_twice q : quad_order XZ (quad_refl XZ (quad_order XZ (quad_refl XZ q))) = q.
Proof. destruct q as [a b c d]. unfold quad_order, quad_refl, order4, quad_of. cbn [qa qb qc qd]. rewrite !refl_refl. reflexivity. Qed.

Lemma mirrored_lattice geo camber alpha beta a : panelled a -> counts_set a -> flags_ok a -> camber_of_shape camber ->
  (forall v, In v (all_subareas a) -> symmetric_shape geo camber v) ->
  exists pans n pans' n' sg, gen_lattice geo camber true alpha beta a = Ok (pans, n) /\
    gen_lattice geo camber true alpha (- beta) (mirrored_aircraft a) = Ok (pans', n') /\
    images (-1) mir sg (set_normals pans n) (set_normals pans' n').
Proof.
  intros P C FL CS SV. destruct (final_normals geo camber alpha beta a P C FL) as (st & pans & n & E & G & L1 & L2 & H).
  destruct (final_normals geo camber alpha (- beta) (mirrored_aircraft a) (mirrored_panelled a P) (mirrored_counts a C) (mirrored_flags a FL))
    as (st' & pans' & n' & E' & G' & L1' & L2' & H').
  destruct (panel_count_inv a P C) as (st0 & E0 & I1 & I2 & _ & _ & I5 & _). rewrite E in E0. injection E0 as <-.
  assert (SC : same_count st st').
  { unfold panel_count in E, E'. rewrite mirrored_subareas in E'.
    destruct (mirrored_count (all_subareas a) (mkCnt 0 0 0 clean_book) (mkCnt 0 0 0 clean_book) st) as (r' & X & Y); [split; reflexivity|exact E|].
    rewrite E' in X. injection X as ->. exact Y. }
  destruct SC as (SP & SB). rewrite SB in H'. rewrite SP in L1', L2'.
  assert (H2 : forall e i, In e (bk_list (c_book st)) -> (e_lo e <= i < e_hi e)%Z ->
    exists q p x y z, entry_vertices geo e = Ok q /\ p = make_panel (trail_dir alpha (- beta)) q 1 (e_num_c e) (i - e_lo e) 0 /\
      nth_error pans' (Z.to_nat i) = Some p /\ x = pN p /\ nth_error n' (Z.to_nat i) = Some z /\
      y = defl_f geo (me e) x /\ z = cam_f geo camber e (i - e_lo e) y).
  { intros e i I R. destruct (H' (me e) i (in_map me _ _ I) R) as (q & p & x & y & z & V & Ep & Np & Ex & _ & _ & Nz & Ey & Ez).
    rewrite vertices_me in V. rewrite cam_me in Ez by exact CS. exists q, p, x, y, z. repeat (split; [assumption|]). exact Ez. }
  clear H'.
  destruct (pairing _ _ I2 _ _ I1 (fun e I => proj1 (I5 e I))) as (sg & SG).
  assert (PAIR : forall e e' k, In e (bk_list (c_book st)) -> In e' (bk_list (c_book st)) -> has_symmetry (e_visit e) ->
    e_visit e' = e_visit e -> e_mirror e = false -> e_mirror e' = true -> (0 <= k < e_num_c e)%Z ->
    (exists p p', nth_error (set_normals pans n) (Z.to_nat (e_lo e + k)) = Some p /\
      nth_error (set_normals pans' n') (Z.to_nat (e_lo e' + k)) = Some p' /\ image_by (-1) mir p p') /\
    (exists p p', nth_error (set_normals pans n) (Z.to_nat (e_lo e' + k)) = Some p /\
      nth_error (set_normals pans' n') (Z.to_nat (e_lo e + k)) = Some p' /\ image_by (-1) mir p p')).
  { intros e e' k Ie Ie' HS EV EM EM' K.
    destruct (SV (e_visit e) (VlmAircraft.recorded_In _ _ _ I2 Ie)) as [(SY & PC)|(SY & _)]; [|unfold has_symmetry in HS; congruence].
    destruct (I5 e Ie) as (H1 & N1 & R1 & _). destruct (I5 e' Ie') as (H1' & N1' & R1' & _).
    assert (EN : e_num_c e' = e_num_c e) by (rewrite EV in R1'; exact (right_count_unique _ _ _ R1' R1)).
    destruct (H e (e_lo e + k)%Z Ie ltac:(lia)) as (q & p & x & y & z & V & Ep & Np & Ex & _ & _ & Nz & Ey & Ez).
    destruct (H e' (e_lo e' + k)%Z Ie' ltac:(lia)) as (q' & p' & x' & y' & z' & V' & Ep' & Np' & Ex' & _ & _ & Nz' & Ey' & Ez').
    destruct (H2 e (e_lo e + k)%Z Ie ltac:(lia)) as (r & u & a1 & a2 & a3 & W & Eu & Nu & Ea1 & Na3 & Ea2 & Ea3).
    destruct (H2 e' (e_lo e' + k)%Z Ie' ltac:(lia)) as (r' & u' & b1 & b2 & b3 & W' & Eu' & Nu' & Eb1 & Nb3 & Eb2 & Eb3).
    replace (e_lo e + k - e_lo e)%Z with k in * by lia. replace (e_lo e' + k - e_lo e')%Z with k in * by lia.
    assert (PC' : parallel_chords q \/ (forall y, camber (e_visit e) y = 0)).
    { apply PC. unfold entry_vertices in V. rewrite EM, SY in V. exact V. }
    assert (Q : q' = quad_order XZ (quad_refl XZ q)).
    { pose proof V as X. pose proof V' as X'. revert X X'. unfold entry_vertices. rewrite EV, EM, EM', SY, sub_plain.
      change 2%Z with (plane_num XZ). rewrite sub_mirror, sub_mirror_12 by discriminate. intros X X'.
      injection X as <-. injection X' as <-. reflexivity. }
    rewrite V in W. injection W as <-. rewrite V' in W'. injection W' as <-.
    assert (CM : forall y, cam_f geo camber e' k (refl XZ y) = refl XZ (cam_f geo camber e k y))
      by (intro w; apply (cam_f_mirror geo camber e e' EV EM EM' EN SY k _ q V PC')).
    assert (CM' : forall y, cam_f geo camber e k (refl XZ y) = refl XZ (cam_f geo camber e' k y))
      by (intro w; rewrite <- (refl_refl w) at 2; rewrite CM, refl_refl; reflexivity).
    destruct (defl_pair geo e e' x EV EM EM' SY) as (D1 & _). destruct (defl_pair geo e e' x' EV EM EM' SY) as (_ & D2).
    rewrite trail_dir_opp in Eu, Eu'. rewrite EN in Ep', Eu'. split.
    - destruct (mirrored_panel_trail (trail_dir alpha beta) q (e_num_c e) k N1) as (A1 & A2 & A3 & A4 & A5 & A6 & A7 & A8).
      rewrite <- Q, <- Ep, <- Eu' in A1, A2, A3, A4, A5, A6, A7, A8.
      exists (set_normal p z), (set_normal u' b3). split; [apply set_normals_nth; assumption|]. split; [apply set_normals_nth; assumption|].
      assert (ZM : b3 = refl XZ z).
      { change (mir (pN p)) with (refl XZ (pN p)) in A7. rewrite Eb3, Eb2, Eb1, A7, <- Ex, D1, CM, Ez, Ey. reflexivity. }
      split; [exact A5|]. split; [exact A6|]. split; [exact A8|]. left. cbn [set_normal pV1 pV2 pV3 pV4 pN].
      do 4 (split; [assumption|]). rewrite ZM. unfold mir. apply vec_eq; vsimp; ring.
    - destruct (mirrored_panel_trail (trail_dir alpha beta) q' (e_num_c e) k N1) as (A1 & A2 & A3 & A4 & A5 & A6 & A7 & A8).
      replace (quad_order XZ (quad_refl XZ q')) with q in A1, A2, A3, A4, A5, A6, A7, A8 by (rewrite Q, order_refl_twice; reflexivity).
      rewrite <- Ep', <- Eu in A1, A2, A3, A4, A5, A6, A7, A8.
      exists (set_normal p' z'), (set_normal u a3). split; [apply set_normals_nth; assumption|]. split; [apply set_normals_nth; assumption|].
      assert (ZM : a3 = refl XZ z').
      { change (mir (pN p')) with (refl XZ (pN p')) in A7. rewrite Ea3, Ea2, Ea1, A7, <- Ex', D2, CM', Ez', Ey'. reflexivity. }
      split; [exact A5|]. split; [exact A6|]. split; [exact A8|]. left. cbn [set_normal pV1 pV2 pV3 pV4 pN].
      do 4 (split; [assumption|]). rewrite ZM. unfold mir. apply vec_eq; vsimp; ring. }
  exists pans, n, pans', n', (fun i => Z.to_nat (sg (Z.of_nat i))). split; [exact G|]. split; [exact G'|].
  assert (LL : List.length (set_normals pans n) = List.length pans) by (unfold set_normals; rewrite map_length, combine_length; lia).
  assert (LL' : List.length (set_normals pans' n') = List.length pans) by (unfold set_normals; rewrite map_length, combine_length; lia).
  split; [congruence|]. split.
  { intros i j I J EQ. rewrite LL in I, J. destruct (SG (Z.of_nat i)) as (S1 & S2 & _); [lia|]. destruct (SG (Z.of_nat j)) as (S1' & S2' & _); [lia|].
    assert (X : sg (Z.of_nat i) = sg (Z.of_nat j)) by lia. rewrite X, S2' in S2. lia. }
  intros i p N. pose proof (set_normals_nth_inv _ _ _ _ N) as I.
  destruct (SG (Z.of_nat i)) as (S1 & S2 & S3); [lia|].
  destruct S3 as [(e & Ie & R & NS & EM & J)|(e & e' & k & Ie & Ie' & HS & EV & EM & EM' & K & J)].
  - rewrite J, Nat2Z.id.
    destruct (SV (e_visit e) (VlmAircraft.recorded_In _ _ _ I2 Ie)) as [(SY & _)|(SY & XA & XB & XC & XD & NC)].
    { exfalso. apply NS. unfold has_symmetry. rewrite SY. discriminate. }
    destruct (H e (Z.of_nat i) Ie R) as (q & p0 & x & y & z & V & Ep & Np & Ex & _ & _ & Nz & Ey & Ez).
    destruct (H2 e (Z.of_nat i) Ie R) as (r & u & a1 & a2 & a3 & W & Eu & Nu & Ea1 & Na3 & Ea2 & Ea3).
    rewrite Nat2Z.id in Np, Nz, Nu, Na3. rewrite (set_normals_nth _ _ _ _ _ Np Nz) in N. injection N as <-.
    exists (set_normal u a3). split; [apply set_normals_nth; assumption|].
    rewrite V in W. injection W as <-. rewrite trail_dir_opp in Eu.
    pose proof V as V0. unfold entry_vertices in V0. rewrite EM, sub_plain in V0. injection V0 as V0.
    destruct (plane_sub (v_quad geo (e_visit e)) (v_etas (e_visit e)) (v_xsis (e_visit e)) XA XB XC XD) as (Y1 & Y2 & Y3 & Y4).
    rewrite V0 in Y1, Y2, Y3, Y4.
    destruct (plane_panel_trail (trail_dir alpha beta) q (e_num_c e) (Z.of_nat i - e_lo e) Y1 Y2 Y3 Y4) as (A1 & A2 & A3 & A4 & A5 & A6 & A7 & A8).
    rewrite <- Ep, <- Eu in A1, A2, A3, A4, A5, A6, A7, A8.
    assert (CZ : forall y, cam_f geo camber e (Z.of_nat i - e_lo e) y = y).
    { intro w. unfold cam_f. rewrite V, NC, deg2rad_zero. unfold truthy. destruct (Req_EM_T 0 0); [reflexivity|contradiction]. }
    split; [exact A5|]. split; [exact A6|]. split; [exact A8|]. right. cbn [set_normal pV1 pV2 pV3 pV4 pN].
    do 4 (split; [assumption|]). rewrite Ea3, CZ, Ea2, Ea1, A7, Ez, CZ, Ey, <- Ex.
    apply (defl_plane geo e x EM SY). auto.
  - destruct (PAIR e e' k Ie Ie' HS EV EM EM' K) as ((p1 & p2 & N1 & N2 & IM) & (p3 & p4 & N3 & N4 & IM')).
    destruct J as [(J1 & J2)|(J1 & J2)]; rewrite J2.
    + rewrite <- J1, Nat2Z.id, N in N1. injection N1 as <-. exists p2. auto.
    + rewrite <- J1, Nat2Z.id, N in N3. injection N3 as <-. exists p4. auto.
Qed.
