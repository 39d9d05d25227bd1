(** The lattice of a symmetric aircraft is symmetric (C24). *)
From Coq Require Import Reals List ZArith String QArith Qreals Lra Lia.
From Verif Require Import PyBase Vec StripModel AircraftModel LatticeModel LatticeSpec PanelModel GeomModel GeomSpec
  NormalModel NormalSpec LatticeProofs GeomProofs MirrorProofs NormalProofs VlmModel VlmSpec VlmProofs VlmLaws VlmSymmetry.
Import ListNotations.
Open Scope R_scope.

Definition in_xz (v : vec) : Prop := vy v = 0.

(** A subarea fits a symmetric aircraft: it is on a wing mirrored at the xz-plane with equal
    deflections on both sides, and it has parallel chords or no camber; or it lies in the
    xz-plane, on an unmirrored wing without deflection and camber. *)
Definition symmetric_visit (geo : string -> string -> quad) (camber : subarea_visit -> R -> R) (v : subarea_visit) : Prop :=
  (w_symmetry (v_wing v) = 2%Z /\
   (forall c wc, sa_ctrl (v_sub v) = Some c -> dget (w_ctls (v_wing v)) (ct_uid c) = Some wc -> same_deflection wc) /\
   (forall q, subarea_vertices (v_quad geo v) (v_etas v) (v_xsis v) false 2 = Ok q ->
      parallel_chords q \/ forall y, camber v y = 0)) \/
  (w_symmetry (v_wing v) = 0%Z /\
   in_xz (qa (v_quad geo v)) /\ in_xz (qb (v_quad geo v)) /\ in_xz (qc (v_quad geo v)) /\ in_xz (qd (v_quad geo v)) /\
   (forall c wc d, sa_ctrl (v_sub v) = Some c -> dget (w_ctls (v_wing v)) (ct_uid c) = Some wc -> wc_deflection wc = Some d -> (d == 0)%Q) /\
   forall y, camber v y = 0).

(** ** Pairing of the panel numbers *)
Definition paired (es : list entry) (i j : Z) : Prop :=
  (exists e, In e es /\ (e_lo e <= i < e_hi e)%Z /\ ~ has_symmetry (e_visit e) /\ e_mirror e = false /\ j = i) \/
  (exists e e' k, In e es /\ In e' es /\ has_symmetry (e_visit e) /\ e_visit e' = e_visit e /\ e_mirror e = false /\ e_mirror e' = true /\
     (0 <= k < e_num_c e)%Z /\ ((i = e_lo e + k /\ j = e_lo e' + k)%Z \/ (i = e_lo e' + k /\ j = e_lo e + k)%Z)).

Lemma paired_cons e es i j : paired es i j -> paired (e :: es) i j.
Proof.
  intros [(x & I & H)|(x & y & k & I & J & H)].
  - left. exists x. split; [right; exact I|exact H].
  - right. exists x, y, k. split; [right; exact I|]. split; [right; exact J|exact H].
Qed.

Lemma pairing vs es : recorded vs es -> forall lo hi, consecutive lo es hi ->
  (forall e, In e es -> e_hi e = (e_lo e + e_num_c e)%Z) ->
  exists sg : Z -> Z, forall i, (lo <= i < hi)%Z -> (lo <= sg i < hi)%Z /\ sg (sg i) = i /\ paired es i (sg i).
Proof.
  induction 1 as [|v vs e es NS EV EM _ IH|v vs e e' es HS EV EM EV' EM' EN _ IH]; intros lo hi C LEN.
  - exists (fun i => i). simpl in C. intros i I. lia.
  - cbn [consecutive] in C. destruct C as (C1 & C2 & C3). pose proof (consecutive_le _ _ _ C3) as CL.
    destruct (IH _ _ C3) as (sg & S). { intros x X. apply LEN. right. exact X. }
    exists (fun i => if (i <? e_hi e)%Z then i else sg i). intros i I. destruct (Z.ltb_spec i (e_hi e)) as [L|L].
    + split; [lia|]. split; [destruct (Z.ltb_spec i (e_hi e)); lia|]. left. exists e. split; [left; reflexivity|].
      rewrite EV. split; [lia|]. auto.
    + destruct (S i) as (S1 & S2 & S3); [lia|]. destruct (Z.ltb_spec (sg i) (e_hi e)); [lia|].
      split; [lia|]. split; [exact S2|]. apply paired_cons. exact S3.
  - cbn [consecutive] in C. destruct C as (C1 & C2 & C3 & C4 & C5). pose proof (consecutive_le _ _ _ C5) as CL.
    pose proof (LEN e (or_introl eq_refl)) as L1. pose proof (LEN e' (or_intror (or_introl eq_refl))) as L2.
    destruct (IH _ _ C5) as (sg & S). { intros x X. apply LEN. right. right. exact X. }
    exists (fun i => if (i <? e_hi e)%Z then (i + e_num_c e)%Z else if (i <? e_hi e')%Z then (i - e_num_c e)%Z else sg i).
    intros i I. destruct (Z.ltb_spec i (e_hi e)) as [L|L]; [|destruct (Z.ltb_spec i (e_hi e')) as [L'|L']].
    + split; [lia|]. split.
      * destruct (Z.ltb_spec (i + e_num_c e) (e_hi e)); [lia|]. destruct (Z.ltb_spec (i + e_num_c e) (e_hi e')); lia.
      * right. exists e, e', (i - e_lo e)%Z. split; [left; reflexivity|]. split; [right; left; reflexivity|]. rewrite EV, EV'.
        repeat (split; [assumption||reflexivity|]). split; [lia|]. left. lia.
    + split; [lia|]. split.
      * destruct (Z.ltb_spec (i - e_num_c e) (e_hi e)); lia.
      * right. exists e, e', (i - e_lo e')%Z. split; [left; reflexivity|]. split; [right; left; reflexivity|]. rewrite EV, EV'.
        repeat (split; [assumption||reflexivity|]). split; [lia|]. right. lia.
    + destruct (S i) as (S1 & S2 & S3); [lia|]. destruct (Z.ltb_spec (sg i) (e_hi e)); [lia|]. destruct (Z.ltb_spec (sg i) (e_hi e')); [lia|].
      split; [lia|]. split; [exact S2|]. apply paired_cons, paired_cons. exact S3.
Qed.

(** ** Mirrored panels with their trailing legs *)
Lemma trail_dir_xz alpha : refl XZ (trail_dir alpha 0) = trail_dir alpha 0.
Proof.
  unfold trail_dir, freestream_direction, deg2rad. rewrite Rmult_0_l, sin_0. cbn [refl vx vy vz]. apply vec_eq; vsimp; ring.
Qed.

Lemma mirrored_panel_legs alpha q n i : (1 <= n)%Z ->
  let p := make_panel (trail_dir alpha 0) q 1 n i 0 in
  let p' := make_panel (trail_dir alpha 0) (quad_order XZ (quad_refl XZ q)) 1 n i 0 in
  pV1 p' = mir (pV4 p) /\ pV2 p' = mir (pV3 p) /\ pV3 p' = mir (pV2 p) /\ pV4 p' = mir (pV1 p) /\
  pC p' = mir (pC p) /\ pB p' = mir (pB p) /\ pN p' = mir (pN p) /\ pA p' = pA p.
Proof.
  intro Hn. cbv zeta. unfold make_panel. rewrite !corner_surface.
  assert (E : forall s c, surface (quad_order XZ (quad_refl XZ q)) s c = refl XZ (surface q (1 - s) c)).
  { intros s c. rewrite <- surface_refl, <- (surface_order XZ (quad_refl XZ q) (1 - s) c). cbn [par_s par_c].
    replace (1 - (1 - s)) with s by ring. reflexivity. }
  rewrite !E.
  replace (1 - 1 / 1 * 0) with (1 / 1 * (0 + 1)) by field. replace (1 - 1 / 1 * (0 + 1)) with (1 / 1 * 0) by field.
  rewrite <- (trail_dir_xz alpha) at 1 3 5 7 9 11 13 15.
  apply (panel_xz (trail_dir alpha 0)).
Qed.

Lemma mir_fix v : vy v = 0 -> v = mir v.
Proof. intro H. unfold mir. apply vec_eq; vsimp; lra. Qed.

Lemma plane_panel alpha q n i : in_xz (qa q) -> in_xz (qb q) -> in_xz (qc q) -> in_xz (qd q) ->
  let p := make_panel (trail_dir alpha 0) q 1 n i 0 in
  pV1 p = mir (pV1 p) /\ pV2 p = mir (pV2 p) /\ pV3 p = mir (pV3 p) /\ pV4 p = mir (pV4 p) /\
  pC p = mir (pC p) /\ pB p = mir (pB p) /\ pN p = vscale (-1) (mir (pN p)).
Proof.
  intros A B C D. cbv zeta. unfold make_panel. rewrite !corner_surface.
  assert (E : forall s c, vy (surface q s c) = 0).
  { intros s c. unfold surface, along, in_xz in *. vsimp. rewrite A, B, C, D. ring. }
  set (P := surface q _ _). set (Q := surface q _ _). set (R := surface q _ _). set (S := surface q _ _).
  assert (EP : vy P = 0) by apply E. assert (EQ : vy Q = 0) by apply E. assert (ER : vy R = 0) by apply E. assert (ES : vy S = 0) by apply E.
  clearbody P Q R S. clear E.
  assert (T : vy (trail_dir alpha 0) = 0).
  { pose proof (f_equal vy (trail_dir_xz alpha)) as H. cbn [refl vy] in H. lra. }
  set (dir := trail_dir alpha 0) in *. clearbody dir.
  split; [|split; [|split; [|split; [|split; [|split]]]]]; try (apply mir_fix; unfold panel_of_corners; vsimp; rewrite ?T, ?EP, ?EQ, ?ER, ?ES; ring).
  rewrite pN_eq. set (k := / vnorm (raw P Q R S)). clearbody k. rewrite raw_eq. unfold mir, midpoint, along. apply vec_eq; vsimp; rewrite ?EP, ?EQ, ?ER, ?ES; field.
Qed.

Lemma set_normals_nth pans n i p x : nth_error pans i = Some p -> nth_error n i = Some x ->
  nth_error (set_normals pans n) i = Some (set_normal p x).
Proof. intros P N. unfold set_normals. rewrite nth_error_map, (nth_combine pans n i p x P N). reflexivity. Qed.

Lemma set_normals_nth_inv pans n i y : nth_error (set_normals pans n) i = Some y -> (i < List.length pans)%nat.
Proof.
  unfold set_normals. intro H. assert (I : (i < List.length (map (fun x => set_normal (fst x) (snd x)) (combine pans n)))%nat) by (apply nth_error_Some; rewrite H; discriminate).
  rewrite map_length, combine_length in I. lia.
Qed.

Lemma image_of_sym p p' : image_of p p' -> image_of p' p.
Proof.
  intros (A & B & C & H). split; [rewrite A, mir_mir; reflexivity|]. split; [rewrite B, mir_mir; reflexivity|].
  split; [symmetry; exact C|]. destruct H as [(D & E & F & G & N)|(D & E & F & G & N)]; [left|right];
    rewrite D, E, F, G, N, ?mir_mir; repeat split; rewrite ?mir_mir; try reflexivity.
  rewrite mir_scale, mir_mir. apply vec_eq; vsimp; ring.
Qed.

Lemma plane_sub q e x : in_xz (qa q) -> in_xz (qb q) -> in_xz (qc q) -> in_xz (qd q) ->
  let s := sub_quad (strip_quad q e) x in in_xz (qa s) /\ in_xz (qb s) /\ in_xz (qc s) /\ in_xz (qd s).
Proof.
  unfold in_xz. intros A B C D. cbv zeta. unfold sub_quad, strip_quad, along. vsimp. rewrite A, B, C, D. repeat split; ring.
Qed.

Lemma recorded_In vs es e : recorded vs es -> In e es -> In (e_visit e) vs.
Proof.
  induction 1 as [|v vs x es NS EV EM _ IH|v vs x x' es HS EV EM EV' EM' EN _ IH]; intro I; [destruct I| |].
  - destruct I as [<-|I]; [left; symmetry; exact EV|right; auto].
  - destruct I as [<-|[<-|I]]; [left; symmetry; exact EV|left; symmetry; exact EV'|right; auto].
Qed.

Lemma symmetric_aircraft geo camber alpha a : panelled a -> counts_set a -> flags_ok a ->
  (forall v, In v (all_subareas a) -> symmetric_visit geo camber v) ->
  exists pans n sg, gen_lattice geo camber true alpha 0 a = Ok (pans, n) /\ symmetric_lattice sg (set_normals pans n).
Proof.
  intros P C FL SV. destruct (final_normals geo camber alpha 0 a P C FL) as (st & pans & n & E & G & L1 & L2 & H).
  destruct (panel_count_inv a P C) as (st' & E' & I1 & I2 & _ & _ & I5 & _). rewrite E in E'. injection E' as <-.
  destruct (pairing _ _ I2 _ _ I1 (fun e I => proj1 (I5 e I))) as (sg & SG).
  assert (PAIR : forall e e' k, In e (bk_list (c_book st)) -> In e' (bk_list (c_book st)) -> has_symmetry (e_visit e) ->
    e_visit e' = e_visit e -> e_mirror e = false -> e_mirror e' = true -> (0 <= k < e_num_c e)%Z ->
    exists p p', nth_error (set_normals pans n) (Z.to_nat (e_lo e + k)) = Some p /\
      nth_error (set_normals pans n) (Z.to_nat (e_lo e' + k)) = Some p' /\ image_of p p').
  { intros e e' k Ie Ie' HS EV EM EM' K.
    destruct (SV (e_visit e) (recorded_In _ _ _ I2 Ie)) as [(SY & SD & PC)|(SY & _)]; [|unfold has_symmetry in HS; congruence].
    destruct (I5 e Ie) as (H1 & N1 & R1 & _). destruct (I5 e' Ie') as (H1' & N1' & R1' & _).
    assert (EN : e_num_c e' = e_num_c e) by (rewrite EV in R1'; exact (right_count_unique _ _ _ R1' R1)).
    destruct (H e (e_lo e + k)%Z Ie ltac:(lia)) as (q & p & x & y & z & V & Ep & Np & Ex & _ & _ & Nz & Ey & Ez).
    destruct (H e' (e_lo e' + k)%Z Ie' ltac:(lia)) as (q' & p' & x' & y' & z' & V' & Ep' & Np' & Ex' & _ & _ & Nz' & Ey' & Ez').
    replace (e_lo e + k - e_lo e)%Z with k in * by lia. replace (e_lo e' + k - e_lo e')%Z with k in * by lia.
    assert (PC' : parallel_chords q \/ (forall y, camber (e_visit e) y = 0)).
    { apply PC. unfold entry_vertices in V. rewrite EM, SY in V. exact V. }
    exists (set_normal p z), (set_normal p' z'). split; [apply set_normals_nth; assumption|]. split; [apply set_normals_nth; assumption|].
    assert (Q : q' = quad_order XZ (quad_refl XZ q)).
    { revert V V'. unfold entry_vertices. rewrite EV, EM, EM', SY, sub_plain.
      change 2%Z with (plane_num XZ). rewrite sub_mirror, sub_mirror_12 by discriminate. intros W W'.
      injection W as <-. injection W' as <-. reflexivity. }
    destruct (mirrored_panel_legs alpha q (e_num_c e) k N1) as (A1 & A2 & A3 & A4 & A5 & A6 & A7 & A8).
    rewrite EN, Q in Ep'. rewrite <- Ep, <- Ep' in A1, A2, A3, A4, A5, A6, A7, A8.
    assert (ZM : z' = refl XZ z).
    { change (mir (pN p)) with (refl XZ (pN p)) in A7. rewrite Ez', Ez, Ey', Ey, Ex', A7, Ex.
      rewrite (defl_f_mirror geo e e' EV EM EM' SY) by exact SD.
      apply (cam_f_mirror geo camber e e' EV EM EM' EN SY k _ q V PC'). }
    split; [exact A5|]. split; [exact A6|]. split; [exact A8|]. left. cbn [set_normal pV1 pV2 pV3 pV4 pN]. auto. }
  exists pans, n, (fun i => Z.to_nat (sg (Z.of_nat i))). split; [exact G|].
  intros i p N. pose proof (set_normals_nth_inv _ _ _ _ N) as I.
  destruct (SG (Z.of_nat i)) as (S1 & S2 & S3); [lia|].
  split. { rewrite Z2Nat.id by lia. rewrite S2. lia. }
  destruct S3 as [(e & Ie & R & NS & EM & J)|(e & e' & k & Ie & Ie' & HS & EV & EM & EM' & K & J)].
  - rewrite J, Nat2Z.id. exists p. split; [exact N|].
    destruct (SV (e_visit e) (recorded_In _ _ _ I2 Ie)) as [(SY & _)|(SY & XA & XB & XC & XD & ND & NC)].
    { exfalso. apply NS. unfold has_symmetry. rewrite SY. discriminate. }
    destruct (H e (Z.of_nat i) Ie R) as (q & p0 & x & y & z & V & Ep & Np & Ex & DE & CA & Nz & _).
    rewrite Nat2Z.id in Np, Nz. rewrite (set_normals_nth _ _ _ _ _ Np Nz) in N. injection N as <-.
    assert (Y : y = x).
    { destruct DE as (d & AP & DD). unfold applies in AP. destruct (sa_ctrl (v_sub (e_visit e))) as [c|] eqn:EC.
      - destruct AP as (wc & GW & ->). rewrite EM in DD. destruct (wc_deflection wc) as [d|] eqn:ED; [|exact DD].
        destruct DD as (_ & _ & _ & _ & _ & _ & _ & Z). apply Z. exact (ND c wc d eq_refl GW ED).
      - subst d. exact DD. }
    assert (Z : z = y) by (destruct CA as (Z & _); apply Z; apply NC).
    unfold entry_vertices in V. rewrite EM, sub_plain in V. injection V as <-.
    destruct (plane_sub (v_quad geo (e_visit e)) (v_etas (e_visit e)) (v_xsis (e_visit e)) XA XB XC XD) as (Y1 & Y2 & Y3 & Y4).
    destruct (plane_panel alpha _ (e_num_c e) (Z.of_nat i - e_lo e) Y1 Y2 Y3 Y4) as (A1 & A2 & A3 & A4 & A5 & A6 & A7).
    rewrite <- Ep in A1, A2, A3, A4, A5, A6, A7.
    split; [exact A5|]. split; [exact A6|]. split; [reflexivity|]. right. cbn [set_normal pV1 pV2 pV3 pV4 pN].
    rewrite Z, Y, Ex. auto.
  - destruct (PAIR e e' k Ie Ie' HS EV EM EM' K) as (p1 & p2 & N1 & N2 & IM).
    destruct J as [(J1 & J2)|(J1 & J2)]; rewrite J2.
    + rewrite <- J1, Nat2Z.id, N in N1. injection N1 as <-. exists p2. auto.
    + rewrite <- J1, Nat2Z.id, N in N2. injection N2 as <-. exists p1. split; [exact N1|]. apply image_of_sym. exact IM.
Qed.

Lemma symmetric_aircraft_loads geo camber alpha a eps s r : panelled a -> counts_set a -> flags_ok a ->
  (forall v, In v (all_subareas a) -> symmetric_visit geo camber v) ->
  f_beta s = 0 -> f_P s = 0 -> f_R s = 0 -> vy (r_RP r) = 0 -> r_area r <> 0 -> r_span r <> 0 ->
  exists pans n, gen_lattice geo camber true alpha (f_beta s) a = Ok (pans, n) /\
  forall m g o, downwash eps (set_normals pans n) = Some m ->
    unique_solution m (boundary (set_normals pans n) s r) -> solves m (boundary (set_normals pans n) s r) g ->
    vlm_results eps (set_normals pans n) s r g = Some o ->
    vy (o_F o) = 0 /\ vx (o_M o) = 0 /\ vz (o_M o) = 0 /\ c_C (o_co o) = 0 /\
    is (c_Cy (o_co o)) 0 /\ is (c_CC (o_co o)) 0 /\ is (c_Cl (o_co o)) 0 /\ is (c_Cn (o_co o)) 0.
Proof.
  intros P C FL SV B P0 R0 RP A SP. destruct (symmetric_aircraft geo camber alpha a P C FL SV) as (pans & n & sg & G & SL).
  exists pans, n. rewrite B. split; [exact G|]. intros m g o D U S H.
  destruct (symmetric_results eps _ sg s r g m o SL B P0 R0 RP D U S H) as (_ & _ & H1 & H2 & H3 & H4 & H5).
  destruct (H5 A SP) as (X1 & X2 & X3 & X4). repeat (split; [assumption|]). assumption.
Qed.
