(** Proofs about panel geometry and mirroring (C11-C16, C43). *)
From Coq Require Import Reals List ZArith String Lra Lia Psatz.
From Verif Require Import PyBase Vec PanelModel GeomModel GeomSpec.
Import ListNotations.
Open Scope R_scope.

Ltac vsimp := cbn [vx vy vz vadd vsub vscale vcross vzero qa qb qc qd pP pQ pR pS pV1 pV2 pV3 pV4 pC pB pN pA
  r_eta_a r_eta_b r_eta_c r_eta_d r_xsi_a r_xsi_b r_xsi_c r_xsi_d refl fst snd] in *.
Ltac vring := apply vec_eq; unfold surface, midpoint, along, corner, coord; vsimp; try lra; try ring; try field.

Lemma corner_surface q s c : corner q s c = surface q s c.
Proof. vring. Qed.

Lemma surface_corners q :
  surface q 0 0 = qa q /\ surface q 1 0 = qb q /\ surface q 1 1 = qc q /\ surface q 0 1 = qd q.
Proof. repeat split; vring. Qed.

Lemma IZR_pos z : (1 <= z)%Z -> 0 < IZR z.
Proof. intro H. apply (IZR_lt 0). lia. Qed.

Section Panel.
  Variables (dir : vec) (q : quad) (ps pc : Z).
  Hypothesis Hs : (1 <= ps)%Z.
  Hypothesis Hc : (1 <= pc)%Z.

  Lemma panel_corners i j :
    let p := make_panel dir q ps pc i j in
    let s k := IZR k / IZR ps in let c k := IZR k / IZR pc in
    pP p = surface q (s j) (c i) /\ pQ p = surface q (s (j + 1)%Z) (c i) /\
    pR p = surface q (s (j + 1)%Z) (c (i + 1)%Z) /\ pS p = surface q (s j) (c (i + 1)%Z).
  Proof.
    pose proof (IZR_pos _ Hs). pose proof (IZR_pos _ Hc). cbv zeta.
    unfold make_panel, panel_of_corners. vsimp. rewrite !corner_surface, !plus_IZR.
    repeat split; f_equal; unfold Rdiv; ring.
  Qed.

  Lemma panel_neighbours i j :
    let p := make_panel dir q ps pc i j in
    let down := make_panel dir q ps pc (i + 1) j in
    let right := make_panel dir q ps pc i (j + 1) in
    pS p = pP down /\ pR p = pQ down /\ pQ p = pP right /\ pR p = pS right.
  Proof.
    cbv zeta. destruct (panel_corners i j) as (A1 & A2 & A3 & A4).
    destruct (panel_corners (i + 1) j) as (B1 & B2 & B3 & B4).
    destruct (panel_corners i (j + 1)) as (C1 & C2 & C3 & C4).
    rewrite A2, A3, A4, B1, B2, C1, C4. auto.
  Qed.

  Lemma panel_ends :
    pP (make_panel dir q ps pc 0 0) = qa q /\
    pQ (make_panel dir q ps pc 0 (ps - 1)) = qb q /\
    pR (make_panel dir q ps pc (pc - 1) (ps - 1)) = qc q /\
    pS (make_panel dir q ps pc (pc - 1) 0) = qd q.
  Proof.
    pose proof (IZR_pos _ Hs). pose proof (IZR_pos _ Hc).
    destruct (panel_corners 0 0) as (A1 & _). destruct (panel_corners 0 (ps - 1)) as (_ & A2 & _).
    destruct (panel_corners (pc - 1) (ps - 1)) as (_ & _ & A3 & _).
    destruct (panel_corners (pc - 1) 0) as (_ & _ & _ & A4).
    destruct (surface_corners q) as (S1 & S2 & S3 & S4).
    rewrite A1, A2, A3, A4. replace (ps - 1 + 1)%Z with ps by lia. replace (pc - 1 + 1)%Z with pc by lia.
    replace (0 / IZR ps) with 0 by (field; lra). replace (0 / IZR pc) with 0 by (field; lra).
    replace (IZR ps / IZR ps) with 1 by (field; lra). replace (IZR pc / IZR pc) with 1 by (field; lra). auto.
  Qed.
End Panel.

(** Index of a panel in the rows of its subarea. *)
Lemma sub_panels_nth dir q ps pc i j : (0 <= i < pc)%Z -> (0 <= j < ps)%Z ->
  nth_error (sub_panels dir q ps pc) (Z.to_nat (j * pc + i)) = Some (make_panel dir q ps pc i j).
Proof.
  intros Hi Hj. unfold sub_panels.
  assert (B : (0 <= j * pc + i < ps * pc)%Z) by nia.
  rewrite nth_error_map, nth_error_nth' with (d := O) by (rewrite seq_length; lia).
  rewrite seq_nth by lia. simpl. f_equal. rewrite Z2Nat.id by lia.
  replace ((j * pc + i) mod pc)%Z with i; [replace ((j * pc + i) / pc)%Z with j; [reflexivity|]|].
  - rewrite Z.div_add_l by lia. rewrite Z.div_small by lia. lia.
  - rewrite Z.add_comm, Z.mod_add by lia. rewrite Z.mod_small; lia.
Qed.

Lemma sub_panels_length dir q ps pc : List.length (sub_panels dir q ps pc) = Z.to_nat (ps * pc).
Proof. unfold sub_panels. rewrite map_length, seq_length. reflexivity. Qed.

(** ** C12 *)

Lemma horseshoe dir P Q R S :
  let p := panel_of_corners dir P Q R S in
  pV2 p = along P S (1 / 4) /\ pV3 p = along Q R (1 / 4) /\
  pB p = midpoint (pV2 p) (pV3 p) /\
  pC p = midpoint (along P S (3 / 4)) (along Q R (3 / 4)) /\
  vsub (pV1 p) (pV2 p) = dir /\ vsub (pV4 p) (pV3 p) = dir.
Proof. cbv zeta. unfold panel_of_corners. repeat split; vring. Qed.

Lemma freestream_unit a b : vnorm (freestream_direction a b) = 1.
Proof.
  apply vnorm_eq_of_sq; [lra|]. unfold freestream_direction, vdot. vsimp.
  pose proof (sin2_cos2 a) as Ha. pose proof (sin2_cos2 b) as Hb. unfold Rsqr in *. nra.
Qed.

Lemma trail_dir_eq al be :
  trail_dir al be = vscale 10000 (freestream_direction (deg2rad al) (deg2rad be)).
Proof. unfold trail_dir, infty. vring. Qed.

(** ** C13 *)

Lemma vec1_eq P Q R S : vec1 P Q (pC (panel_of_corners vzero P Q R S)) =
  vscale (3 / 4) (vsub (midpoint R S) (midpoint P Q)).
Proof. unfold vec1, panel_of_corners. vring. Qed.

Lemma vec2_eq P Q R S : vec2 Q R (pC (panel_of_corners vzero P Q R S)) =
  vscale (1 / 2) (vsub (along P S (3 / 4)) (along Q R (3 / 4))).
Proof. unfold vec2, panel_of_corners. vring. Qed.

Definition raw (P Q R S : vec) : vec := normal_raw P Q R (pC (panel_of_corners vzero P Q R S)).

Lemma pN_eq dir P Q R S : pN (panel_of_corners dir P Q R S) = vscale (/ vnorm (raw P Q R S)) (raw P Q R S).
Proof. unfold raw. unfold panel_of_corners. vsimp. vec_eq; unfold Rdiv; ring. Qed.

Lemma vdot_scale_l k u v : vdot (vscale k u) v = k * vdot u v.
Proof. unfold vdot. vsimp. ring. Qed.

Lemma raw_eq P Q R S : raw P Q R S =
  vscale (3 / 8) (vcross (vsub (midpoint R S) (midpoint P Q)) (vsub (along P S (3 / 4)) (along Q R (3 / 4)))).
Proof. unfold raw, normal_raw. rewrite vec1_eq, vec2_eq. vring. Qed.

Lemma normalised_unit v : v <> vzero -> vnorm (vscale (/ vnorm v) v) = 1.
Proof.
  intro H. apply vnorm_pos in H. rewrite vnorm_scale, Rabs_right.
  - field. lra.
  - left. apply Rinv_0_lt_compat. exact H.
Qed.

Lemma panel_normal dir P Q R S :
  let p := panel_of_corners dir P Q R S in
  let chord := vsub (midpoint R S) (midpoint P Q) in
  let span := vsub (along Q R (3 / 4)) (along P S (3 / 4)) in
  (vcross chord span <> vzero -> vnorm (pN p) = 1) /\
  vdot (pN p) chord = 0 /\ vdot (pN p) span = 0 /\
  (exists k, 0 <= k /\ pN p = vscale k (vcross span chord)).
Proof.
  cbv zeta. rewrite pN_eq, raw_eq.
  set (ch := vsub (midpoint R S) (midpoint P Q)). set (sp := vsub (along Q R (3 / 4)) (along P S (3 / 4))).
  assert (E : vsub (along P S (3 / 4)) (along Q R (3 / 4)) = vscale (-1) sp) by (unfold sp; vring).
  rewrite E.
  assert (E2 : vscale (3 / 8) (vcross ch (vscale (-1) sp)) = vscale (3 / 8) (vcross sp ch)) by vring.
  rewrite E2. clearbody ch sp. clear E E2. split; [|split; [|split]].
  - intro H. apply normalised_unit. intro Z. apply H. injection Z as Z1 Z2 Z3. vsimp. vec_eq; lra.
  - rewrite !vdot_scale_l, vcross_perp_r. ring.
  - rewrite !vdot_scale_l, vcross_perp_l. ring.
  - exists (/ vnorm (vscale (3 / 8) (vcross sp ch)) * (3 / 8)). split.
    + apply Rmult_le_pos; [|lra].
      destruct (Rle_lt_or_eq_dec _ _ (vnorm_nonneg (vscale (3 / 8) (vcross sp ch)))) as [L|L].
      * left. apply Rinv_0_lt_compat. exact L.
      * rewrite <- L, Rinv_0. lra.
    + vring.
Qed.

Lemma cross_parallel n u v : n <> vzero -> vdot n u = 0 -> vdot n v = 0 -> exists k, vcross u v = vscale k n.
Proof.
  intros N U V. exists (vdot n (vcross u v) / vdot n n).
  assert (D : vdot n n <> 0) by (intro Z; apply N, vdot_zero, Z).
  assert (G : vsub (vscale (vdot n n) (vcross u v)) (vscale (vdot n (vcross u v)) n) =
              vcross n (vsub (vscale (vdot n u) v) (vscale (vdot n v) u))).
  { unfold vdot. vec_eq; ring. }
  rewrite U, V in G.
  assert (I : forall a b c, vdot n n * a - b * c = 0 -> a = b / vdot n n * c).
  { intros a b c Q. apply (Rmult_eq_reg_l (vdot n n)); [|exact D].
    replace (vdot n n * (b / vdot n n * c)) with (b * c) by (field; exact D). lra. }
  apply vec_eq.
  - apply (f_equal vx) in G. cbn [vx vsub vscale] in *. apply I. rewrite G. vsimp. ring.
  - apply (f_equal vy) in G. cbn [vy vsub vscale] in *. apply I. rewrite G. vsimp. ring.
  - apply (f_equal vz) in G. cbn [vz vsub vscale] in *. apply I. rewrite G. vsimp. ring.
Qed.

(** On a planar panel the normal is perpendicular to the plane. *)
Lemma planar_normal dir P Q R S n :
  n <> vzero -> vdot n (vsub Q P) = 0 -> vdot n (vsub R P) = 0 -> vdot n (vsub S P) = 0 ->
  exists k, pN (panel_of_corners dir P Q R S) = vscale k n.
Proof.
  intros N H1 H2 H3. destruct (panel_normal dir P Q R S) as (_ & _ & _ & k & _ & E). rewrite E.
  destruct (cross_parallel n (vsub (along Q R (3 / 4)) (along P S (3 / 4))) (vsub (midpoint R S) (midpoint P Q))) as (m & ->).
  - exact N.
  - transitivity ((1/4) * vdot n (vsub Q P) + (3/4) * vdot n (vsub R P) - (3/4) * vdot n (vsub S P)).
    + unfold vdot, along; vsimp; field.
    + rewrite H1, H2, H3. ring.
  - transitivity ((1/2) * vdot n (vsub R P) + (1/2) * vdot n (vsub S P) - (1/2) * vdot n (vsub Q P)).
    + unfold vdot, midpoint, along; vsimp; field.
    + rewrite H1, H2, H3. ring.
  - exists (k * m). vring.
Qed.

Lemma area_nonneg dir P Q R S : 0 <= pA (panel_of_corners dir P Q R S).
Proof. apply Rmult_le_pos; apply vnorm_nonneg. Qed.

(** The stored area is never less than that of the parallelogram spanned by mean span and chord. *)
Lemma area_bound dir P Q R S :
  vnorm (vcross (pan_span P Q R S) (pan_chord P Q R S)) <= pA (panel_of_corners dir P Q R S) /\
  (vdot (pan_span P Q R S) (pan_chord P Q R S) = 0 ->
   pA (panel_of_corners dir P Q R S) = vnorm (vcross (pan_span P Q R S) (pan_chord P Q R S))).
Proof.
  unfold panel_of_corners. vsimp. set (u := pan_span P Q R S). set (v := pan_chord P Q R S).
  assert (L : vnorm (vcross u v) * vnorm (vcross u v) = (vnorm u * vnorm v) * (vnorm u * vnorm v) - vdot u v * vdot u v).
  { rewrite vnorm_sq, lagrange, <- !vnorm_sq. ring. }
  pose proof (vnorm_nonneg u). pose proof (vnorm_nonneg v). pose proof (vnorm_nonneg (vcross u v)).
  assert (0 <= vnorm u * vnorm v) by (apply Rmult_le_pos; assumption).
  split; [nra|]. intro Z. rewrite Z in L. nra.
Qed.

Lemma bimedians P Q R S : vcross (pan_span P Q R S) (pan_chord P Q R S) = vscale (1 / 2) (vcross (vsub R P) (vsub S Q)).
Proof. unfold pan_span, pan_chord. replace 0.5 with (1 / 2) by lra. apply vec_eq; vsimp; field. Qed.

Lemma area_quad dir P Q R S :
  quad_area P Q R S <= pA (panel_of_corners dir P Q R S) /\
  (vdot (vsub (midpoint Q R) (midpoint P S)) (vsub (midpoint R S) (midpoint P Q)) = 0 ->
   pA (panel_of_corners dir P Q R S) = quad_area P Q R S) /\
  pA (panel_of_corners dir P Q R S) * pA (panel_of_corners dir P Q R S) =
    quad_area P Q R S * quad_area P Q R S +
    vdot (vsub (midpoint Q R) (midpoint P S)) (vsub (midpoint R S) (midpoint P Q)) *
    vdot (vsub (midpoint Q R) (midpoint P S)) (vsub (midpoint R S) (midpoint P Q)).
Proof.
  assert (A : quad_area P Q R S = vnorm (vcross (pan_span P Q R S) (pan_chord P Q R S))).
  { rewrite bimedians. unfold quad_area. rewrite vnorm_scale, Rabs_right by lra. reflexivity. }
  assert (E : vsub (midpoint Q R) (midpoint P S) = pan_span P Q R S).
  { unfold midpoint, along, pan_span. apply vec_eq; vsimp; lra. }
  assert (F : vsub (midpoint R S) (midpoint P Q) = pan_chord P Q R S).
  { unfold midpoint, along, pan_chord. apply vec_eq; vsimp; lra. }
  rewrite A, E, F. destruct (area_bound dir P Q R S) as (B & C). split; [exact B|]. split; [exact C|].
  unfold panel_of_corners. cbn [pA]. rewrite vnorm_sq, lagrange, <- !vnorm_sq. ring.
Qed.

(** ** Combinations for the property theorems *)

Lemma panel_on_surface dir q ps pc : (1 <= ps)%Z -> (1 <= pc)%Z -> forall i j, (0 <= i < pc)%Z -> (0 <= j < ps)%Z ->
  let p := make_panel dir q ps pc i j in
  on_surface q (pP p) /\ on_surface q (pQ p) /\ on_surface q (pR p) /\ on_surface q (pS p).
Proof.
  intros Hs Hc i j Hi Hj. cbv zeta. destruct (panel_corners dir q ps pc Hs Hc i j) as (A1 & A2 & A3 & A4).
  assert (U : forall k n, (1 <= n)%Z -> (0 <= k <= n)%Z -> unit_interval (IZR k / IZR n)).
  { intros k n Hn [K1 K2]. pose proof (IZR_pos _ Hn) as P. apply IZR_le in K1, K2.
    assert (0 < / IZR n) by (apply Rinv_0_lt_compat; exact P).
    unfold unit_interval, Rdiv. split; [nra|].
    replace 1 with (IZR n * / IZR n) by (field; lra). nra. }
  rewrite A1, A2, A3, A4. unfold on_surface.
  repeat split; eexists _, _; (split; [|split; [|reflexivity]]); apply U; lia.
Qed.

Lemma lattice_horseshoe alpha beta subs p : In p (lattice (trail_dir alpha beta) subs) ->
  pV2 p = along (pP p) (pS p) (1 / 4) /\ pV3 p = along (pQ p) (pR p) (1 / 4) /\
  pB p = midpoint (pV2 p) (pV3 p) /\
  pC p = midpoint (along (pP p) (pS p) (3 / 4)) (along (pQ p) (pR p) (3 / 4)) /\
  exists w, w = mkV (cos (alpha * PI / 180) * cos (beta * PI / 180)) (- sin (beta * PI / 180))
                    (sin (alpha * PI / 180) * cos (beta * PI / 180)) /\
    vnorm w = 1 /\
    vsub (pV1 p) (pV2 p) = vscale 10000 w /\ vsub (pV4 p) (pV3 p) = vscale 10000 w.
Proof.
  intro H. unfold lattice in H. apply in_flat_map in H. destruct H as (x & _ & H).
  unfold sub_panels in H. apply in_map_iff in H. destruct H as (k & <- & _).
  unfold make_panel. set (P := corner _ _ _). set (Q := corner _ _ _). set (R := corner _ _ _). set (S := corner _ _ _).
  destruct (horseshoe (trail_dir alpha beta) P Q R S) as (H1 & H2 & H3 & H4 & H5 & H6).
  repeat (split; [assumption|]). exists (freestream_direction (deg2rad alpha) (deg2rad beta)).
  split; [|split; [apply freestream_unit|rewrite <- trail_dir_eq; auto]].
  unfold freestream_direction, deg2rad, Rdiv. rewrite !Rmult_assoc. reflexivity.
Qed.
