(** Property theorems: panel geometry, mirroring, device lines (C11-C16, C43, C44). *)
From Coq Require Import Reals List ZArith String Lra Lia Psatz QArith Qreals.
From Verif Require Import PyBase Vec StripModel StripSpec PanelModel GeomModel GeomSpec NormalModel GeomProofs
  MirrorProofs InterpProofs RotProofs.
Import ListNotations.
Open Scope R_scope.

(** A tapered, swept segment with a chord of 2 at the root and 1 at the tip. *)
Definition ex_seg : quad := mkQuad (mkV 0 0 0) (mkV 1 4 0) (mkV 2 4 0) (mkV 2 0 0).
Definition ex_etas : etas := mkEtas 0 1 1 0.
Definition ex_flap_xsis : xsis := mkXsis (7/10) (7/10) 1 1.

(** ** C11: panels tile their subarea *)

Theorem C11_panels_tile dir q ps pc : (1 <= ps)%Z -> (1 <= pc)%Z ->
  List.length (sub_panels dir q ps pc) = Z.to_nat (ps * pc) /\
  (forall i j, (0 <= i < pc)%Z -> (0 <= j < ps)%Z ->
    let p := make_panel dir q ps pc i j in
    nth_error (sub_panels dir q ps pc) (Z.to_nat (j * pc + i)) = Some p /\
    on_surface q (pP p) /\ on_surface q (pQ p) /\ on_surface q (pR p) /\ on_surface q (pS p)) /\
  (forall i j, let p := make_panel dir q ps pc i j in
    let down := make_panel dir q ps pc (i + 1) j in
    let right := make_panel dir q ps pc i (j + 1) in
    pS p = pP down /\ pR p = pQ down /\ pQ p = pP right /\ pR p = pS right) /\
  pP (make_panel dir q ps pc 0 0) = qa q /\ pQ (make_panel dir q ps pc 0 (ps - 1)) = qb q /\
  pR (make_panel dir q ps pc (pc - 1) (ps - 1)) = qc q /\ pS (make_panel dir q ps pc (pc - 1) 0) = qd q.
Proof.
  intros Hs Hc. split; [apply sub_panels_length|]. split; [|split].
  - intros i j Hi Hj. split; [apply sub_panels_nth; assumption|]. exact (panel_on_surface dir q ps pc Hs Hc i j Hi Hj).
  - exact (panel_neighbours dir q ps pc Hs Hc).
  - exact (panel_ends dir q ps pc Hs Hc).
Qed.
Print Assumptions C11_panels_tile.

Example C11_example :
  (1 <= 2)%Z /\ (1 <= 4)%Z /\
  pP (make_panel vzero ex_seg 2 4 1 1) = mkV (7/8) 2 0 /\ pR (make_panel vzero ex_seg 2 4 1 1) = mkV (3/2) 4 0.
Proof.
  split; [lia|]. split; [lia|]. unfold make_panel. rewrite !corner_surface. unfold ex_seg.
  split; apply vec_eq; unfold panel_of_corners, surface, along; vsimp; field.
Qed.

(** ** C12: quarter-chord vortices, three-quarter-chord collocation points *)

Theorem C12_horseshoe alpha beta subs p : In p (lattice (trail_dir alpha beta) subs) ->
  pV2 p = along (pP p) (pS p) (1 / 4) /\ pV3 p = along (pQ p) (pR p) (1 / 4) /\
  pB p = midpoint (pV2 p) (pV3 p) /\
  pC p = midpoint (along (pP p) (pS p) (3 / 4)) (along (pQ p) (pR p) (3 / 4)) /\
  exists w, w = mkV (cos (alpha * PI / 180) * cos (beta * PI / 180)) (- sin (beta * PI / 180))
                    (sin (alpha * PI / 180) * cos (beta * PI / 180)) /\
    vnorm w = 1 /\
    vsub (pV1 p) (pV2 p) = vscale 10000 w /\ vsub (pV4 p) (pV3 p) = vscale 10000 w.
Proof. exact (lattice_horseshoe alpha beta subs p). Qed.
Print Assumptions C12_horseshoe.

Example C12_example :
  let p := make_panel (trail_dir 0 0) ex_seg 1 1 0 0 in
  In p (lattice (trail_dir 0 0) [(ex_seg, (1, 1)%Z)]) /\ pB p = mkV (7/8) 2 0 /\ vx (pV1 p) = 1 / 2 + 10000.
Proof.
  cbv zeta. split; [left; reflexivity|]. unfold make_panel. rewrite !corner_surface. unfold ex_seg. split.
  - apply vec_eq; unfold panel_of_corners, surface, along; vsimp; lra.
  - unfold panel_of_corners, surface, along, trail_dir, freestream_direction, infty, deg2rad. vsimp.
    rewrite !Rmult_0_l, cos_0. lra.
Qed.

(** ** C13: normals and areas *)

Theorem C13_normals dir P Q R S :
  let p := panel_of_corners dir P Q R S in
  let chord := vsub (midpoint R S) (midpoint P Q) in
  let span := vsub (along Q R (3 / 4)) (along P S (3 / 4)) in
  (vcross chord span <> vzero -> vnorm (pN p) = 1) /\
  vdot (pN p) chord = 0 /\ vdot (pN p) span = 0 /\
  (exists k, 0 <= k /\ pN p = vscale k (vcross span chord)) /\
  0 <= pA p /\
  (forall n, n <> vzero -> vdot n (vsub Q P) = 0 -> vdot n (vsub R P) = 0 -> vdot n (vsub S P) = 0 ->
    exists k, pN p = vscale k n) /\
  (forall axis th, axis <> vzero -> vnorm (rot axis th (pN p)) = vnorm (pN p)).
Proof.
  cbv zeta. destruct (panel_normal dir P Q R S) as (A & B & C & D).
  repeat (split; [assumption|]). split; [apply area_nonneg|]. split.
  - intros n. apply planar_normal.
  - intros axis th. apply rot_norm.
Qed.
Print Assumptions C13_normals.

Example C13_example :
  let p := panel_of_corners vzero (qa ex_seg) (qb ex_seg) (qc ex_seg) (qd ex_seg) in
  vcross (vsub (midpoint (qc ex_seg) (qd ex_seg)) (midpoint (qa ex_seg) (qb ex_seg)))
         (vsub (along (qb ex_seg) (qc ex_seg) (3 / 4)) (along (qa ex_seg) (qd ex_seg) (3 / 4))) <> vzero /\
  vnorm (pN p) = 1.
Proof.
  cbv zeta.
  assert (X : vcross (vsub (midpoint (qc ex_seg) (qd ex_seg)) (midpoint (qa ex_seg) (qb ex_seg)))
         (vsub (along (qb ex_seg) (qc ex_seg) (3 / 4)) (along (qa ex_seg) (qd ex_seg) (3 / 4))) <> vzero).
  { intro E. apply (f_equal vz) in E. unfold ex_seg, midpoint, along in E. vsimp. lra. }
  split; [exact X|]. exact (proj1 (C13_normals vzero (qa ex_seg) (qb ex_seg) (qc ex_seg) (qd ex_seg)) X).
Qed.

(** ** C56: panel area *)

(** The stored area is span times chord length, so it exceeds the area of a swept panel. *)
Theorem C56_area_refuted : exists dir P Q R S,
  vz P = 0 /\ vz Q = 0 /\ vz R = 0 /\ vz S = 0 /\
  quad_area P Q R S < pA (panel_of_corners dir P Q R S).
Proof.
  exists vzero, (mkV 0 0 0), (mkV 1 1 0), (mkV 2 1 0), (mkV 1 0 0). repeat (split; [reflexivity|]).
  destruct (area_quad vzero (mkV 0 0 0) (mkV 1 1 0) (mkV 2 1 0) (mkV 1 0 0)) as (A & _ & B).
  assert (D : vdot (vsub (midpoint (mkV 1 1 0) (mkV 2 1 0)) (midpoint (mkV 0 0 0) (mkV 1 0 0)))
                   (vsub (midpoint (mkV 2 1 0) (mkV 1 0 0)) (midpoint (mkV 0 0 0) (mkV 1 1 0))) = 1).
  { unfold vdot, midpoint, along. vsimp. lra. }
  rewrite D in B. destruct A as [A|A]; [exact A|]. rewrite A in B. lra.
Qed.
Print Assumptions C56_area_refuted.

(** True: it is never less, and equal exactly if the mid lines of the panel are perpendicular. *)
Theorem C56_area_partial dir P Q R S :
  quad_area P Q R S <= pA (panel_of_corners dir P Q R S) /\
  (pA (panel_of_corners dir P Q R S) = quad_area P Q R S <->
   vdot (vsub (midpoint Q R) (midpoint P S)) (vsub (midpoint R S) (midpoint P Q)) = 0).
Proof.
  destruct (area_quad dir P Q R S) as (A & B & C). split; [exact A|]. split; [|exact B].
  intro E. rewrite E in C. apply Rsqr_0_uniq. unfold Rsqr. lra.
Qed.
Print Assumptions C56_area_partial.

Example C56_example : let P := mkV 0 0 0 in let Q := mkV 0 2 0 in let R := mkV 1 2 0 in let S := mkV 1 0 0 in
  vdot (vsub (midpoint Q R) (midpoint P S)) (vsub (midpoint R S) (midpoint P Q)) = 0.
Proof. unfold vdot, midpoint, along. vsimp. lra. Qed.

(** ** C14: mirroring *)

Theorem C14_mirror_point v a :
  fst (mirror_point v a) = v /\
  (forall p, names a p -> exists w, snd (mirror_point v a) = Ok w /\ snd (mirror_point w a) = Ok v /\
     (w = v <-> in_plane p v) /\
     forall v' w', snd (mirror_point v' a) = Ok w' -> dist w w' = dist v v') /\
  ((forall p, ~ names a p) -> snd (mirror_point v a) = Err ValueError).
Proof. exact (mirror_point_spec v a). Qed.
Print Assumptions C14_mirror_point.

Theorem C14_mirror_vertices a b c d x p : names x p ->
  exists v, mirror_vertices (a, b, c, d) x = Ok v /\ mirror_vertices v x = Ok (a, b, c, d).
Proof. exact (mirror_vertices_twice a b c d x p). Qed.
Print Assumptions C14_mirror_vertices.

Example C14_example :
  names (PlStr "xz") XZ /\ names (PlInt 2) XZ /\ (forall p, ~ names (PlInt 4) p) /\
  snd (mirror_point (mkV 1 2 3) (PlStr "xz")) = Ok (mkV 1 (-2) 3).
Proof.
  split; [right; reflexivity|]. split; [left; reflexivity|]. split; [|reflexivity].
  intros p [E|E]; [|discriminate]. destruct p; discriminate.
Qed.

(** ** C15: the mirrored half is the mirror image *)

Theorem C15_mirror_image_partial seg e x h1 h2 p :
  p <> YZ \/ (r_xsi_a x + r_xsi_d x = 1 /\ r_xsi_b x + r_xsi_c x = 1 /\ h1 = 1 / 2 /\ h2 = 1 / 2) ->
  (exists q q', subarea_vertices seg e x false (plane_num p) = Ok q /\
     subarea_vertices seg e x true (plane_num p) = Ok q' /\
     forall v, on_surface q' v <-> on_surface q (refl p v)) /\
  (exists i o i' o', hinge_vertices seg e h1 h2 false (plane_num p) = Ok (i, o) /\
     hinge_vertices seg e h1 h2 true (plane_num p) = Ok (i', o') /\
     forall v, on_segment i' o' v <-> on_segment i o (refl p v)).
Proof. intro H. split; [apply mirrored_subarea|apply mirrored_hinge]; tauto. Qed.
Print Assumptions C15_mirror_image_partial.

Theorem C15_mirror_image_refuted : exists seg e x q q' v,
  subarea_vertices seg e x false 3 = Ok q /\ subarea_vertices seg e x true 3 = Ok q' /\
  planar seg /\ convex seg /\ on_surface q' v /\ ~ on_surface q (refl YZ v).
Proof. exact mirror3_refuted. Qed.
Print Assumptions C15_mirror_image_refuted.

Theorem C15_hinge_refuted : exists seg e h i o i' o',
  hinge_vertices seg e h h false 3 = Ok (i, o) /\ hinge_vertices seg e h h true 3 = Ok (i', o') /\
  planar seg /\ convex seg /\ ~ on_segment i o (refl YZ i').
Proof. exact hinge3_refuted. Qed.
Print Assumptions C15_hinge_refuted.

Example C15_example : exists q,
  subarea_vertices ex_seg ex_etas ex_flap_xsis true 2 = Ok q /\ qa q = mkV (1 + 7/10) (-4) 0.
Proof.
  eexists. split; [apply (sub_mirror ex_seg ex_etas ex_flap_xsis XZ)|].
  unfold sub_quad, quad_order, quad_refl, strip_quad, ex_seg, ex_etas, ex_flap_xsis, xsis_order, order4, quad_of, along.
  apply vec_eq; vsimp; field.
Qed.

(** ** C16: mirrored surfaces keep their upper side up *)

Theorem C16_mirrored_up a b c d x p : names x p ->
  exists a' b' c' d', mirror_vertices (a, b, c, d) x = Ok (a', b', c', d') /\
  let q := mkQuad a b c d in let q' := mkQuad a' b' c' d' in
  forall s t, unit_interval s -> unit_interval t ->
  exists s' t', unit_interval s' /\ unit_interval t' /\
    surface q' s' t' = refl p (surface q s t) /\ up q' s' t' = up q s t.
Proof. exact (mirrored_up a b c d x p). Qed.
Print Assumptions C16_mirrored_up.

(** Panels of mirrored subareas, for the planes 1 and 2. *)
Theorem C16_panels_partial alpha beta seg e x n i p : (1 <= n)%Z -> p <> YZ ->
  exists q q', subarea_vertices seg e x false (plane_num p) = Ok q /\
    subarea_vertices seg e x true (plane_num p) = Ok q' /\
    let pan := make_panel (trail_dir alpha beta) q 1 n i 0 in
    let pan' := make_panel (trail_dir alpha beta) q' 1 n i 0 in
    pC pan' = refl p (pC pan) /\ pB pan' = refl p (pB pan) /\
    vz (pN pan') = vz (pN pan) /\ pA pan' = pA pan /\
    (p = XZ -> pN pan' = refl XZ (pN pan)) /\ (p = XY -> pN pan' = vscale (-1) (refl XY (pN pan))).
Proof. exact (mirrored_subarea_panels alpha beta seg e x n i p). Qed.
Print Assumptions C16_panels_partial.

(** For plane 3 the subareas of a strip are not reordered: the normal changes side. *)
Theorem C16_subarea_refuted : exists seg e x q q',
  subarea_vertices seg e x false 3 = Ok q /\ subarea_vertices seg e x true 3 = Ok q' /\
  planar seg /\ convex seg /\
  (forall v, on_surface q' v <-> on_surface q (refl YZ v)) /\
  forall s t, unit_interval s -> unit_interval t -> up q s t < 0 /\ 0 < up q' s t.
Proof. exact up3_refuted. Qed.
Print Assumptions C16_subarea_refuted.

Example C16_example : up ex_seg (1 / 2) (1 / 2) = - 6.
Proof. unfold up, tangent_s, tangent_c, ex_seg, along. vsimp. field. Qed.

(** ** C43: chordwise collocation positions *)

(** [left] and [right] are the chord fractions of the three-quarter points of the side edges. *)
Theorem C43_collocation_xsi alpha beta seg e x n i sym : (0 <= i < n)%Z ->
  exists sd q, strip_vertices seg e false sym = Ok sd /\ subarea_vertices seg e x false sym = Ok q /\
  let pan := make_panel (trail_dir alpha beta) q 1 n i 0 in
  let xsi := collocation_xsi x n i in
  (exists left right,
     along (pP pan) (pS pan) (3 / 4) = along (qa sd) (qd sd) left /\
     along (pQ pan) (pR pan) (3 / 4) = along (qb sd) (qc sd) right /\
     xsi = (left + right) / 2) /\
  (r_xsi_a x = r_xsi_b x -> r_xsi_c x = r_xsi_d x -> pC pan = surface sd (1 / 2) xsi) /\
  (r_xsi_a x + r_xsi_b x < r_xsi_c x + r_xsi_d x ->
     (r_xsi_a x + r_xsi_b x) / 2 < xsi < (r_xsi_c x + r_xsi_d x) / 2 /\ xsi < collocation_xsi x n (i + 1)).
Proof. exact (collocation_spec alpha beta seg e x n i sym). Qed.
Print Assumptions C43_collocation_xsi.

(** Mirrored subareas, planes 1 and 2: the same position on the mirrored strip. *)
Theorem C43_collocation_mirrored_partial alpha beta seg e x n i p : (0 <= i < n)%Z -> p <> YZ ->
  r_xsi_a x = r_xsi_b x -> r_xsi_c x = r_xsi_d x ->
  exists sd q', strip_vertices seg e false (plane_num p) = Ok sd /\ subarea_vertices seg e x true (plane_num p) = Ok q' /\
  pC (make_panel (trail_dir alpha beta) q' 1 n i 0) = refl p (surface sd (1 / 2) (collocation_xsi x n i)).
Proof. exact (collocation_mirrored alpha beta seg e x n i p). Qed.
Print Assumptions C43_collocation_mirrored_partial.

Theorem C43_collocation_mirrored_refuted : exists seg e x n sd q',
  strip_vertices seg e false 3 = Ok sd /\ subarea_vertices seg e x true 3 = Ok q' /\
  r_xsi_a x = r_xsi_b x /\ r_xsi_c x = r_xsi_d x /\ (0 < n)%Z /\
  forall alpha beta, pC (make_panel (trail_dir alpha beta) q' 1 n 0 0) <> refl YZ (surface sd (1 / 2) (collocation_xsi x n 0)).
Proof. exact collocation3_refuted. Qed.
Print Assumptions C43_collocation_mirrored_refuted.

Example C43_example : collocation_xsi ex_flap_xsis 2 1 = 7/10 + 7/8 * (3/10) /\
  r_xsi_a ex_flap_xsis + r_xsi_b ex_flap_xsis < r_xsi_c ex_flap_xsis + r_xsi_d ex_flap_xsis.
Proof. unfold collocation_xsi, ex_flap_xsis. vsimp. lra. Qed.

(** ** C44: device lines are straight in space *)

Theorem C44_device_line_straight q e1 x1 e2 x2 eta :
  planar q -> convex q -> 0 <= e1 -> e1 < e2 -> e2 <= 1 -> e1 <= eta <= e2 ->
  unit_interval x1 -> unit_interval x2 ->
  exists x, xsi_interpol q (e1, x1) (e2, x2) eta = Some x /\
    meets_at q (e1, x1) (e2, x2) eta x /\
    (forall y, meets_at q (e1, x1) (e2, x2) eta y -> y = x) /\
    Rmin x1 x2 <= x <= Rmax x1 x2 /\
    (eta = e1 -> x = x1) /\ (eta = e2 -> x = x2).
Proof. exact (xsi_interpol_spec q e1 x1 e2 x2 eta). Qed.
Print Assumptions C44_device_line_straight.

(** On segments with parallel chords the result is the rational interpolation for which C04
    holds without further hypothesis. *)
Theorem C44_trapezoid q (c1 c2 e1 x1 e2 x2 eta : Q) :
  planar q -> convex q -> (0 < c1)%Q -> (0 < c2)%Q ->
  vscale (Q2R c1) (vsub (qc q) (qb q)) = vscale (Q2R c2) (vsub (qd q) (qa q)) ->
  (0 <= e1)%Q -> (e1 < e2)%Q -> (e2 <= 1)%Q -> (e1 <= eta)%Q -> (eta <= e2)%Q ->
  (0 <= x1 <= 1)%Q -> (0 <= x2 <= 1)%Q ->
  exists x, trap_interp c1 c2 (e1, x1) (e2, x2) eta = Ok x /\
    xsi_interpol q (Q2R e1, Q2R x1) (Q2R e2, Q2R x2) (Q2R eta) = Some (Q2R x).
Proof. exact (xsi_interpol_trapezoid q c1 c2 e1 x1 e2 x2 eta). Qed.
Print Assumptions C44_trapezoid.

Example C44_example : planar ex_seg /\ convex ex_seg /\
  vscale (Q2R 2) (vsub (qc ex_seg) (qb ex_seg)) = vscale (Q2R 1) (vsub (qd ex_seg) (qa ex_seg)) /\
  exists x, trap_interp 2 1 (0, 1#2)%Q (1, 1)%Q (1#2) = Ok x /\ (x == 2#3)%Q.
Proof.
  split; [unfold planar, seg_normal, ex_seg, vdot; vsimp; lra|].
  split; [unfold convex, turns, seg_normal, ex_seg, vdot; vsimp; lra|]. split.
  - unfold ex_seg, Q2R. apply vec_eq; simpl; field.
  - eexists. split; [reflexivity|]. vm_compute. reflexivity.
Qed.
