(** Model of the geometry computed by aero/c_lattice.cpp [vlm_lattice] and of
    [get_freestream_direction] (aero/c_vlm.cpp), over the reals.

    Simplifications: exact real arithmetic instead of doubles; [DBL_MAX] bounds and the
    area/aspect statistics are left out; where the C code would divide by zero (degenerate
    panel, lines 246-248 and 270) the reals give 0, so theorems state non-degeneracy. *)
From Coq Require Import Reals List ZArith.
From Verif Require Import Vec.
Import ListNotations.
Open Scope R_scope.

(** Four corner points of a subarea: the rows of [array_subareas] (vlm.py:345-348). *)
Record quad := mkQuad { qa : vec; qb : vec; qc : vec; qd : vec }.

(** [deg2rad] (c_vlm.cpp:57-60); PI is the C macro. *)
Definition deg2rad (deg : R) : R := deg * (PI / 180).

(** [get_freestream_direction] (c_vlm.cpp:76-93); angles in radians. *)
Definition freestream_direction (alpha beta : R) : vec :=
  mkV (cos alpha * cos beta) (- sin beta) (sin alpha * cos beta).

(** Lines 47-56: direction of the trailing legs, from the state angles in degrees. *)
Definition infty : R := 10000.
Definition trail_dir (alpha_deg beta_deg : R) : vec :=
  let dir := freestream_direction (deg2rad alpha_deg) (deg2rad beta_deg) in
  mkV (vx dir * infty) (vy dir * infty) (vz dir * infty).

(** Transformation coefficients (120-135) and their use in the corner points (182-196), for
    one coordinate of the corners A, B, C, D. *)
Definition coord (pA pB pC pD s c : R) : R :=
  let k1 := pA in
  let k2 := pB - pA in
  let k3 := pD - pA in
  let k4 := pA - pB + pC - pD in
  k1 + k2 * s + k3 * c + k4 * s * c.

Definition corner (q : quad) (s c : R) : vec :=
  mkV (coord (vx (qa q)) (vx (qb q)) (vx (qc q)) (vx (qd q)) s c)
      (coord (vy (qa q)) (vy (qb q)) (vy (qc q)) (vy (qd q)) s c)
      (coord (vz (qa q)) (vz (qb q)) (vz (qc q)) (vz (qd q)) s c).

(** One row of the lattice arrays P, V, C, BoundLegMidpoint, N, A. *)
Record panel := mkPanel {
  pP : vec; pQ : vec; pR : vec; pS : vec;
  pV1 : vec; pV2 : vec; pV3 : vec; pV4 : vec;
  pC : vec; pB : vec; pN : vec; pA : R }.

(** Lines 232-243: the two vectors spanning the panel and their (not normalised) normal. *)
Definition vec1 (P Q C : vec) : vec :=
  mkV (vx C - 0.50 * vx P - 0.50 * vx Q) (vy C - 0.50 * vy P - 0.50 * vy Q) (vz C - 0.50 * vz P - 0.50 * vz Q).
Definition vec2 (Q R C : vec) : vec :=
  mkV (vx C - 0.75 * vx R - 0.25 * vx Q) (vy C - 0.75 * vy R - 0.25 * vy Q) (vz C - 0.75 * vz R - 0.25 * vz Q).
Definition normal_raw (P Q R C : vec) : vec := vcross (vec1 P Q C) (vec2 Q R C).

(** Lines 250-270: span, chord, area. *)
Definition pan_span (P Q R S : vec) : vec :=
  mkV (0.5 * (vx Q - vx P + vx R - vx S)) (0.5 * (vy Q - vy P + vy R - vy S)) (0.5 * (vz Q - vz P + vz R - vz S)).
Definition pan_chord (P Q R S : vec) : vec :=
  mkV (0.5 * (vx S - vx P + vx R - vx Q)) (0.5 * (vy S - vy P + vy R - vy Q)) (0.5 * (vz S - vz P + vz R - vz Q)).

(** Body of the panel loop (164-288) given the corners. *)
Definition panel_of_corners (dir : vec) (P Q R S : vec) : panel :=
  let side a b := mkV (0.75 * vx a + 0.25 * vx b) (0.75 * vy a + 0.25 * vy b) (0.75 * vz a + 0.25 * vz b) in
  let V2 := side P S in                                                 (* 208 *)
  let V3 := side Q R in                                                 (* 209 *)
  let V1 := vadd V2 dir in                                              (* 210 *)
  let V4 := vadd V3 dir in                                              (* 211 *)
  let co p q r s := 0.125 * (p + q) + 0.375 * (r + s) in
  let C := mkV (co (vx P) (vx Q) (vx R) (vx S)) (co (vy P) (vy Q) (vy R) (vy S)) (co (vz P) (vz Q) (vz R) (vz S)) in
  let B := mkV (0.5 * (vx V2 + vx V3)) (0.5 * (vy V2 + vy V3)) (0.5 * (vz V2 + vz V3)) in
  let n := normal_raw P Q R C in
  let norm := vnorm n in
  let N := mkV (vx n / norm) (vy n / norm) (vz n / norm) in
  let A := vnorm (pan_span P Q R S) * vnorm (pan_chord P Q R S) in
  mkPanel P Q R S V1 V2 V3 V4 C B N A.

(** Panel number [i] in chordwise and [j] in spanwise direction (162-196). *)
Definition make_panel (dir : vec) (q : quad) (pan_s pan_c i j : Z) : panel :=
  let ds := 1 / IZR pan_s in
  let dc := 1 / IZR pan_c in
  let s_min := ds * IZR j in
  let s_max := ds * (IZR j + 1) in
  let c_min := dc * IZR i in
  let c_max := dc * (IZR i + 1) in
  panel_of_corners dir (corner q s_min c_min) (corner q s_max c_min) (corner q s_max c_max) (corner q s_min c_max).

(** Rows of one subarea in array order: row [j*pan_c + i] holds panel (i, j) (167, and C10
    for which rows are written). *)
Definition sub_panels (dir : vec) (q : quad) (pan_s pan_c : Z) : list panel :=
  map (fun k => make_panel dir q pan_s pan_c (Z.of_nat k mod pan_c) (Z.of_nat k / pan_c))
      (seq 0 (Z.to_nat (pan_s * pan_c))).

(** The lattice of a list of subareas (corner points, numbers of panels), symmetry flags 0 as
    passed by [gen_lattice] (vlm.py:354). *)
Definition lattice (dir : vec) (subs : list (quad * (Z * Z))) : list panel :=
  flat_map (fun x => sub_panels dir (fst x) (fst (snd x)) (snd (snd x))) subs.
