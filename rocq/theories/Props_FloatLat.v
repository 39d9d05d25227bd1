(** C116: rounding leaves no cracks in the lattice and moves it only slightly. *)
From Coq Require Import Reals ZArith.
From Verif Require Import Vec PanelModel FloatModel FloatLatModel FloatSpec FloatLatSpec FloatProofs FloatLatProofs.
Open Scope R_scope.

(** Whatever the rounding, neighbouring panels of a subarea have the same edge, bit by bit. *)
Theorem C116_shared rnd dir q pan_s pan_c i j :
  share_chordwise (fmake_panel rnd dir q pan_s pan_c i j) (fmake_panel rnd dir q pan_s pan_c (i + 1) j) /\
  share_spanwise (fmake_panel rnd dir q pan_s pan_c i j) (fmake_panel rnd dir q pan_s pan_c i (j + 1)).
Proof. exact (conj (chordwise rnd dir q pan_s pan_c i j) (spanwise rnd dir q pan_s pan_c i j)). Qed.
Print Assumptions C116_shared.

(** Corners, vortices, collocation points and areas are those of the exact lattice up to rounding. *)
Theorem C116_accuracy u rnd dir q pan_s pan_c i j M L : rounding u rnd -> bounded M q -> vbounded L dir ->
  (0 <= i < pan_c)%Z -> (0 <= j < pan_s)%Z ->
  panel_close u M L (fmake_panel rnd dir q pan_s pan_c i j) (make_panel dir q pan_s pan_c i j).
Proof. intro H. exact (accuracy u rnd H dir q pan_s pan_c i j M L). Qed.
Print Assumptions C116_accuracy.

(** The normal before it is scaled is the exact one up to rounding; it can be scaled unless the
    panel is too small for the size of the numbers, and has length one then. *)
Theorem C116_normal u rnd dir q pan_s pan_c i j M : rounding u rnd -> bounded M q ->
  (0 <= i < pan_c)%Z -> (0 <= j < pan_s)%Z ->
  let f := fmake_panel rnd dir q pan_s pan_c i j in let p := make_panel dir q pan_s pan_c i j in
  vclose u 32 (fnormal_raw rnd (lP f) (lQ f) (lR f) (lC f)) (normal_raw (pP p) (pQ p) (pR p) (pC p)) (648 * (M * M)) /\
  lN f = fnormal rnd (fnormal_raw rnd (lP f) (lQ f) (lR f) (lC f)) /\
  (3 * normal_error u M < vnorm (normal_raw (pP p) (pQ p) (pR p) (pC p)) -> lN f <> None) /\
  (forall N, lN f = Some N -> unit_length u N).
Proof. intro H. exact (normals u rnd H dir q pan_s pan_c i j M). Qed.
Print Assumptions C116_normal.

(** The first corner of a subarea is exact if it is a number of the type. *)
Theorem C116_first u rnd dir q pan_s pan_c : rounding u rnd ->
  rnd (vx (qa q)) = vx (qa q) -> rnd (vy (qa q)) = vy (qa q) -> rnd (vz (qa q)) = vz (qa q) ->
  lP (fmake_panel rnd dir q pan_s pan_c 0 0) = qa q.
Proof. intro H. exact (first_corner u rnd H dir q pan_s pan_c). Qed.
Print Assumptions C116_first.

(** Panels of subareas with a common edge need not meet exactly... *)
Theorem C116_gap_refuted dir : exists q1 q2, adjacent q1 q2 /\
  lQ (fmake_panel double dir q1 1 1 0 0) <> lP (fmake_panel double dir q2 1 1 0 0).
Proof. exact (ex_intro _ plate1 (ex_intro _ plate2 (conj plates_adjacent (plates_apart dir)))). Qed.
Print Assumptions C116_gap_refuted.
(** ...but the gap is a rounding error. *)
Theorem C116_gap u rnd dir q1 q2 pan_s1 pan_s2 pan_c i M : rounding u rnd -> adjacent q1 q2 -> bounded M q1 -> bounded M q2 ->
  (0 <= i < pan_c)%Z -> (0 < pan_s1)%Z -> (0 < pan_s2)%Z ->
  let f := fmake_panel rnd dir q1 pan_s1 pan_c i (pan_s1 - 1) in let g := fmake_panel rnd dir q2 pan_s2 pan_c i 0 in
  at_most (((1 + u) ^ 10 - 1) * (18 * M)) (lQ f) (lP g) /\ at_most (((1 + u) ^ 10 - 1) * (18 * M)) (lR f) (lS g).
Proof. intro H. exact (gap u rnd H dir q1 q2 pan_s1 pan_s2 pan_c i M). Qed.
Print Assumptions C116_gap.

(** Without rounding this is the exact lattice. *)
Theorem C116_exact dir q pan_s pan_c i j :
  let f := fmake_panel (fun x => x) dir q pan_s pan_c i j in let p := make_panel dir q pan_s pan_c i j in
  lP f = pP p /\ lQ f = pQ p /\ lR f = pR p /\ lS f = pS p /\ lV1 f = pV1 p /\ lV2 f = pV2 p /\ lV3 f = pV3 p /\ lV4 f = pV4 p /\
  lC f = pC p /\ lB f = pB p /\ lA f = pA p /\ (forall N, lN f = Some N -> N = pN p).
Proof. exact (lat_exact dir q pan_s pan_c i j). Qed.
Print Assumptions C116_exact.

(** Two subareas with a common edge; a square whose normal survives rounding. *)
Example C116_example dir : rounding u53 double /\ adjacent plate1 plate2 /\ bounded 2 plate1 /\ bounded 2 plate2 /\
  double (vx (qa plate2)) = vx (qa plate2) /\ bounded 1 square /\
  let p := make_panel dir square 1 1 0 0 in 3 * normal_error u53 1 < vnorm (normal_raw (pP p) (pQ p) (pR p) (pC p)).
Proof.
  exact (conj double_rounding (conj plates_adjacent (conj (proj1 plates_bounded) (conj (proj2 plates_bounded)
    (conj double_tiny (conj square_bounded (square_normal dir))))))).
Qed.
