(** Model of the geometry in objects/aircraft.py: points on a segment, mirroring, absolute
    vertices of strips, subareas and hinge lines, camber axis, collocation positions, and
    [xsi_interpol]; over the reals.

    Simplifications: exact real arithmetic; undeformed wings only ([is_deformed] False), as
    deformed points come from an interpolation library; numpy arrays are vectors of length 3. *)
From Coq Require Import Reals List ZArith String.
From Verif Require Import PyBase Vec PanelModel.
Import ListNotations.
Open Scope R_scope.

(** [get_abs_segment_point_coords] (2033-2056). *)
Definition seg_point (q : quad) (eta xsi : R) : vec :=
  let a_eta := vadd (qa q) (vscale eta (vsub (qb q) (qa q))) in
  let d_eta := vadd (qd q) (vscale eta (vsub (qc q) (qd q))) in
  vadd a_eta (vscale xsi (vsub d_eta a_eta)).

(** The [plane] argument: an integer or a string. *)
Inductive plane_arg := PlInt (n : Z) | PlStr (s : string).
Definition is_plane (p : plane_arg) (s : string) (n : Z) : bool :=
  match p with PlInt m => Z.eqb m n | PlStr t => String.eqb t s end.

(** [mirror_point] (2096-2116).  Result: the argument after the call (a copy is taken at 2105,
    so it is the argument itself) and the outcome. *)
Definition mirror_point (point : vec) (plane : plane_arg) : vec * res vec :=
  let point' := point in
  (point,
   if is_plane plane "xy" 1 then Ok (mkV (vx point') (vy point') (- vz point'))
   else if is_plane plane "xz" 2 then Ok (mkV (vx point') (- vy point') (vz point'))
   else if is_plane plane "yz" 3 then Ok (mkV (- vx point') (vy point') (vz point'))
   else Err ValueError).

(** [order_mirrored_vertex_points] (2119-2142); used for points and for xsi values. *)
Definition order_mirrored {A} (v : A * A * A * A) (plane : plane_arg) : res (A * A * A * A) :=
  let '(a, b, c, d) := v in
  if is_plane plane "xy" 1 then Ok (a, b, c, d)
  else if is_plane plane "xz" 2 then Ok (b, a, d, c)
  else if is_plane plane "yz" 3 then Ok (d, c, b, a)
  else Err ValueError.

(** [mirror_vertices] (2145-2166). *)
Definition mirror_vertices (v : vec * vec * vec * vec) (plane : plane_arg) : res (vec * vec * vec * vec) :=
  let '(a, b, c, d) := v in
  let? a := snd (mirror_point a plane) in
  let? b := snd (mirror_point b plane) in
  let? c := snd (mirror_point c plane) in
  let? d := snd (mirror_point d plane) in
  order_mirrored (a, b, c, d) plane.

Definition quad_of (v : vec * vec * vec * vec) : quad := let '(a, b, c, d) := v in mkQuad a b c d.

(** Relative vertices of a strip ([SegmentStrip.rel_vertices]) and of a subarea. *)
Record etas := mkEtas { r_eta_a : R; r_eta_b : R; r_eta_c : R; r_eta_d : R }.
Record xsis := mkXsis { r_xsi_a : R; r_xsi_b : R; r_xsi_c : R; r_xsi_d : R }.

(** [SegmentStrip.abs_vertices] (1586-1631), undeformed branch. *)
Definition strip_vertices (seg : quad) (e : etas) (mirror : bool) (sym : Z) : res quad :=
  let a_abs := vadd (qa seg) (vscale (r_eta_a e) (vsub (qb seg) (qa seg))) in
  let b_abs := vadd (qa seg) (vscale (r_eta_b e) (vsub (qb seg) (qa seg))) in
  let c_abs := vadd (qd seg) (vscale (r_eta_c e) (vsub (qc seg) (qd seg))) in
  let d_abs := vadd (qd seg) (vscale (r_eta_d e) (vsub (qc seg) (qd seg))) in
  if mirror
  then let? v := mirror_vertices (a_abs, b_abs, c_abs, d_abs) (PlInt sym) in Ok (quad_of v)
  else Ok (mkQuad a_abs b_abs c_abs d_abs).

(** [StripSubdivision.abs_vertices] (1845-1878). *)
Definition subarea_vertices (seg : quad) (e : etas) (x : xsis) (mirror : bool) (sym : Z) : res quad :=
  let? sd := strip_vertices seg e mirror sym in
  let? xs := (if mirror
              then order_mirrored (r_xsi_a x, r_xsi_b x, r_xsi_c x, r_xsi_d x) (PlInt sym)
              else Ok (r_xsi_a x, r_xsi_b x, r_xsi_c x, r_xsi_d x)) in
  let '(xa, xb, xc, xd) := xs in
  Ok (mkQuad (vadd (qa sd) (vscale xa (vsub (qd sd) (qa sd))))
             (vadd (qb sd) (vscale xb (vsub (qc sd) (qb sd))))
             (vadd (qb sd) (vscale xc (vsub (qc sd) (qb sd))))
             (vadd (qa sd) (vscale xd (vsub (qd sd) (qa sd))))).

(** [abs_hinge_vertices] (1880-1910): inner and outer point. *)
Definition hinge_vertices (seg : quad) (e : etas) (h1 h2 : R) (mirror : bool) (sym : Z) : res (vec * vec) :=
  let? sd := strip_vertices seg e mirror sym in
  let '(x1, x2) := if (mirror && Z.eqb sym 2)%bool then (h2, h1) else (h1, h2) in
  Ok (vadd (qa sd) (vscale x1 (vsub (qd sd) (qa sd))),
      vadd (qb sd) (vscale x2 (vsub (qc sd) (qb sd)))).

(** [abs_hinge_axis] (1912-1929). *)
Definition hinge_axis (seg : quad) (e : etas) (h1 h2 : R) (mirror : bool) (sym : Z) : res vec :=
  let? p := hinge_vertices seg e h1 h2 mirror sym in
  Ok (vsub (snd p) (fst p)).

(** [abs_camber_line_rot_axis_vertices] and [abs_camber_line_rot_axis] (1931-1979) from the
    absolute subarea vertices. *)
Definition camber_axis (sub : quad) : vec :=
  let ab := vsub (qb sub) (qa sub) in
  let ad := vsub (qd sub) (qa sub) in
  let subarea_normal := vcross ab ad in
  let rot_axis := vcross subarea_normal ad in
  let p_outer := vadd (qa sub) (vscale (/ vnorm rot_axis) rot_axis) in
  vsub p_outer (qa sub).

(** [get_xsi_for_collocation_points] (2006-2030). *)
Definition collocation_xsi (x : xsis) (num_panels i : Z) : R :=
  let xsi_mid_ab := (r_xsi_a x + r_xsi_b x) / 2 in
  let xsi_mid_cd := (r_xsi_c x + r_xsi_d x) / 2 in
  xsi_mid_ab + ((IZR i + 0.75) / IZR num_panels) * (xsi_mid_cd - xsi_mid_ab).

(** [get_plane_line_intersect] (commonlibs.math.vectors, external): the point where the line
    [line_point + t*line_vec] meets the plane through [plane_point] with normal [n]; None
    stands for the library's behaviour when line and plane are parallel. *)
Definition plane_line_intersect (n plane_point line_vec line_point : vec) : option vec :=
  if Req_EM_T (vdot n line_vec) 0 then None
  else Some (vadd line_point (vscale (vdot n (vsub plane_point line_point) / vdot n line_vec) line_vec)).

(** [xsi_interpol] (2059-2093). *)
Definition xsi_interpol (q : quad) (inner outer : R * R) (eta : R) : option R :=
  let p_inner := seg_point q (fst inner) (snd inner) in
  let p_outer := seg_point q (fst outer) (snd outer) in
  let direction := vsub p_inner p_outer in
  let p_upper := seg_point q eta 0 in
  let p_lower := seg_point q eta 1 in
  let segment_normal := vcross (vsub (qb q) (qa q)) (vsub (qd q) (qa q)) in
  let plane_normal := vcross segment_normal (vsub p_lower p_upper) in
  match plane_line_intersect plane_normal p_upper direction p_inner with
  | None => None
  | Some p => Some (vnorm (vsub p p_upper) / vnorm (vsub p_lower p_upper))
  end.
