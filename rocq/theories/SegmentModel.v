(** Model of the geometric properties that [WingSegment.generate] computes from four vertices
    (objects/aircraft.py:1073-1216), of [WingSegment.area] (641-645), [normal_vector] (647-659) and
    [main_direction] (661-675).

    Simplifications: real numbers; a division by zero of numpy numbers gives NaN, which is [None]
    and which the functions of [math] hand on; the sign of a zero is not kept (atan2 of two zeros
    is 0).  The branches for fewer than four vertices (1053-1071, 1104-1122, 1217-1301) are never
    taken, see [AircraftIOModel.generate_segment]. *)
From Coq Require Import Reals.
From Verif Require Import Vec PanelModel.
Open Scope R_scope.

(** [math.degrees], [math.radians], [math.atan2] *)
Definition degrees (x : R) : R := x * 180 / PI.
Definition radians (x : R) : R := x * PI / 180.
Definition atan2 (y x : R) : R :=
  if Rlt_dec 0 x then atan (y / x)
  else if Rlt_dec x 0 then (if Rle_dec 0 y then atan (y / x) + PI else atan (y / x) - PI)
  else if Rlt_dec 0 y then PI / 2 else if Rlt_dec y 0 then - (PI / 2) else 0.

Definition ndiv (x y : R) : option R := if Req_EM_T y 0 then None else Some (x / y).
Definition omap {A B} (f : A -> B) (o : option A) : option B := match o with Some x => Some (f x) | None => None end.
Definition omap2 {A B C} (f : A -> B -> C) (o : option A) (p : option B) : option C :=
  match o, p with Some x, Some y => Some (f x y) | _, _ => None end.

(** Properties of one chord (1073-1102 and 1124-1146). *)
Record chord_props := mkCP {
  cp_chord : R; cp_alpha : option R; cp_beta : option R; cp_r : R;
  cp_cos : option R; cp_sin : option R; cp_tan : option R }.
Definition chord_properties (d : vec) : chord_props :=
  let r := sqrt (vx d * vx d + vy d * vy d) in
  let chord := sqrt (vx d * vx d + vy d * vy d + vz d * vz d) in
  let cos_b := ndiv (vx d) r in
  let sin_b := ndiv (vy d) r in
  let beta := omap (fun s => - degrees (asin s)) sin_b in
  let alpha := omap (fun c => - degrees (atan2 (vz d) (r * c))) cos_b in
  mkCP chord alpha beta r cos_b sin_b (omap (fun a => tan (radians a)) alpha).

(** Offsets of the axis (1155-1167): y and z. *)
Definition axis_y (p : chord_props) (ax : R) : option R := omap (fun s => cp_r p * ax * s) (cp_sin p).
Definition axis_z (p : chord_props) (ax : R) : option R := omap2 (fun c t => cp_r p * ax * c * t) (cp_cos p) (cp_tan p).

Record geometry := mkGeo {
  g_inner : chord_props; g_outer : chord_props; g_span : R; g_sweep : R; g_dihedral : option R }.

(** 1073-1209 for the vertices a, b, c, d and the positions of the axis. *)
Definition generate (q : quad) (inner_axis outer_axis : R) : geometry :=
  let i := chord_properties (vsub (qd q) (qa q)) in
  let o := chord_properties (vsub (qc q) (qb q)) in
  let axs_y := omap2 Rminus (axis_y o outer_axis) (axis_y i inner_axis) in
  let axs_z := omap2 Rminus (axis_z o outer_axis) (axis_z i inner_axis) in
  let b := vsub (qb q) (qa q) in
  let span := sqrt (vy b * vy b + vz b * vz b) in
  mkGeo i o span (degrees (atan2 (vx b) span))
    (omap2 (fun ay az => degrees (atan2 (vz b + az) (vy b + ay))) axs_y axs_z).

(** [area] (641-645) *)
Definition segment_area (g : geometry) : R := g_span g * (1 / 2) * (cp_chord (g_inner g) + cp_chord (g_outer g)).
(** [normal_vector], [main_direction] (647-675) *)
Definition normal_vector (q : quad) : vec := vcross (vsub (qb q) (qa q)) (vsub (qd q) (qa q)).
Definition main_direction (q : quad) : vec := vcross (vsub (qd q) (qa q)) (normal_vector q).
