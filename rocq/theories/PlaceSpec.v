(** Where the panels of the lattice lie on the wings (C122): from the vertices of a segment and the
    relative coordinates of strips and subareas, without the functions that compute the lattice. *)
From Coq Require Import Reals List ZArith String QArith Qreals.
From Verif Require Import PyBase Vec StripModel AircraftModel LatticeModel PanelModel GeomSpec NormalSpec.
Import ListNotations.
Open Scope R_scope.

(** The fraction [t] of the way from [u] to [v]. *)
Definition part (u v t : R) : R := (1 - t) * u + t * v.

(** The points at chord position [x] on the inner and on the outer edge of a strip. *)
Definition inner_at (seg : PanelModel.quad) (d : strip) (x : R) : vec :=
  along (surface seg (Q2R (eta_a d)) 0) (surface seg (Q2R (eta_d d)) 1) x.
Definition outer_at (seg : PanelModel.quad) (d : strip) (x : R) : vec :=
  along (surface seg (Q2R (eta_b d)) 0) (surface seg (Q2R (eta_c d)) 1) x.

(** The side of a wing: as given, or mirrored about its plane of symmetry. *)
Inductive side := Given | Mirrored (p : plane).
Definition has_side (w : wing) (s : side) : Prop :=
  match s with Given => True | Mirrored p => w_symmetry w = plane_num p end.
Definition is_mirror (s : side) : bool := match s with Given => false | Mirrored _ => true end.

(** The points at fraction [t] from front to back on the first and second edge of a subarea.  About
    'xz' the edges change places.  About 'yz' the mirrored piece is put at the chord positions
    counted from the trailing edge, which is not a reflection (C15). *)
Definition edges (s : side) (seg : PanelModel.quad) (d : strip) (v : subarea) (t : R) : vec * vec :=
  let i := inner_at seg d (part (Q2R (xsi_a v)) (Q2R (xsi_d v)) t) in
  let o := outer_at seg d (part (Q2R (xsi_b v)) (Q2R (xsi_c v)) t) in
  match s with
  | Given => (i, o)
  | Mirrored XY => (refl XY i, refl XY o)
  | Mirrored XZ => (refl XZ o, refl XZ i)
  | Mirrored YZ => (refl YZ (inner_at seg d (1 - part (Q2R (xsi_d v)) (Q2R (xsi_a v)) t)),
                    refl YZ (outer_at seg d (1 - part (Q2R (xsi_c v)) (Q2R (xsi_b v)) t)))
  end.

(** Panel number [k] of [n] in a subarea has its corners there. *)
Definition placed (s : side) (seg : PanelModel.quad) (d : strip) (v : subarea) (n k : Z) (p : panel) : Prop :=
  let front := edges s seg d v (IZR k / IZR n) in
  let back := edges s seg d v ((IZR k + 1) / IZR n) in
  pP p = fst front /\ pQ p = snd front /\ pR p = snd back /\ pS p = fst back.

(** First and second hinge point. *)
Definition hinge_points (s : side) (seg : PanelModel.quad) (d : strip) (h1 h2 : R) : vec * vec :=
  let i := inner_at seg d h1 in let o := outer_at seg d h2 in
  match s with
  | Given => (i, o)
  | Mirrored XY => (refl XY i, refl XY o)
  | Mirrored XZ => (refl XZ o, refl XZ i)
  | Mirrored YZ => (refl YZ (inner_at seg d (1 - h1)), refl YZ (outer_at seg d (1 - h2)))
  end.

(** The deflection of a control on a side. *)
Definition deflection_on (s : side) (wc : wcontrol) : option Q :=
  match s with Given => wc_deflection wc | Mirrored _ => wc_deflection_mirror wc end.

(** Subarea [v] of strip [d] of segment [g] of wing [w] of the aircraft. *)
Definition piece_of (a : aircraft) (w : wing) (g : wsegment) (d : strip) (v : subarea) : Prop :=
  exists wn gn ty, In (wn, w) (a_wings a) /\ In (gn, g) (w_segs w) /\ In d (ws_strips g) /\ In (ty, v) (st_subs d).

(** The number of panels along the chord of a subarea: that of its control; on the main surface the
    number of the segment in proportion to the chord that is left, rounded up. *)
Definition count_for (w : wing) (g : wsegment) (v : subarea) (n : Z) : Prop :=
  match sa_ctrl v with
  | Some c => exists wc, dget (w_ctls w) (ct_uid c) = Some wc /\ wc_num_c wc = Some n
  | None => exists m, ws_num_c g = Some m /\
      let share := (((xsi_d v - xsi_a v) + (xsi_c v - xsi_b v)) / 2 * inject_Z m)%Q in
      (inject_Z (n - 1) < share /\ share <= inject_Z n)%Q
  end.

(** [n'] is the normal [n] after the deflection of the control of the subarea on this side: turned
    about the line from the first to the second hinge point. *)
Definition after_deflection (s : side) (seg : PanelModel.quad) (w : wing) (d : strip) (v : subarea) (n n' : vec) : Prop :=
  match sa_ctrl v with
  | None => n' = n
  | Some c => exists wc, dget (w_ctls w) (ct_uid c) = Some wc /\
      match deflection_on s wc with
      | None => n' = n
      | Some deg => exists h1 h2, sa_hinge v = Some (h1, h2) /\
          let (h, h') := hinge_points s seg d (Q2R h1) (Q2R h2) in
          (h <> h' -> turned (vsub h' h) (Q2R deg) n n') /\ ((deg == 0)%Q -> n' = n)
      end
  end.

(** Mean chord position of the collocation point of panel [k] of [n] in a subarea. *)
Definition colloc_chord (v : subarea) (n k : Z) : R :=
  let t := (IZR k + 3 / 4) / IZR n in
  (part (Q2R (xsi_a v)) (Q2R (xsi_d v)) t + part (Q2R (xsi_b v)) (Q2R (xsi_c v)) t) / 2.

(** [n'] is the normal [n] turned by [deg] degrees about an axis in the plane of the corners a, b, d
    of the subarea, perpendicular to its first edge, towards that edge's outside. *)
Definition after_camber (s : side) (seg : PanelModel.quad) (d : strip) (v : subarea) (deg : R) (n n' : vec) : Prop :=
  let '(A, B) := edges s seg d v 0 in
  let D := fst (edges s seg d v 1) in
  let ab := vsub B A in let ad := vsub D A in
  (deg = 0 -> n' = n) /\
  (vcross ab ad <> vzero ->
   exists axis, axis <> vzero /\ vdot axis ad = 0 /\ vdot axis (vcross ab ad) = 0 /\ vdot axis ab < 0 /\ turned axis deg n n').

(** A point as seen on a side. *)
Definition on_side (s : side) (x : vec) : vec := match s with Given => x | Mirrored p => refl p x end.
(** A point on one of the side edges, on the front edge or on the rear edge of a panel. *)
Definition on_sides (p : panel) (x : vec) : Prop := on_segment (pP p) (pS p) x \/ on_segment (pQ p) (pR p) x.
Definition on_front (p : panel) (x : vec) : Prop := on_segment (pP p) (pQ p) x.
Definition on_rear (p : panel) (x : vec) : Prop := on_segment (pS p) (pR p) x.

(** The components of a visit of a subarea. *)
Definition visits (vi : subarea_visit) (w : wing) (g : wsegment) (d : strip) (v : subarea) : Prop :=
  let '(x, y, z, u) := vi in obj u = w /\ obj z = g /\ obj y = d /\ obj x = v.

(** Panel [p] with final normal [z] is number [k] of [n] on a subarea: at the right place, its normal
    turned first for the deflection, then by the camber angle at its collocation point. *)
Definition right_panel (geo : string -> string -> PanelModel.quad) (camber : subarea_visit -> R -> R) (a : aircraft)
    (w : wing) (g : wsegment) (d : strip) (v : subarea) (s : side) (n k : Z) (p : panel) (z : vec) : Prop :=
  let seg := geo (w_uid w) (ws_uid g) in
  placed s seg d v n k p /\
  exists vi y, In vi (all_subareas a) /\ visits vi w g d v /\
    after_deflection s seg w d v (pN p) y /\
    after_camber s seg d v (camber vi (colloc_chord v n k)) y z.

(** A corner of a panel is a point of the surface of the segment, seen on its side. *)
Definition corner_on (seg : PanelModel.quad) (s : side) (x : vec) : Prop := exists y, on_surface seg y /\ x = on_side s y.
