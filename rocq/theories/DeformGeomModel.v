(** Model of strips, subareas and hinge lines of deformed wings:
    src/lib/pytornado/objects/aircraft.py.

    Simplifications: exact real arithmetic; [get_deformed_point] of the aeroframe library with a
    given field is a function from points to points. *)
From Coq Require Import Reals ZArith Bool.
From Verif Require Import PyBase Vec PanelModel GeomModel.
Open Scope R_scope.

(** The two fields of a wing (297-299): [None] or the map of [get_deformed_point]. *)
Record fields := mkFields { f_field : option (vec -> vec); f_mirror : option (vec -> vec) }.
(** [is_deformed] (327-332) *)
Definition is_deformed (f : fields) : bool :=
  match f_field f, f_mirror f with None, None => false | _, _ => true end.

(** [get_deformed_segment_point] (952-981) *)
Definition deformed_point (f : fields) (seg : quad) (eta xsi : R) (mirror : bool) (sym : Z) : res vec :=
  let point := seg_point seg eta xsi in
  let? point := (if mirror then snd (mirror_point point (PlInt sym)) else Ok point) in
  match (if mirror then f_mirror f else f_field f) with
  | None => Ok point
  | Some g => Ok (g point)
  end.

(** [SegmentStrip.abs_vertices] (1583-1631) *)
Definition strip_vertices_d (f : fields) (seg : quad) (e : etas) (mirror : bool) (sym : Z) : res quad :=
  if is_deformed f then
    let? a_abs := deformed_point f seg (r_eta_a e) 0 mirror sym in
    let? b_abs := deformed_point f seg (r_eta_b e) 0 mirror sym in
    let? c_abs := deformed_point f seg (r_eta_c e) 1 mirror sym in
    let? d_abs := deformed_point f seg (r_eta_d e) 1 mirror sym in
    if mirror
    then let? v := order_mirrored (a_abs, b_abs, c_abs, d_abs) (PlInt sym) in Ok (quad_of v)
    else Ok (mkQuad a_abs b_abs c_abs d_abs)
  else strip_vertices seg e mirror sym.

(** [StripSubdivision.abs_vertices] (1845-1878) *)
Definition subarea_vertices_d (f : fields) (seg : quad) (e : etas) (x : xsis) (mirror : bool) (sym : Z) : res quad :=
  let? sd := strip_vertices_d f seg e mirror sym in
  let? xs := (if mirror
              then order_mirrored (r_xsi_a x, r_xsi_b x, r_xsi_c x, r_xsi_d x) (PlInt sym)
              else Ok (r_xsi_a x, r_xsi_b x, r_xsi_c x, r_xsi_d x)) in
  let '(xa, xb, xc, xd) := xs in
  Ok (mkQuad (vadd (qa sd) (vscale xa (vsub (qd sd) (qa sd))))
             (vadd (qb sd) (vscale xb (vsub (qc sd) (qb sd))))
             (vadd (qb sd) (vscale xc (vsub (qc sd) (qb sd))))
             (vadd (qa sd) (vscale xd (vsub (qd sd) (qa sd))))).

(** [abs_hinge_vertices] (1880-1910) *)
Definition hinge_vertices_d (f : fields) (seg : quad) (e : etas) (h1 h2 : R) (mirror : bool) (sym : Z) : res (vec * vec) :=
  let? sd := strip_vertices_d f seg e mirror sym in
  let '(x1, x2) := if (mirror && Z.eqb sym 2)%bool then (h2, h1) else (h1, h2) in
  Ok (vadd (qa sd) (vscale x1 (vsub (qd sd) (qa sd))),
      vadd (qb sd) (vscale x2 (vsub (qc sd) (qb sd)))).
