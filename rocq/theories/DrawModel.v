(** Model of the drawing of control surfaces and meshes: [WingControl.abs_vertices] and
    [abs_hinge_vertices] (objects/aircraft.py:1439-1483), [add_controls] (plot/plottools.py:433-456),
    [add_lattice] (506-520) and the figures [plot_geometry_aircraft] and [plot_lattice_aircraft]
    (plot/makeplots.py:81-119).

    Simplifications: as in [PlotModel.v] (lines are lists of points, no colours, no markers, so the
    marker of the centre of gravity and the points of a deformation field are left out); the corners
    of a segment are given by [corners] (wing uid, segment uid), they exist for every segment of
    the wing; an exception while drawing loses the figure. *)
From Coq Require Import Reals Qreals QArith List ZArith String.
From Verif Require Import PyBase Vec PanelModel StripModel AircraftModel GeomModel PlotModel.
Import ListNotations.
Open Scope R_scope.

Section Draw.
Variable corners : string -> string -> quad.

(** [self.parent_wing.segments[name].vertices] (1445-1446, 1471-1472) *)
Definition segment_corners (w : wing) (name : option string) : res quad :=
  match name with
  | None => Err KeyError
  | Some n => if dmem (w_segs w) n then Ok (corners (w_uid w) n) else Err KeyError
  end.

(** [WingControl.abs_vertices] (1439-1466) *)
Definition abs_vertices (w : wing) (c : wcontrol) : res quad :=
  let? inner := segment_corners w (wc_inner c) in
  let? outer := segment_corners w (wc_outer c) in
  let eta_inner := Q2R (wc_eta_inner c) in let xsi_inner := Q2R (wc_xsi_inner c) in
  let eta_outer := Q2R (wc_eta_outer c) in let xsi_outer := Q2R (wc_xsi_outer c) in
  match ct_type (wc_ctl c) with
  | Some Flap => Ok (mkQuad (seg_point inner eta_inner xsi_inner) (seg_point outer eta_outer xsi_outer)
                            (seg_point outer eta_outer 1) (seg_point inner eta_inner 1))
  | Some Slat => Ok (mkQuad (seg_point inner eta_inner 0) (seg_point outer eta_outer 0)
                            (seg_point outer eta_outer xsi_outer) (seg_point inner eta_inner xsi_inner))
  | None => Err UnboundLocalError
  end.

(** [WingControl.abs_hinge_vertices] (1468-1483); a hinge position that is not set cannot be
    multiplied. *)
Definition abs_hinge_vertices (w : wing) (c : wcontrol) : res (vec * vec) :=
  let? inner := segment_corners w (wc_inner c) in
  let? outer := segment_corners w (wc_outer c) in
  match wc_h_inner c, wc_h_outer c with
  | Some h1, Some h2 => Ok (seg_point inner (Q2R (wc_eta_inner c)) (Q2R h1),
                            seg_point outer (Q2R (wc_eta_outer c)) (Q2R h2))
  | _, _ => Err TypeError
  end.

(** Body of the loop of [add_controls] (444-456): the order is 'dabc' for flaps, else 'bcda'. *)
Definition draw_control (v : views) (w : wing) (c : wcontrol) : res views :=
  let? q := abs_vertices w c in
  let points := match ct_type (wc_ctl c) with
                | Some Flap => [qd q; qa q; qb q; qc q]
                | _ => [qb q; qc q; qd q; qa q]
                end in
  let v := plot_points v points (w_symmetry w) in
  let? h := abs_hinge_vertices w c in
  Ok (plot_points v [fst h; snd h] (w_symmetry w)).

Fixpoint draw_controls (v : views) (w : wing) (cs : list (string * wcontrol)) : res views :=
  match cs with
  | [] => Ok v
  | (_, c) :: cs => let? v := draw_control v w c in draw_controls v w cs
  end.

(** [add_controls] (433-456) over [all_controls] (objecttools.py:64-79) *)
Fixpoint draw_wings (v : views) (ws : list (string * wing)) : res views :=
  match ws with
  | [] => Ok v
  | (_, w) :: ws => let? v := draw_controls v w (w_ctls w) in draw_wings v ws
  end.
Definition add_controls (v : views) (a : aircraft) : res views := draw_wings v (a_wings a).

(** The segments of the aircraft for [PlotModel.v]: (symmetry, corners), in the order of
    [all_segments]. *)
Definition plot_segments (a : aircraft) : list psegment :=
  flat_map (fun e => map (fun s => (w_symmetry (snd e), corners (w_uid (snd e)) (fst s))) (w_segs (snd e))) (a_wings a).

(** [plot_geometry_aircraft] (makeplots.py:81-96) *)
Definition geometry_plot (a : aircraft) : res views := add_controls (geometry_figure (plot_segments a)) a.

(** [add_lattice] (506-520): the panels, without mirroring ([symmetry=None]) *)
Definition add_lattice (v : views) (panels : list quad) : views :=
  fold_left (fun v p => plot_points v [qa p; qb p; qc p; qd p; qa p] 0) panels v.

(** [plot_lattice_aircraft] (makeplots.py:99-119); [deformed] is [aircraft.has_deformed_wings]. *)
Definition lattice_plot (a : aircraft) (panels : list quad) (deformed : bool) : res views :=
  let v := add_lattice (scale_plots init_views (plot_segments a)) panels in
  if deformed then Ok v else add_controls v a.

End Draw.
