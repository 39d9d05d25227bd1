(** Model of the size of an aircraft and of what the figures show: [Aircraft.size]
    (objects/aircraft.py:165-211) and plot/plottools.py: [_get_limits] (91-138), [_scale_fig]
    (141-173), [interpolate_quad] (176-215), the views and their labels (255-330), [_scale_plots]
    (332-358), [add_wings] (410-436), the colours of [add_results] (669-706) and
    [_plot_XYZ_points] (709-756).

    Simplifications: real numbers; a figure is its four views (3D, yz, xz, xy) with labels, limits
    and polylines; line widths, markers and matplotlib itself are left out; the lines of controls are in [DrawModel.v].
    A wing segment is its four vertices with the symmetry of its wing, in the order of
    [all_segments].  Minima over no points (an error in numpy) do not occur: every caller passes
    four or five points; a results figure without panels is an error, see [normalise]. *)
From Coq Require Import Reals ZArith List.
From Verif Require Import Vec PanelModel.
Import ListNotations.
Open Scope R_scope.

Definition psegment : Type := Z * quad.

(** [points.min(axis=0)], [points.max(axis=0)] *)
Definition vmin (p q : vec) : vec := mkV (Rmin (vx p) (vx q)) (Rmin (vy p) (vy q)) (Rmin (vz p) (vz q)).
Definition vmax (p q : vec) : vec := mkV (Rmax (vx p) (vx q)) (Rmax (vy p) (vy q)) (Rmax (vz p) (vz q)).
Definition points_min (p : vec) (l : list vec) : vec := fold_left vmin l p.
Definition points_max (p : vec) (l : list vec) : vec := fold_left vmax l p.

(** Replace a limit if the new value is smaller (larger). *)
Definition lower (new old : R) : R := if Rlt_dec new old then new else old.
Definition raise (new old : R) : R := if Rlt_dec old new then new else old.

Definition box : Type := vec * vec.

(** aircraft.py:170-206, one segment *)
Definition size_step (b : box) (s : psegment) : box :=
  let q := snd s in
  let pmin := points_min (qa q) [qb q; qc q; qd q] in
  let pmax := points_max (qa q) [qb q; qc q; qd q] in
  let lo := mkV (lower (vx pmin) (vx (fst b))) (lower (vy pmin) (vy (fst b))) (lower (vz pmin) (vz (fst b))) in
  let hi := mkV (raise (vx pmax) (vx (snd b))) (raise (vy pmax) (vy (snd b))) (raise (vz pmax) (vz (snd b))) in
  match fst s with
  | 1%Z => (mkV (vx lo) (vy lo) (lower (- vz pmax) (vz lo)), mkV (vx hi) (vy hi) (raise (- vz pmin) (vz hi)))
  | 2%Z => (mkV (vx lo) (lower (- vy pmax) (vy lo)) (vz lo), mkV (vx hi) (raise (- vy pmin) (vy hi)) (vz hi))
  | 3%Z => (mkV (lower (- vx pmax) (vx lo)) (vy lo) (vz lo), mkV (raise (- vx pmin) (vx hi)) (vy hi) (vz hi))
  | _ => (lo, hi)
  end.
(** 165-211 *)
Definition aircraft_size (segs : list psegment) : R :=
  let b := fold_left size_step segs (vzero, vzero) in vnorm (vsub (snd b) (fst b)).

(** plottools.py:91-138; the five points of [_scale_plots] *)
Definition get_limits (p : vec) (points : list vec) (b : box) (symmetry : Z) : box :=
  let pmin := points_min p points in
  let pmax := points_max p points in
  let lo := mkV (lower (vx pmin) (vx (fst b))) (lower (vy pmin) (vy (fst b))) (lower (vz pmin) (vz (fst b))) in
  let hi := mkV (raise (vx pmax) (vx (snd b))) (raise (vy pmax) (vy (snd b))) (raise (vz pmax) (vz (snd b))) in
  match symmetry with
  | 1%Z => (mkV (vx lo) (vy lo) (lower (- vz pmax) (vz lo)), mkV (vx hi) (vy hi) (raise (- vz pmin) (vz hi)))
  | 2%Z => (mkV (vx lo) (lower (- vy pmax) (vy lo)) (vz lo), mkV (vx hi) (raise (- vy pmin) (vy hi)) (vz hi))
  | 3%Z => (mkV (lower (- vx pmax) (vx lo)) (vy lo) (vz lo), mkV (raise (- vx pmin) (vx hi)) (vy hi) (vz hi))
  | _ => (lo, hi)
  end.
Definition limits (segs : list psegment) : box :=
  fold_left (fun b s => get_limits (qa (snd s)) [qb (snd s); qc (snd s); qd (snd s); qa (snd s)] b (fst s))
    segs (vzero, vzero).

(** 141-173 *)
Inductive axis := AX | AY | AZ.
Definition scale_factor : R := 105 / 100.
Definition domain (b : box) (a : axis) : R * R :=
  let d := vsub (snd b) (fst b) in
  let range_max := 1 / 2 * Rmax (Rmax (vx d) (vy d)) (vz d) in
  let x_mid := 1 / 2 * (vx (snd b) + vx (fst b)) in
  let y_mid := 1 / 2 * (vy (snd b) + vy (fst b)) in
  let z_mid := 1 / 2 * (vz (snd b) + vz (fst b)) in
  match a with
  | AX => (x_mid - scale_factor * range_max, x_mid + scale_factor * range_max)
  | AY => (y_mid - scale_factor * range_max, y_mid + scale_factor * range_max)
  | AZ => (z_mid - scale_factor * range_max, z_mid + scale_factor * range_max)
  end.

(** A view: labels of its axes (274-277, 316-323), limits (354-358), polylines as lists of
    coordinates. *)
Record view := mkView { v_labels : list axis; v_limits : list (R * R); v_lines : list (list (list R)) }.
Record views := mkViews { view_3d : view; view_yz : view; view_xz : view; view_xy : view }.
Definition init_views : views :=
  mkViews (mkView [AX; AY; AZ] [] []) (mkView [AY; AZ] [] []) (mkView [AX; AZ] [] []) (mkView [AX; AY] [] []).
Definition scale_fig (v : view) (b : box) (directions : list axis) : view :=
  mkView (v_labels v) (map (domain b) directions) (v_lines v).
Definition scale_plots (v : views) (segs : list psegment) : views :=
  let b := limits segs in
  mkViews (scale_fig (view_3d v) b [AX; AY; AZ]) (scale_fig (view_yz v) b [AY; AZ])
    (scale_fig (view_xz v) b [AX; AZ]) (scale_fig (view_xy v) b [AX; AY]).
Definition plot (v : view) (line : list (list R)) : view := mkView (v_labels v) (v_limits v) (v_lines v ++ [line]).

(** 709-756 *)
Definition plot_points (v : views) (points : list vec) (symmetry : Z) : views :=
  let v := mkViews
    (plot (view_3d v) (map (fun p => [vx p; vy p; vz p]) points))
    (plot (view_yz v) (map (fun p => [vy p; vz p]) points))
    (plot (view_xz v) (map (fun p => [vx p; vz p]) points))
    (plot (view_xy v) (map (fun p => [vx p; vy p]) points)) in
  match symmetry with
  | 1%Z => mkViews
      (plot (view_3d v) (map (fun p => [vx p; vy p; - vz p]) points))
      (plot (view_yz v) (map (fun p => [vy p; - vz p]) points))
      (plot (view_xz v) (map (fun p => [vx p; - vz p]) points))
      (view_xy v)
  | 2%Z => mkViews
      (plot (view_3d v) (map (fun p => [vx p; - vy p; vz p]) points))
      (plot (view_yz v) (map (fun p => [- vy p; vz p]) points))
      (view_xz v)
      (plot (view_xy v) (map (fun p => [vx p; - vy p]) points))
  | 3%Z => mkViews
      (plot (view_3d v) (map (fun p => [- vx p; vy p; vz p]) points))
      (view_yz v)
      (plot (view_xz v) (map (fun p => [- vx p; vz p]) points))
      (plot (view_xy v) (map (fun p => [- vx p; vy p]) points))
  | _ => v
  end.
(** 410-430 *)
Definition add_wings (v : views) (segs : list psegment) : views :=
  fold_left (fun v s => plot_points v [qa (snd s); qb (snd s); qc (snd s); qd (snd s); qa (snd s)] (fst s)) segs v.
(** [plot2d3d] (238-245) and [plot_geometry_aircraft] (makeplots.py:81-96), wings only *)
Definition geometry_figure (segs : list psegment) : views := add_wings (scale_plots init_views segs) segs.

(** Colours (684-690): values between 0 and 1.  [max] of no data is an error. *)
Definition normalise (data : list R) : option (list R) :=
  match data with
  | [] => None
  | x :: l =>
      let lo := fold_left Rmin l x in
      let hi := fold_left Rmax l x in
      Some (map (fun v => if Req_EM_T (hi - lo) 0 then 0 else (v - lo) / (hi - lo)) data)
  end.

(** 176-215.  [np.linspace(0, 1, num)] for [num] at least 2, [np.ceil]. *)
Definition linspace01 (n : nat) : list R := map (fun i => INR i / INR (n - 1)) (seq 0 n).
Definition ceil (x : R) : Z := (- Int_part (- x))%Z.
Definition num_points : R := 100.
Definition bilinear (a b c d r s : R) : R := a + (b - a) * r + (d - a) * s + (a - b + c - d) * r * s.
Definition interpolate_quad (q : quad) (size : R) : option (list (list vec)) :=
  if Req_EM_T size 0 then None else
  let fr := 1 / 2 * vnorm (vsub (qb q) (qa q)) + 1 / 2 * vnorm (vsub (qc q) (qd q)) in
  let fs := 1 / 2 * vnorm (vsub (qd q) (qa q)) + 1 / 2 * vnorm (vsub (qc q) (qb q)) in
  let nr := Z.to_nat (2 + ceil (num_points * fr / size)) in
  let ns := Z.to_nat (2 + ceil (num_points * fs / size)) in
  Some (map (fun s => map (fun r =>
    mkV (bilinear (vx (qa q)) (vx (qb q)) (vx (qc q)) (vx (qd q)) r s)
        (bilinear (vy (qa q)) (vy (qb q)) (vy (qc q)) (vy (qd q)) r s)
        (bilinear (vz (qa q)) (vz (qb q)) (vz (qc q)) (vz (qd q)) r s)) (linspace01 nr)) (linspace01 ns)).

(** 692-701: the surfaces of a results figure with their colours. *)
Definition results_surfaces (data : list R) (panels : list quad) (segs : list psegment)
    : option (list (R * list (list vec))) :=
  match normalise data with
  | None => None
  | Some values =>
      fold_right (fun pv acc =>
        match interpolate_quad (fst pv) (aircraft_size segs), acc with
        | Some s, Some l => Some ((snd pv, s) :: l) | _, _ => None end) (Some []) (combine panels values)
  end.
