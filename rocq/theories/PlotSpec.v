(** What the size of an aircraft is and what figures must show. *)
From Coq Require Import Reals ZArith List.
From Verif Require Import Vec PanelModel PlotModel.
Import ListNotations.
Open Scope R_scope.

(** Mirror image for symmetry 1 (plane xy), 2 (xz) and 3 (yz). *)
Inductive mirror_image : Z -> vec -> vec -> Prop :=
| mi_xy x y z : mirror_image 1 (mkV x y z) (mkV x y (- z))
| mi_xz x y z : mirror_image 2 (mkV x y z) (mkV x (- y) z)
| mi_yz x y z : mirror_image 3 (mkV x y z) (mkV (- x) y z).

Definition vertex (q : quad) (p : vec) : Prop := p = qa q \/ p = qb q \/ p = qc q \/ p = qd q.
(** Vertices of the aircraft, including those of mirrored wings *)
Definition aircraft_vertex (segs : list psegment) (p : vec) : Prop :=
  exists sym q, In (sym, q) segs /\ (vertex q p \/ exists p0, vertex q p0 /\ mirror_image sym p0 p).

(** The same with the origin. *)
Definition with_origin (segs : list psegment) (p : vec) : Prop := p = vzero \/ aircraft_vertex segs p.

Definition coord (a : axis) (p : vec) : R := match a with AX => vx p | AY => vy p | AZ => vz p end.

(** Smallest box along the axes around a set of points. *)
Definition bounding_box (S : vec -> Prop) (lo hi : vec) : Prop :=
  forall a, (forall p, S p -> coord a lo <= coord a p <= coord a hi) /\
    (exists p, S p /\ coord a p = coord a lo) /\ (exists p, S p /\ coord a p = coord a hi).

Definition all_views (v : views) : list view := [view_3d v; view_yz v; view_xz v; view_xy v].
Definition shown (v : view) (c : list R) : Prop := exists line, In line (v_lines v) /\ In c line.
Definition projection (v : view) (p : vec) : list R := map (fun a => coord a p) (v_labels v).

(** Point of a bilinear patch. *)
Definition on_patch (q : quad) (p : vec) : Prop :=
  exists r s, 0 <= r <= 1 /\ 0 <= s <= 1 /\
    p = vadd (vadd (vscale ((1 - r) * (1 - s)) (qa q)) (vscale (r * (1 - s)) (qb q)))
             (vadd (vscale (r * s) (qc q)) (vscale ((1 - r) * s) (qd q))).

(** Colour of a value: 0 for the least, 1 for the greatest, proportional between. *)
Definition colours (data values : list R) : Prop :=
  length values = length data /\ Forall (fun x => 0 <= x <= 1) values /\
  forall i j k x y z u v w,
    nth_error data i = Some x -> nth_error data j = Some y -> nth_error data k = Some z ->
    nth_error values i = Some u -> nth_error values j = Some v -> nth_error values k = Some w ->
    (x <= y -> u <= v) /\
    ((forall t, In t data -> x <= t) -> u = 0) /\
    ((forall t, In t data -> t <= x) -> (exists t, In t data /\ t <> x) -> u = 1) /\
    (v - u) * (z - x) = (w - u) * (y - x).

(** A grid of points drawn as a surface shows a quadrilateral: it lies on its patch and has its
    vertices. *)
Definition surface_of (q : quad) (rows : list (list vec)) : Prop :=
  (forall p, (exists row, In row rows /\ In p row) -> on_patch q p) /\
  (forall p, vertex q p -> exists row, In row rows /\ In p row).
