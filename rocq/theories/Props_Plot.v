(** Property theorems: size of an aircraft and figures (C73, C74, C75). *)
From Coq Require Import Reals ZArith List Lra.
From Verif Require Import Vec PanelModel PlotModel PlotSpec PlotProofs.
Import ListNotations.
Open Scope R_scope.

(** C73: the size is the diagonal of the smallest box around all wings, mirrored parts and the
    origin; it is zero only if every vertex is the origin. *)
Theorem C73_size : forall segs,
  (exists lo hi, bounding_box (with_origin segs) lo hi /\ aircraft_size segs = vnorm (vsub hi lo)) /\
  (0 < aircraft_size segs <-> exists p, aircraft_vertex segs p /\ p <> vzero).
Proof. intro segs. split; [exact (size_box segs)|exact (size_positive segs)]. Qed.
Print Assumptions C73_size.
(** The origin belongs to the box, even if the aircraft is elsewhere. *)
Theorem C73_origin_refuted : exists segs lo hi,
  bounding_box (aircraft_vertex segs) lo hi /\ 7 * vnorm (vsub hi lo) < aircraft_size segs.
Proof. exact size_wrong. Qed.
Print Assumptions C73_origin_refuted.
Definition ex_wing : list psegment := [(2%Z, mkQuad (mkV 0 0 0) (mkV 1 3 1) (mkV 2 3 1) (mkV 2 0 0))].
Example C73_example : aircraft_vertex ex_wing (mkV 1 (-3) 1) /\ mkV 1 (-3) 1 <> vzero.
Proof.
  split; [|intro H; injection H; lra]. exists 2%Z. eexists. split; [left; reflexivity|]. right. exists (mkV 1 3 1).
  split; [right; left; reflexivity|]. replace (-3) with (- (3)) by reflexivity. constructor.
Qed.

(** C74: in each of the four views the lines of the wings are the projections of all vertices and
    mirrored vertices on the labelled axes; every point lies within the limits of the axes, and the
    axes of a view have equal ranges, 5 percent more than the largest extent of aircraft and
    origin. *)
Theorem C74_figure : forall segs v, In v (all_views (geometry_figure segs)) ->
  (forall c, shown v c <-> exists p, aircraft_vertex segs p /\ c = projection v p) /\
  (forall c, shown v c -> Forall2 (fun x lim => fst lim <= x <= snd lim) c (v_limits v)) /\
  (forall l1 l2, In l1 (v_limits v) -> In l2 (v_limits v) -> snd l1 - fst l1 = snd l2 - fst l2) /\
  (forall l, In l (v_limits v) -> exists a p q, with_origin segs p /\ with_origin segs q /\
     snd l - fst l = 105 / 100 * (coord a p - coord a q)).
Proof.
  intros segs v V. split; [intro c; exact (figure_shows segs v c V)|]. split; [intro c; exact (figure_inside segs v c V)|].
  split; [intros l1 l2; exact (figure_aspect segs v l1 l2 V)|intro l; exact (figure_fill segs v l V)].
Qed.
Print Assumptions C74_figure.
Example C74_example : map v_labels (all_views (geometry_figure ex_wing)) = [[AX; AY; AZ]; [AY; AZ]; [AX; AZ]; [AX; AY]] /\
  map (fun v => length (v_lines v)) (all_views (geometry_figure ex_wing)) = [2; 2; 1; 2]%nat.
Proof. split; reflexivity. Qed.

(** C75: a results figure shows every panel by points of its bilinear patch with its four
    vertices; its colour is 0 for the least value, 1 for the greatest, and linear between. *)
Theorem C75_results : forall data panels segs,
  data <> [] -> length panels = length data -> (exists p, aircraft_vertex segs p /\ p <> vzero) ->
  exists l, results_surfaces data panels segs = Some l /\ colours data (map fst l) /\
    Forall2 (fun q s => surface_of q (snd s)) panels l.
Proof. exact results_ok. Qed.
Print Assumptions C75_results.
Example C75_example : [1; 5; 2] <> [] /\ length [mkQuad vzero (mkV 1 3 1) (mkV 2 3 1) (mkV 2 0 0); mkQuad vzero (mkV 1 3 1) (mkV 2 3 1) (mkV 2 0 0);
  mkQuad vzero (mkV 1 3 1) (mkV 2 3 1) (mkV 2 0 0)] = length [1; 5; 2] /\ exists p, aircraft_vertex ex_wing p /\ p <> vzero.
Proof. split; [discriminate|]. split; [reflexivity|]. exists (mkV 1 (-3) 1). exact C73_example. Qed.
