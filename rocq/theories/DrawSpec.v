(** Specification for C114, written without the functions of the drawing model. *)
From Coq Require Import List String ZArith QArith Reals Qreals.
From Verif Require Import PyBase Vec PanelModel StripModel StripSpec GeomSpec.
Import ListNotations.

(** On every strip carrying the control [c], the ends of its device line satisfy [dev] and the
    ends of its hinge line satisfy [hin] (arguments: span position, chord position). *)
Definition follows (dev hin : Q -> Q -> Prop) (c : control) (seg : segment) : Prop :=
  forall s k x1 x2 h1 h2, In s seg -> has_device s k c x1 x2 h1 h2 ->
    dev (eta_a s) x1 /\ dev (eta_b s) x2 /\ hin (eta_a s) h1 /\ hin (eta_b s) h2.

(** Later operations do not place [c] again. *)
Definition places (o : op) (c : control) : Prop :=
  match o with OpControl _ _ c' _ _ _ _ => c' = c | OpSubdiv _ _ _ => False end.

(** ** Lines of a figure *)
From Verif Require Import AircraftModel GeomModel PlotModel PlotSpec.
Open Scope R_scope.

(** In the view [v], the polyline [l] of a wing with symmetry [sym] appears as [line]: itself or,
    for a symmetric wing, its mirror image, projected on the axes of the view. *)
Definition appears (v : view) (sym : Z) (l : list vec) (line : list (list R)) : Prop :=
  line = map (projection v) l \/ exists l', Forall2 (mirror_image sym) l l' /\ line = map (projection v) l'.

(** Outline of a quadrilateral *)
Definition closed_outline (q : quad) : list vec := [qa q; qb q; qc q; qd q; qa q].

(** Outline of a control: of a flap its sides and its front edge, of a slat its sides and its rear
    edge; [qi] and [qo] are the segments it begins and ends on, (e, x) its ends there. *)
Definition control_outline (k : dkind) (qi qo : quad) (e1 x1 e2 x2 : R) : list vec :=
  match k with
  | Flap => [surface qi e1 1; surface qi e1 x1; surface qo e2 x2; surface qo e2 1]
  | Slat => [surface qo e2 0; surface qo e2 x2; surface qi e1 x1; surface qi e1 0]
  end.

(** A control that can be drawn: its type, its hinge and the two segments are known. *)
Definition drawable (w : wing) (c : wcontrol) (k : dkind) (i o : string) (h1 h2 : Q) : Prop :=
  ct_type (wc_ctl c) = Some k /\ wc_inner c = Some i /\ wc_outer c = Some o /\
  (exists s, dget (w_segs w) i = Some s) /\ (exists s, dget (w_segs w) o = Some s) /\
  wc_h_inner c = Some h1 /\ wc_h_outer c = Some h2.

(** Polylines of the aircraft, with the symmetry of the wing: outlines of segments; outlines and
    hinge lines of controls. *)
Definition wing_line (corners : string -> string -> quad) (a : aircraft) (sym : Z) (l : list vec) : Prop :=
  exists wn w sn s, In (wn, w) (a_wings a) /\ In (sn, s) (w_segs w) /\ sym = w_symmetry w /\
    l = closed_outline (corners (w_uid w) sn).
Definition control_line (corners : string -> string -> quad) (a : aircraft) (sym : Z) (l : list vec) : Prop :=
  exists wn w cn c k i o h1 h2, In (wn, w) (a_wings a) /\ In (cn, c) (w_ctls w) /\ sym = w_symmetry w /\
    drawable w c k i o h1 h2 /\
    let qi := corners (w_uid w) i in let qo := corners (w_uid w) o in
    let e1 := Q2R (wc_eta_inner c) in let e2 := Q2R (wc_eta_outer c) in
    (l = control_outline k qi qo e1 (Q2R (wc_xsi_inner c)) e2 (Q2R (wc_xsi_outer c)) \/
     l = [surface qi e1 (Q2R h1); surface qo e2 (Q2R h2)]).

Definition all_drawable (a : aircraft) : Prop :=
  forall wn w cn c, In (wn, w) (a_wings a) -> In (cn, c) (w_ctls w) -> exists k i o h1 h2, drawable w c k i o h1 h2.

(** Relative positions between 0 and 1. *)
Definition placed_inside (a : aircraft) : Prop :=
  forall wn w cn c, In (wn, w) (a_wings a) -> In (cn, c) (w_ctls w) ->
    (0 <= wc_eta_inner c <= 1 /\ 0 <= wc_eta_outer c <= 1 /\ 0 <= wc_xsi_inner c <= 1 /\ 0 <= wc_xsi_outer c <= 1)%Q /\
    (forall h, wc_h_inner c = Some h \/ wc_h_outer c = Some h -> (0 <= h <= 1)%Q).

(** ** Where a control acts *)

(** [interp] is [xsi_interpol] on the segment [q], wherever it returns. *)
Definition computes (q : quad) (interp : Q * Q -> Q * Q -> Q -> res Q) : Prop :=
  forall e1 x1 e2 x2 eta x, (0 <= e1 /\ e1 < e2 /\ e2 <= 1 /\ e1 <= eta <= e2 /\ 0 <= x1 <= 1 /\ 0 <= x2 <= 1)%Q ->
    interp (e1, x1) (e2, x2) eta = Ok x ->
    xsi_interpol q (Q2R e1, Q2R x1) (Q2R e2, Q2R x2) (Q2R eta) = Some (Q2R x).

(** Edge of a device opposite to the edge of the wing: front edge of a flap, rear edge of a slat. *)
Definition inner_edge (k : dkind) (q : quad) : vec * vec :=
  match k with Flap => (qa q, qb q) | Slat => (qd q, qc q) end.

(** A subarea of a strip in relative coordinates, over the reals. *)
Definition real_etas (s : strip) : etas := mkEtas (Q2R (eta_a s)) (Q2R (eta_b s)) (Q2R (eta_c s)) (Q2R (eta_d s)).
Definition real_xsis (v : subarea) : xsis := mkXsis (Q2R (xsi_a v)) (Q2R (xsi_b v)) (Q2R (xsi_c v)) (Q2R (xsi_d v)).

(** The line of a device of the strip [s] of the segment [q] and its hinge line, on the side the
    wing was drawn on ([m] false) or on the mirrored side, lie on the segments from [A] to [B] and
    from [C] to [D]. *)
Definition lies_on (q : quad) (s : strip) (k : dkind) (v : subarea) (m : bool) (sym : Z) (A B C D : vec) : Prop :=
  exists sub g1 g2 p1 p2, subarea_vertices q (real_etas s) (real_xsis v) m sym = Ok sub /\
    sa_hinge v = Some (g1, g2) /\ hinge_vertices q (real_etas s) (Q2R g1) (Q2R g2) m sym = Ok (p1, p2) /\
    on_segment A B (fst (inner_edge k sub)) /\ on_segment A B (snd (inner_edge k sub)) /\
    on_segment C D p1 /\ on_segment C D p2.
