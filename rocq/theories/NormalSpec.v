(** Specification of the final panel normals (C40). *)
From Coq Require Import Reals List ZArith String QArith Qreals.
From Verif Require Import PyBase Vec StripModel AircraftModel LatticeModel PanelModel GeomModel GeomSpec NormalModel.
Import ListNotations.
Open Scope R_scope.

(** [w] is [v] turned about the line direction [axis] by [deg] degrees (right-hand rule): the
    component along the axis stays, the component across it turns. *)
Definition turned (axis : vec) (deg : R) (v w : vec) : Prop :=
  let along_axis := vscale (vdot axis v / vdot axis axis) axis in
  let across := vsub v along_axis in
  w = vadd along_axis (vadd (vscale (cos (deg * PI / 180)) across)
                            (vscale (sin (deg * PI / 180) / vnorm axis) (vcross axis across))).

Section Spec.
  Variable geo : string -> string -> quad.
  Variable camber : subarea_visit -> R -> R.

  (** The deflection that applies to a record: that of its control, on its side. *)
  Definition applies (e : entry) (d : option Q) : Prop :=
    match sa_ctrl (v_sub (e_visit e)) with
    | None => d = None
    | Some c => exists wc, dget (w_ctls (v_wing (e_visit e))) (ct_uid c) = Some wc /\
                d = if e_mirror e then wc_deflection_mirror wc else wc_deflection wc
    end.

  (** [n'] is [n] after the deflection of record [e]: turned about the line from the inner to the
      outer hinge point. *)
  Definition deflected (e : entry) (n n' : vec) : Prop :=
    exists d, applies e d /\
    match d with
    | None => n' = n
    | Some d => exists h1 h2 inner outer, sa_hinge (v_sub (e_visit e)) = Some (h1, h2) /\
        hinge_vertices (v_quad geo (e_visit e)) (v_etas (e_visit e)) (Q2R h1) (Q2R h2) (e_mirror e)
          (w_symmetry (v_wing (e_visit e))) = Ok (inner, outer) /\
        (inner <> outer -> turned (vsub outer inner) (Q2R d) n n') /\
        ((d == 0)%Q -> n' = n)
    end.

  (** [n'] is [n] after the camber rotation of panel number [k] of record [e]: turned by the camber
      line angle at the panel's collocation position, about an axis perpendicular to the inner edge of
      the subarea, in the plane of the corners a, b, d. *)
  Definition cambered (e : entry) (k : Z) (n n' : vec) : Prop :=
    let ang := camber (e_visit e) (collocation_xsi (v_xsis (e_visit e)) (e_num_c e) k) in
    (ang = 0 -> n' = n) /\
    exists sub, entry_vertices geo e = Ok sub /\
      let ab := vsub (qb sub) (qa sub) in let ad := vsub (qd sub) (qa sub) in
      (vcross ab ad <> vzero ->
       exists axis, axis <> vzero /\ vdot axis ad = 0 /\ vdot axis (vcross ab ad) = 0 /\ vdot axis ab < 0 /\
         turned axis ang n n').
End Spec.

(** Symmetry flags as the setter of [Wing.symmetry] accepts them. *)
Definition flags_ok (a : aircraft) : Prop :=
  forall wn w, In (wn, w) (a_wings a) -> (w_symmetry w = 0 \/ w_symmetry w = 1 \/ w_symmetry w = 2 \/ w_symmetry w = 3)%Z.

(** No control is deflected (missing deflections count as none). *)
Definition undeflected (a : aircraft) : Prop :=
  forall wn w cn c, In (wn, w) (a_wings a) -> In (cn, c) (w_ctls w) ->
    (forall d, wc_deflection c = Some d -> (d == 0)%Q) /\ (forall d, wc_deflection_mirror c = Some d -> (d == 0)%Q).

(** The inner and the outer chord of a subarea are parallel (same direction). *)
Definition parallel_chords (q : quad) : Prop :=
  exists k, 0 < k /\ vsub (qc q) (qb q) = vscale k (vsub (qd q) (qa q)).

(** Same deflection on both sides. *)
Definition same_deflection (wc : wcontrol) : Prop :=
  match wc_deflection wc, wc_deflection_mirror wc with
  | None, None => True
  | Some d, Some d' => (d == d')%Q
  | _, _ => False
  end.
