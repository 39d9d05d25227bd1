(** Specifications for panel geometry, mirroring and device lines. *)
From Coq Require Import Reals List ZArith String.
From Verif Require Import Vec PanelModel GeomModel.
Import ListNotations.
Open Scope R_scope.

(** The point at fraction [t] from [a] to [b]. *)
Definition along (a b : vec) (t : R) : vec := vadd (vscale (1 - t) a) (vscale t b).
Definition midpoint (a b : vec) : vec := along a b (1 / 2).

(** Bilinear surface spanned by four points; [s] runs from a to b, [c] from a to d. *)
Definition surface (q : quad) (s c : R) : vec :=
  along (along (qa q) (qb q) s) (along (qd q) (qc q) s) c.

Definition unit_interval (t : R) : Prop := 0 <= t <= 1.
Definition on_surface (q : quad) (p : vec) : Prop :=
  exists s c, unit_interval s /\ unit_interval c /\ p = surface q s c.
Definition on_segment (a b p : vec) : Prop := exists t, unit_interval t /\ p = along a b t.

(** The three symmetry planes and the reflection about them. *)
Inductive plane := XY | XZ | YZ.
Definition plane_num (p : plane) : Z := match p with XY => 1 | XZ => 2 | YZ => 3 end%Z.
Definition plane_str (p : plane) : string := match p with XY => "xy" | XZ => "xz" | YZ => "yz" end.
Definition in_plane (p : plane) (v : vec) : Prop :=
  match p with XY => vz v = 0 | XZ => vy v = 0 | YZ => vx v = 0 end.
Definition refl (p : plane) (v : vec) : vec :=
  match p with
  | XY => mkV (vx v) (vy v) (- vz v)
  | XZ => mkV (vx v) (- vy v) (vz v)
  | YZ => mkV (- vx v) (vy v) (vz v)
  end.
Definition names (a : plane_arg) (p : plane) : Prop := a = PlInt (plane_num p) \/ a = PlStr (plane_str p).
Definition dist (u v : vec) : R := vnorm (vsub u v).

(** Tangents of the surface and the vertical component of its (not normalised) normal. *)
Definition tangent_s (q : quad) (c : R) : vec := vsub (along (qb q) (qc q) c) (along (qa q) (qd q) c).
Definition tangent_c (q : quad) (s : R) : vec := vsub (along (qd q) (qc q) s) (along (qa q) (qb q) s).
Definition up (q : quad) (s c : R) : R := vz (vcross (tangent_s q c) (tangent_c q s)).

(** A planar, strictly convex segment: all corners turn the same way about the normal. *)
Definition seg_normal (q : quad) : vec := vcross (vsub (qb q) (qa q)) (vsub (qd q) (qa q)).
Definition planar (q : quad) : Prop := vdot (seg_normal q) (vsub (qc q) (qa q)) = 0.
Definition turns (q : quad) (u v : vec) : Prop := 0 < vdot (seg_normal q) (vcross u v).
Definition convex (q : quad) : Prop :=
  let ab := vsub (qb q) (qa q) in let dc := vsub (qc q) (qd q) in
  let ad := vsub (qd q) (qa q) in let bc := vsub (qc q) (qb q) in
  turns q ab ad /\ turns q ab bc /\ turns q dc ad /\ turns q dc bc.

(** The straight line between two points given by (eta, xsi) meets span station [eta] at chord
    fraction [xsi]. *)
Definition meets_at (q : quad) (inner outer : R * R) (eta xsi : R) : Prop :=
  exists t, unit_interval t /\ surface q eta xsi =
            along (surface q (fst inner) (snd inner)) (surface q (fst outer) (snd outer)) t.

(** Area of a plane quadrilateral with corners P, Q, R, S in order: half the length of the
    cross product of its diagonals. *)
Definition quad_area (P Q R S : vec) := 1 / 2 * vnorm (vcross (vsub R P) (vsub S Q)).
