(** Specification for C130: an aircraft turned by any rotation. *)
From Coq Require Import Reals String List ZArith.
From Verif Require Import PyBase Vec StripModel AircraftModel PanelModel GeomSpec VlmModel VlmSpec IsoSpec.
Import ListNotations.
Open Scope R_scope.

(** Rotations about an axis through the origin. *)
Definition rotation (Q : vec -> vec) : Prop := isometry 1 Q.
(** Direction of the free stream. *)
Definition direction (s : flow) : vec :=
  mkV (cos (rad (f_alpha s)) * cos (rad (f_beta s))) (- sin (rad (f_beta s))) (sin (rad (f_alpha s)) * cos (rad (f_beta s))).
(** The flow and the rotation of the aircraft turned together with the aircraft. *)
Definition turned_flow (Q : vec -> vec) (s s' : flow) : Prop :=
  f_airspeed s' = f_airspeed s /\ f_rho s' = f_rho s /\ direction s' = Q (direction s) /\ rates s' = Q (rates s).
Definition turned_quad (Q : vec -> vec) (q : quad) : quad := mkQuad (Q (qa q)) (Q (qb q)) (Q (qc q)) (Q (qd q)).
Definition turned_refs (Q : vec -> vec) (r : refs) : refs := mkRefs (r_area r) (r_span r) (r_chord r) (Q (r_CG r)) (Q (r_RP r)).
(** All wings are modelled completely, or are mirrored at a plane that is turned into itself. *)
Definition mirrors_turned (Q : vec -> vec) (a : aircraft) : Prop :=
  forall wn w, In (wn, w) (a_wings a) ->
    w_symmetry w = 0%Z \/ exists p, w_symmetry w = plane_num p /\ forall v, refl p (Q v) = Q (refl p v).

(** Rotations about the z-axis (nose to the side) and about the x-axis (one wing down), in degrees. *)
Definition yaw (t : R) (v : vec) : vec :=
  mkV (cos (rad t) * vx v + sin (rad t) * vy v) (- sin (rad t) * vx v + cos (rad t) * vy v) (vz v).
Definition roll (t : R) (v : vec) : vec :=
  mkV (vx v) (cos (rad t) * vy v - sin (rad t) * vz v) (sin (rad t) * vy v + cos (rad t) * vz v).
