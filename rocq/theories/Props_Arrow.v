(** C125: the arrow of the free stream and the marker of the centre of gravity in the figures. *)
From Coq Require Import Reals List Lra.
From Verif Require Import PyBase Vec PanelModel VlmModel ArrowModel ArrowProofs.
Import ListNotations.
Open Scope R_scope.

(** The arrow ends in the origin, is three long, and points against the velocity of the aircraft that the boundary
    conditions use; the trailing vortices run along it, and drag is the part of the force along it. *)
Theorem C125_arrow s : 0 < f_airspeed s -> exists start v, freestream_arrow s = Some (start, v) /\ vadd start v = vzero /\ vnorm v = 3 /\
  vadd (vscale (f_airspeed s) v) (vscale 3 (vel_wind s)) = vzero /\
  vscale 10000 v = vscale 3 (trail_dir (f_alpha s) (f_beta s)) /\
  (forall r F M, vdot F v = 3 * c_D (vlm_coeffs s r F M)).
Proof. exact (arrow_right s). Qed.
Print Assumptions C125_arrow.

(** At rest there is no direction, and no arrow. *)
Theorem C125_no_arrow s : f_airspeed s = 0 -> freestream_arrow s = None.
Proof. exact (arrow_none s). Qed.
Print Assumptions C125_no_arrow.

(** The marker is at the same point in all views; it is the point about which the aircraft turns: rotation gives it
    no velocity, and moves no point towards it or away from it. *)
Theorem C125_marker s r : let m := add_CG r in
  m_yz m = (vy (m_3d m), vz (m_3d m)) /\ m_xz m = (vx (m_3d m), vz (m_3d m)) /\ m_xy m = (vx (m_3d m), vy (m_3d m)) /\
  vel_rot s r (m_3d m) = vzero /\
  (forall p, vdot (vel_rot s r p) (vsub p (m_3d m)) = 0).
Proof. exact (marker_right s r). Qed.
Print Assumptions C125_marker.

(** Flow from the front; a rotation in pitch about (1, 0, 0). *)
Example C125_example : freestream_arrow (mkFlow 100 1 0 0 0 2 0) = Some (mkV (-3) 0 0, mkV 3 0 0) /\
  vel_rot (mkFlow 100 1 0 0 0 2 0) (mkRefs 1 1 1 (mkV 1 0 0) vzero) (mkV 3 0 1) = mkV 2 0 (-4).
Proof.
  split.
  - rewrite arrow_drawn by (cbn [f_airspeed]; lra). unfold along, vscale, vsub, vzero. cbn [f_alpha f_beta vx vy vz].
    replace (deg2rad 0) with 0 by (unfold deg2rad; field). rewrite cos_0, sin_0. f_equal. f_equal; f_equal; ring.
  - unfold vel_rot, vsub. cbn [vx vy vz f_P f_Q f_R r_CG]. f_equal; ring.
Qed.
