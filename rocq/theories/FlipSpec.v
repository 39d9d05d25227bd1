(** Specification for C129: an aircraft mirrored at the xy-plane (upper side down). *)
From Coq Require Import Reals String List ZArith QArith.
From Verif Require Import PyBase Vec StripModel AircraftModel PanelModel GeomModel VlmModel VlmSpec.
Import ListNotations.

Definition flip (v : vec) : vec := mkV (vx v) (vy v) (- vz v).
Definition flipped_quad (q : quad) : quad := mkQuad (flip (qa q)) (flip (qb q)) (flip (qc q)) (flip (qd q)).
(** All deflections to the other side. *)
Definition flipped_control (c : wcontrol) : wcontrol :=
  mkWC (wc_ctl c) (wc_num_c c) (option_map Qopp (wc_deflection c)) (option_map Qopp (wc_deflection_mirror c))
    (wc_inner c) (wc_outer c) (wc_eta_inner c) (wc_eta_outer c) (wc_xsi_inner c) (wc_xsi_outer c) (wc_h_inner c) (wc_h_outer c).
Definition flipped_wing (w : wing) : wing :=
  mkWing (w_uid w) (w_symmetry w) (w_segs w) (map (fun x => (fst x, flipped_control (snd x))) (w_ctls w)).
Definition flipped_aircraft (a : aircraft) : aircraft := mkAC (a_uid a) (map (fun x => (fst x, flipped_wing (snd x))) (a_wings a)).
(** Camber to the other side. *)
Definition flipped_camber (camber camber' : subarea_visit -> R -> R) : Prop :=
  forall sub st seg i k w y, camber' (sub, st, seg, (i, k, flipped_wing w)) y = (- camber (sub, st, seg, (i, k, w)) y)%R.
(** Opposite angle of attack; rolling and pitching to the other side. *)
Definition flipped_flow (s : flow) : flow :=
  mkFlow (f_airspeed s) (f_rho s) (- f_alpha s) (f_beta s) (- f_P s) (- f_Q s) (f_R s).
Definition flipped_refs (r : refs) : refs := mkRefs (r_area r) (r_span r) (r_chord r) (flip (r_CG r)) (flip (r_RP r)).

(** Flat wings in the xy-plane. *)
Definition flat (geo : string -> string -> quad) : Prop :=
  forall w s, vz (qa (geo w s)) = 0%R /\ vz (qb (geo w s)) = 0%R /\ vz (qc (geo w s)) = 0%R /\ vz (qd (geo w s)) = 0%R.
