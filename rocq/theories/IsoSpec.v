(** Specifications for mirrored and turned aircraft (C98-C101). *)
From Coq Require Import Reals List ZArith String QArith Qreals.
From Verif Require Import PyBase Vec StripModel AircraftModel LatticeModel PanelModel GeomModel GeomSpec NormalModel NormalSpec VlmModel VlmSpec.
Import ListNotations.
Open Scope R_scope.

(** Linear maps that keep lengths and angles; [d] is 1 for rotations and -1 for reflections. *)
Definition isometry (d : R) (Q : vec -> vec) : Prop :=
  (d = 1 \/ d = -1) /\
  (forall u v, Q (vadd u v) = vadd (Q u) (Q v)) /\ (forall k u, Q (vscale k u) = vscale k (Q u)) /\
  (forall u v, vdot (Q u) (Q v) = vdot u v) /\ (forall u v, vcross (Q u) (Q v) = vscale d (Q (vcross u v))).

(** Rotation about the y-axis by [t] degrees; positive angles lower the nose, which points to -x. *)
Definition pitch (t : R) (v : vec) : vec :=
  mkV (cos (rad t) * vx v - sin (rad t) * vz v) (vy v) (sin (rad t) * vx v + cos (rad t) * vz v).

(** [p'] is the image of panel [p]; its horseshoe may have the opposite orientation, then its normal
    has the other direction as well. *)
Definition image_by (d : R) (Q : vec -> vec) (p p' : panel) : Prop :=
  pC p' = Q (pC p) /\ pB p' = Q (pB p) /\ pA p' = pA p /\
  ((pV1 p' = Q (pV4 p) /\ pV2 p' = Q (pV3 p) /\ pV3 p' = Q (pV2 p) /\ pV4 p' = Q (pV1 p) /\ pN p' = vscale (- d) (Q (pN p))) \/
   (pV1 p' = Q (pV1 p) /\ pV2 p' = Q (pV2 p) /\ pV3 p' = Q (pV3 p) /\ pV4 p' = Q (pV4 p) /\ pN p' = vscale d (Q (pN p)))).

(** The panels of [lat'] are the images of those of [lat], in some order. *)
Definition images (d : R) (Q : vec -> vec) (sg : nat -> nat) (lat lat' : list panel) : Prop :=
  List.length lat' = List.length lat /\
  (forall i j, (i < List.length lat)%nat -> (j < List.length lat)%nat -> sg i = sg j -> i = j) /\
  (forall i p, nth_error lat i = Some p -> exists p', nth_error lat' (sg i) = Some p' /\ image_by d Q p p').

(** Flight states and reference values that belong to each other. Angular velocities are axial
    vectors. *)
Definition flow_image (d : R) (Q : vec -> vec) (s s' : flow) : Prop :=
  f_airspeed s' = f_airspeed s /\ f_rho s' = f_rho s /\ wind s' = Q (wind s) /\ rates s' = vscale d (Q (rates s)).
Definition refs_image (Q : vec -> vec) (r r' : refs) : Prop :=
  r_area r' = r_area r /\ r_span r' = r_span r /\ r_chord r' = r_chord r /\ r_CG r' = Q (r_CG r) /\ r_RP r' = Q (r_RP r).

(** The state seen in a mirror, the aircraft flying with another angle of attack. *)
Definition mirrored_flow (s : flow) : flow :=
  mkFlow (f_airspeed s) (f_rho s) (f_alpha s) (- f_beta s) (- f_P s) (f_Q s) (- f_R s).
Definition mirrored_refs (r : refs) : refs := mkRefs (r_area r) (r_span r) (r_chord r) (mir (r_CG r)) (mir (r_RP r)).
Definition pitched_flow (t : R) (s : flow) : flow :=
  let w := pitch t (rates s) in
  mkFlow (f_airspeed s) (f_rho s) (f_alpha s + t) (f_beta s) (vx w) (vy w) (vz w).
Definition pitched_refs (t : R) (r : refs) : refs := mkRefs (r_area r) (r_span r) (r_chord r) (pitch t (r_CG r)) (pitch t (r_RP r)).
Definition pitched_quad (t : R) (q : quad) : quad := mkQuad (pitch t (qa q)) (pitch t (qb q)) (pitch t (qc q)) (pitch t (qd q)).

(** Loads of a lattice, as far as they are determined: a regular system is solved and gives finite
    results. *)
Definition loads (eps : R) (lat : list panel) (s : flow) (r : refs) (g : list R) (o : results) : Prop :=
  exists m, downwash eps lat = Some m /\ unique_solution m (boundary lat s r) /\ solves m (boundary lat s r) g /\
    vlm_results eps lat s r g = Some o.

Definition opposite (x y : option R) : Prop := y = option_map Ropp x.

(** ** Aircraft *)

(** The control settings seen in a mirror at the xz-plane: on a mirrored wing the two sides change
    places; a control in the plane itself is deflected to the other side. *)
Definition mirrored_control (sym : Z) (c : wcontrol) : wcontrol :=
  mkWC (wc_ctl c) (wc_num_c c)
    (if Z.eqb sym 0 then option_map Qopp (wc_deflection c) else wc_deflection_mirror c)
    (if Z.eqb sym 0 then wc_deflection_mirror c else wc_deflection c)
    (wc_inner c) (wc_outer c) (wc_eta_inner c) (wc_eta_outer c) (wc_xsi_inner c) (wc_xsi_outer c) (wc_h_inner c) (wc_h_outer c).
Definition mirrored_wing (w : wing) : wing :=
  mkWing (w_uid w) (w_symmetry w) (w_segs w) (map (fun x => (fst x, mirrored_control (w_symmetry w) (snd x))) (w_ctls w)).
Definition mirrored_aircraft (a : aircraft) : aircraft :=
  mkAC (a_uid a) (map (fun x => (fst x, mirrored_wing (snd x))) (a_wings a)).

(** A subarea of an aircraft with a symmetric geometry, whatever its deflections: it is on a wing
    mirrored at the xz-plane and has parallel chords or no camber; or it lies in the xz-plane, on an
    unmirrored wing, and has no camber. *)
Definition symmetric_shape (geo : string -> string -> quad) (camber : subarea_visit -> R -> R) (v : subarea_visit) : Prop :=
  (w_symmetry (v_wing v) = 2%Z /\
   (forall q, subarea_vertices (v_quad geo v) (v_etas v) (v_xsis v) false 2 = Ok q ->
      parallel_chords q \/ forall y, camber v y = 0)) \/
  (w_symmetry (v_wing v) = 0%Z /\
   vy (qa (v_quad geo v)) = 0 /\ vy (qb (v_quad geo v)) = 0 /\ vy (qc (v_quad geo v)) = 0 /\ vy (qd (v_quad geo v)) = 0 /\
   forall y, camber v y = 0).

(** The camber depends on wing, segment, strip and subarea only, not on the control settings. *)
Definition camber_of_shape (camber : subarea_visit -> R -> R) : Prop :=
  forall sub st seg i k w y, camber (sub, st, seg, (i, k, mirrored_wing w)) y = camber (sub, st, seg, (i, k, w)) y.

(** Only mirrors at the xz-plane. *)
Definition side_mirrors (a : aircraft) : Prop := forall wn w, In (wn, w) (a_wings a) -> (w_symmetry w = 0 \/ w_symmetry w = 2)%Z.

(** All corners lie in a plane parallel to the x-axis. *)
Definition along_x (q : quad) : Prop :=
  exists n c, n <> vzero /\ vx n = 0 /\ vdot n (qa q) = c /\ vdot n (qb q) = c /\ vdot n (qc q) = c /\ vdot n (qd q) = c.

(** All fields of a panel turned. *)
Definition pitched_panel (t : R) (p : panel) : panel :=
  mkPanel (pitch t (pP p)) (pitch t (pQ p)) (pitch t (pR p)) (pitch t (pS p))
    (pitch t (pV1 p)) (pitch t (pV2 p)) (pitch t (pV3 p)) (pitch t (pV4 p)) (pitch t (pC p)) (pitch t (pB p)) (pitch t (pN p)) (pA p).
