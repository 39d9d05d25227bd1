(** Specification vocabulary for the solver core (C17-C25, C52-C55), written without the model's
    loops. *)
From Coq Require Import Reals List.
From Verif Require Import Vec PanelModel GeomSpec VlmModel.
Import ListNotations.
Open Scope R_scope.

(** Free stream: airspeed times the unit vector of the flow direction, angles in degrees. *)
Definition rad (deg : R) : R := deg * PI / 180.
Definition wind (s : flow) : vec :=
  vscale (f_airspeed s)
    (mkV (cos (rad (f_alpha s)) * cos (rad (f_beta s))) (- sin (rad (f_beta s)))
         (sin (rad (f_alpha s)) * cos (rad (f_beta s)))).
Definition rates (s : flow) : vec := mkV (f_P s) (f_Q s) (f_R s).

(** Air velocity relative to the rotating aircraft at point [p], without the wing. *)
Definition onset (s : flow) (cg p : vec) : vec := vsub (wind s) (vcross (rates s) (vsub p cg)).

(** Axes of drag, side force and lift. *)
Definition axis_D (s : flow) : vec :=
  mkV (cos (rad (f_beta s)) * cos (rad (f_alpha s))) (- sin (rad (f_beta s))) (cos (rad (f_beta s)) * sin (rad (f_alpha s))).
Definition axis_C (s : flow) : vec :=
  mkV (sin (rad (f_beta s)) * cos (rad (f_alpha s))) (cos (rad (f_beta s))) (sin (rad (f_beta s)) * sin (rad (f_alpha s))).
Definition axis_L (s : flow) : vec := mkV (- sin (rad (f_alpha s))) 0 (cos (rad (f_alpha s))).

(** Value of a finite coefficient. *)
Definition is (o : option R) (x : R) : Prop := o = Some x.

(** The point [p] is not an end point of a leg of [j]. *)
Definition off_ends (p : vec) (j : panel) : Prop := p <> pV1 j /\ p <> pV2 j /\ p <> pV3 j /\ p <> pV4 j.
Definition regular (lat : list panel) : Prop :=
  forall i j, In i lat -> In j lat -> off_ends (pC i) j /\ off_ends (pB i) j.

(** The system has at most one solution. *)
Definition unique_solution (m : list (list R)) (rhs : list R) : Prop :=
  forall g g', solves m rhs g -> solves m rhs g' -> g = g'.

(** Velocity induced at [p] by circulations [g], as a sum over the panels. *)
Definition is_induced (eps : R) (lat : list panel) (g : list R) (p w : vec) : Prop :=
  exists us, Forall2 (fun j u => horseshoe eps p j = Some u) lat us /\
    w = vsum (map (fun x => vscale (fst x) (snd x)) (combine g us)).

(** ** Mirror symmetry about y = 0 *)
Definition mir (v : vec) : vec := mkV (vx v) (- vy v) (vz v).

(** [p'] is the mirror image of panel [p]: same points and area; either the orientation of the
    horseshoe is reversed and the normal mirrored (wing and mirrored wing), or the horseshoe keeps
    its orientation and the normal is mirrored and flipped (a panel in the plane itself). *)
Definition image_of (p p' : panel) : Prop :=
  pC p' = mir (pC p) /\ pB p' = mir (pB p) /\ pA p' = pA p /\
  ((pV1 p' = mir (pV4 p) /\ pV2 p' = mir (pV3 p) /\ pV3 p' = mir (pV2 p) /\ pV4 p' = mir (pV1 p) /\ pN p' = mir (pN p)) \/
   (pV1 p' = mir (pV1 p) /\ pV2 p' = mir (pV2 p) /\ pV3 p' = mir (pV3 p) /\ pV4 p' = mir (pV4 p) /\ pN p' = vscale (-1) (mir (pN p)))).

(** The panels can be paired (or paired with themselves) as mirror images. *)
Definition symmetric_lattice (sg : nat -> nat) (lat : list panel) : Prop :=
  forall i p, nth_error lat i = Some p ->
    sg (sg i) = i /\ exists p', nth_error lat (sg i) = Some p' /\ image_of p p'.

(** Moved and scaled lattices. *)
Definition move (d : vec) (p : panel) : panel :=
  mkPanel (vadd (pP p) d) (vadd (pQ p) d) (vadd (pR p) d) (vadd (pS p) d)
    (vadd (pV1 p) d) (vadd (pV2 p) d) (vadd (pV3 p) d) (vadd (pV4 p) d) (vadd (pC p) d) (vadd (pB p) d) (pN p) (pA p).
Definition scale (k : R) (p : panel) : panel :=
  mkPanel (vscale k (pP p)) (vscale k (pQ p)) (vscale k (pR p)) (vscale k (pS p))
    (vscale k (pV1 p)) (vscale k (pV2 p)) (vscale k (pV3 p)) (vscale k (pV4 p)) (vscale k (pC p)) (vscale k (pB p)) (pN p) (k * k * pA p).

(** Aircraft moved by [d]; aircraft [k] times as large, turning 1/[k] times as fast. *)
Definition moved (d : vec) (r : refs) : refs := mkRefs (r_area r) (r_span r) (r_chord r) (vadd (r_CG r) d) (vadd (r_RP r) d).
Definition scaled_refs (k : R) (r : refs) : refs :=
  mkRefs (k * k * r_area r) (k * r_span r) (k * r_chord r) (vscale k (r_CG r)) (vscale k (r_RP r)).
Definition scaled_flow (k : R) (s : flow) : flow :=
  mkFlow (f_airspeed s) (f_rho s) (f_alpha s) (f_beta s) (f_P s / k) (f_Q s / k) (f_R s / k).

(** Another reference point. *)
Definition with_RP (r : refs) (p : vec) : refs := mkRefs (r_area r) (r_span r) (r_chord r) (r_CG r) p.

(** Weighted sum of two flight states with the same angles, and of two vectors. *)
Definition blend (a b : R) (s1 s2 : flow) : flow :=
  mkFlow (a * f_airspeed s1 + b * f_airspeed s2) (f_rho s1) (f_alpha s1) (f_beta s1)
    (a * f_P s1 + b * f_P s2) (a * f_Q s1 + b * f_Q s2) (a * f_R s1 + b * f_R s2).
Definition comb (a b : R) (g1 g2 : list R) : list R := map (fun x => a * fst x + b * snd x) (combine g1 g2).

(** [k] times as fast in [c] times as dense air. *)
Definition faster (k c : R) (s : flow) : flow :=
  mkFlow (k * f_airspeed s) (c * f_rho s) (f_alpha s) (f_beta s) (f_P s) (f_Q s) (f_R s).

Definition same_coeffs (c c' : coeffs) : Prop :=
  c_Cx c' = c_Cx c /\ c_Cy c' = c_Cy c /\ c_Cz c' = c_Cz c /\ c_CD c' = c_CD c /\ c_CC c' = c_CC c /\ c_CL c' = c_CL c /\
  c_Cl c' = c_Cl c /\ c_Cm c' = c_Cm c /\ c_Cn c' = c_Cn c.

(** ** The law of Biot and Savart *)

(** Velocity density at [p] of the point at parameter [t] of the segment from [a] to [b]:
    dl x r / (4 pi |r|^3). *)
Definition density (p a b : vec) (t : R) : vec :=
  let r := vsub p (vadd a (vscale t (vsub b a))) in
  vscale (/ (4 * PI * (vnorm r * vnorm r * vnorm r))) (vcross (vsub b a) r).
Definition integral (f : R -> R) (x : R) : Prop := exists pr : Riemann_integrable f 0 1, RiemannInt pr = x.
Definition biot_savart (p a b u : vec) : Prop :=
  integral (fun t => vx (density p a b t)) (vx u) /\
  integral (fun t => vy (density p a b t)) (vy u) /\
  integral (fun t => vz (density p a b t)) (vz u).

(** Not on the straight line through [a] and [b]. *)
Definition off_line (p a b : vec) : Prop := vcross (vsub p a) (vsub p b) <> vzero.

(** Factor by which the regularised formula falls short of the exact law. *)
Definition damping (eps : R) (p a b : vec) : R :=
  let r1 := vsub p a in let r2 := vsub p b in
  (vnorm r1 * vnorm r2 + vdot r1 r2) / (vnorm r1 * vnorm r2 * (1 + eps) + vdot r1 r2).
