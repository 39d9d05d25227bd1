(** C113: the numbers in the results agree with each other up to rounding. *)
From Coq Require Import Reals List.
From Verif Require Import Vec PanelModel VlmModel FloatModel FloatSpec FloatProofs.
Import ListNotations.
Open Scope R_scope.

(** The total forces are the sums of the forces of the panels, the total moments the sums of their
    moments. *)
Theorem C113_totals u rnd fsin fcos PIc eps lat s r gamma o : rounding u rnd ->
  fvlm_results rnd fsin fcos PIc eps lat s r gamma = Some o -> length gamma = length lat ->
  length (fo_panels o) = length lat /\ forces_sum u (fo_panels o) (fo_F o) /\
  moments_sum u (r_RP r) (combine lat (fo_panels o)) (fo_M o).
Proof. intro H. exact (loads_sum u rnd fsin fcos PIc H eps lat s r gamma o). Qed.
Print Assumptions C113_totals.

(** What is stored for a panel: the force belongs to the stored velocity, the magnitudes and the
    pressure coefficient belong to the stored vectors. *)
Theorem C113_panels u rnd fsin fcos PIc eps lat s r gamma o : rounding u rnd ->
  fvlm_results rnd fsin fcos PIc eps lat s r gamma = Some o ->
  let a := fdeg2rad rnd PIc (f_alpha s) in let b := fdeg2rad rnd PIc (f_beta s) in
  Forall2 (fun ig p =>
    kutta_joukowski u (stream (f_airspeed s) (fsin a) (fcos a) (fsin b) (fcos b)) s r (fst ig) (snd ig) p /\
    magnitude_ok u (p_iw p) (p_iwmag p) /\ magnitude_ok u (p_f p) (p_fmag p) /\ pressure_ok u s (fst ig) p)
  (combine lat gamma) (fo_panels o).
Proof. intro H. exact (panels_spec u rnd fsin fcos PIc H eps lat s r gamma o). Qed.
Print Assumptions C113_panels.

(** Drag, side force and lift belong to the total force, the coefficients to the totals. *)
Theorem C113_coefficients u rnd fsin fcos PIc eps lat s r gamma o : rounding u rnd ->
  fvlm_results rnd fsin fcos PIc eps lat s r gamma = Some o ->
  let a := fdeg2rad rnd PIc (f_alpha s) in let b := fdeg2rad rnd PIc (f_beta s) in
  wind_axes u (fsin a) (fcos a) (fsin b) (fcos b) (fo_F o) (fo_co o) /\
  (dyn_pressure s <> 0 -> coefficients u s r (fo_F o) (fo_M o) (fo_co o)).
Proof.
  intros H E. destruct (run_inv rnd fsin fcos PIc eps lat s r gamma o E) as [_ C]. cbv zeta. rewrite C.
  exact (conj (axes u rnd fsin fcos PIc H s r (fo_F o) (fo_M o)) (coefs u rnd fsin fcos PIc H s r (fo_F o) (fo_M o))).
Qed.
Print Assumptions C113_coefficients.

(** The size of the bounds. *)
Theorem C113_bound u rnd n : rounding u rnd -> INR n * u <= 1 / 2 -> (1 + u) ^ n - 1 <= 2 * INR n * u.
Proof. intro H. exact (bound u rnd H n). Qed.
Print Assumptions C113_bound.

(** Without rounding these are the results of the exact model. *)
Theorem C113_exact eps lat s r gamma :
  option_map exact_results (fvlm_results (fun x => x) sin cos PI eps lat s r gamma) = vlm_results eps lat s r gamma.
Proof. exact (run_exact eps lat s r gamma). Qed.
Print Assumptions C113_exact.

(** Doubles are such a rounding; a wing of one panel in straight flow. *)
Theorem C113_double : rounding u53 double.
Proof. exact double_rounding. Qed.
Print Assumptions C113_double.
Example C113_example :
  let cosd x := double (cos x) in let sind x := double (sin x) in
  exists o, fvlm_results double sind cosd (double PI) (/ 1048576) [wing_panel] straight one [3] = Some o /\
    vz (fo_F o) = 120 /\ c_CL (fo_co o) = Some (double (120 / 200)).
Proof. exact example_double. Qed.
