(** C118: the flow around the wing is right up to rounding errors and the residual of the solver. *)
From Coq Require Import Reals List.
From Verif Require Import Vec PanelModel VlmModel VlmSpec VlmProofs VlmExample FloatModel FloatSolveModel FloatSpec FloatSolveSpec FloatFlowSpec FloatProofs FloatLatProofs FloatSolveProofs FloatFlowProofs.
Import ListNotations.
Open Scope R_scope.

(** The exact flow through each panel, for the circulations that the solver returned, is at most what
    the solver left of the computed equation plus rounding errors of the system. *)
Theorem C118_tangency u rnd fsin fcos PIc eps lat s r m g n i e :
  rounding u rnd -> pi_rounded u PIc -> 0 < eps -> amplified u eps < 1 -> regular lat -> length g = length lat ->
  fdownwash rnd PIc eps lat = Some m -> nth_error lat n = Some i -> residual m (fboundary rnd fsin fcos PIc lat s r) g n e ->
  let a := fdeg2rad rnd PIc (f_alpha s) in let b := fdeg2rad rnd PIc (f_beta s) in
  let w := stream (f_airspeed s) (fsin a) (fcos a) (fsin b) (fcos b) in
  exists v, is_induced eps lat g (pC i) v /\
    Rabs (vdot (vadd v (onset_in w s r (pC i))) (pN i)) <= e + velocity_error u eps 11 * through_size eps lat g i + ((1 + u) ^ 7 - 1) * onset_size w s r i.
Proof. intros H P E W G. exact (flow_near u rnd fsin fcos PIc H eps lat s r m g n i e P E W (fun i j I J => proj1 (G i j I J))). Qed.
Print Assumptions C118_tangency.

(** The free stream in this bound is the one of the flight state, up to the errors of the angles. *)
Theorem C118_stream u rnd fsin fcos PIc s : rounding u rnd -> libm u fsin fcos -> pi_rounded u PIc ->
  let a := fdeg2rad rnd PIc (f_alpha s) in let b := fdeg2rad rnd PIc (f_beta s) in
  let w := stream (f_airspeed s) (fsin a) (fcos a) (fsin b) (fcos b) in
  let ea := angle_error u (f_alpha s) in let eb := angle_error u (f_beta s) in
  vnear (Rabs (f_airspeed s)) w (wind s) (mkV (ea + eb + ea * eb) eb (ea + eb + ea * eb)).
Proof. intro H. exact (stream_near u rnd fsin fcos PIc H s). Qed.
Print Assumptions C118_stream.

(** The induced velocities stored with the results are those of the circulations. *)
Theorem C118_induced u rnd fsin fcos PIc eps lat s r gamma o :
  rounding u rnd -> pi_rounded u PIc -> 0 < eps -> amplified u eps < 1 -> regular lat -> length gamma = length lat ->
  fvlm_results rnd fsin fcos PIc eps lat s r gamma = Some o ->
  Forall2 (fun i p => exists v, is_induced eps lat gamma (pB i) v /\
    vnear (velocity_error u eps (9 + length lat)) (p_iw p) v (induced_size eps lat gamma (pB i))) lat (fo_panels o).
Proof. intros H P E W G. exact (induced_near u rnd fsin fcos PIc H eps lat s r gamma o P E W (fun i j I J => proj2 (G i j I J))). Qed.
Print Assumptions C118_induced.

(** The circulations are near the exact solution, in relation to the condition of the exact matrix. *)
Theorem C118_circulations u rnd fsin fcos PIc eps lat s r m M g gamma c K :
  rounding u rnd -> pi_rounded u PIc -> libm u fsin fcos -> 0 < eps -> amplified u eps < 1 -> regular lat -> conditioned eps lat c -> length g = length lat ->
  fdownwash rnd PIc eps lat = Some m -> downwash eps lat = Some M -> solves M (boundary lat s r) gamma ->
  let a := fdeg2rad rnd PIc (f_alpha s) in let b := fdeg2rad rnd PIc (f_beta s) in
  let w := stream (f_airspeed s) (fsin a) (fcos a) (fsin b) (fcos b) in
  (forall n i, nth_error lat n = Some i -> exists e, residual m (fboundary rnd fsin fcos PIc lat s r) g n e /\ flow_error u eps lat w s r g i e <= K) ->
  Forall2 (fun x y => Rabs (x - y) <= K / c) g gamma.
Proof. intros H P T E W G. exact (circulations_near u rnd fsin fcos PIc H eps lat s r m M g gamma c K P T E W (fun i j I J => proj1 (G i j I J))). Qed.
Print Assumptions C118_circulations.

(** Sizes of these errors in doubles, from the default regularisation on and for up to ten million panels. *)
Theorem C118_double eps n deg : 1 / 1000000 <= eps < 1 -> INR n <= 10000000 -> Rabs deg <= 90 ->
  velocity_error u53 eps 11 <= 1 / 100000000 /\ velocity_error u53 eps (9 + n) <= 2 / 100000000 /\
  (1 + u53) ^ 7 - 1 <= 2 / 1000000000000000 /\ angle_error u53 deg <= 2 / 1000000000000000.
Proof. intros E N D. exact (conj (error_double eps E) (conj (induced_double eps n E N) (conj onset_double (angle_double deg D)))). Qed.
Print Assumptions C118_double.

(** A lattice with a panel: the system exists and leaves a residual for all circulations. *)
Example C118_example : regular lat1 /\ lat1 <> [] /\ rounding u53 double /\ pi_rounded u53 (double PI) /\ libm u53 sin cos /\
  (exists c, conditioned (1 / 1000000) lat1 c) /\
  exists m, fdownwash double (double PI) (1 / 1000000) lat1 = Some m /\
    forall g n i, nth_error lat1 n = Some i -> exists e, residual m (fboundary double sin cos (double PI) lat1 flow1 refs1) g n e.
Proof.
  exact (conj lat1_regular (conj (fun H => @nil_cons _ _ _ (eq_sym H)) (conj double_rounding (conj double_pi (conj exact_libm
    (conj (lat1_conditioned _ default_positive) (lat1_flow lat1 flow1 refs1 lat1_regular))))))).
Qed.
