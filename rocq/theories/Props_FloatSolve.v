(** C117: rounding leaves the linear system and the loads finite and the system accurate. *)
From Coq Require Import Reals List.
From Verif Require Import Vec PanelModel VlmModel VlmSpec VlmProofs VlmExample FloatModel FloatSolveModel FloatSpec FloatSolveSpec FloatProofs FloatLatProofs FloatSolveProofs.
Import ListNotations.
Open Scope R_scope.

(** If the regularisation is not lost in rounding, the velocity of a leg is inf or nan at its ends
    only. *)
Theorem C117_finite u rnd PIc eps p a b : rounding u rnd -> survives u eps -> PIc <> 0 ->
  (exists v, fleg_velocity rnd PIc eps p a b = Some v) <-> p <> a /\ p <> b.
Proof. intro H. exact (leg_finite u rnd PIc H eps p a b). Qed.
Print Assumptions C117_finite.

(** The matrix and the results are finite whenever no collocation point or vortex midpoint is the
    end of a vortex. *)
Theorem C117_lattice u rnd fsin fcos PIc eps lat s r gamma : rounding u rnd -> survives u eps -> PIc <> 0 -> regular lat ->
  (exists m, fdownwash rnd PIc eps lat = Some m) /\ (exists o, fvlm_results rnd fsin fcos PIc eps lat s r gamma = Some o).
Proof.
  intros H S N G. exact (conj (matrix_finite u rnd PIc H eps lat S N (fun i j I J => proj1 (G i j I J)))
    (results_finite u rnd fsin fcos PIc H eps lat s r gamma S N (fun i j I J => proj2 (G i j I J)))).
Qed.
Print Assumptions C117_lattice.

(** Velocities are accurate up to rounding errors divided by the regularisation. *)
Theorem C117_velocity u rnd PIc eps p a b v : rounding u rnd -> pi_rounded u PIc -> 0 < eps -> amplified u eps < 1 ->
  fleg_velocity rnd PIc eps p a b = Some v ->
  exists V, leg_velocity eps p a b = Some V /\ vnear (velocity_error u eps 5) v V (leg_size eps p a b).
Proof. intro H. exact (velocity_near u rnd PIc H eps p a b v). Qed.
Print Assumptions C117_velocity.

(** So are the entries of the downwash matrix... *)
Theorem C117_matrix u rnd PIc eps lat : rounding u rnd -> pi_rounded u PIc -> 0 < eps -> amplified u eps < 1 -> regular lat ->
  exists m M, fdownwash rnd PIc eps lat = Some m /\ downwash eps lat = Some M /\
    forall i j pi pj, nth_error lat i = Some pi -> nth_error lat j = Some pj ->
      exists x X, entry m i j = Some x /\ entry M i j = Some X /\ Rabs (x - X) <= velocity_error u eps 11 * entry_size eps pi pj.
Proof. intros H P E W G. exact (matrix_near u rnd PIc H eps lat P E W (fun i j I J => proj1 (G i j I J))). Qed.
Print Assumptions C117_matrix.

(** ...and the right-hand side, in the axes of the computed angles. *)
Theorem C117_boundary u rnd fsin fcos PIc lat s r : rounding u rnd ->
  let a := fdeg2rad rnd PIc (f_alpha s) in let b := fdeg2rad rnd PIc (f_beta s) in
  let w := stream (f_airspeed s) (fsin a) (fcos a) (fsin b) (fcos b) in
  Forall2 (fun i x => close u 7 x (onset_normal w s r i) (onset_size w s r i)) lat (fboundary rnd fsin fcos PIc lat s r).
Proof. intro H. exact (boundary_near u rnd fsin fcos PIc H lat s r). Qed.
Print Assumptions C117_boundary.

(** In doubles and from the default regularisation 1e-6 on the relative error is at most 1e-8... *)
Theorem C117_double eps : 1 / 1000000 <= eps < 1 ->
  rounding u53 double /\ pi_rounded u53 (double PI) /\ amplified u53 eps < 1 /\ survives u53 eps /\ velocity_error u53 eps 11 <= 1 / 100000000.
Proof.
  intro E. assert (P : 0 < eps) by (apply Rlt_le_trans with (2 := proj1 E); apply Rdiv_lt_0_compat; apply IZR_lt; reflexivity).
  assert (W : amplified u53 eps < 1) by exact (small_amplified eps E).
  exact (conj double_rounding (conj double_pi (conj W (conj (amplified_survives u53 double double_rounding eps P W) (error_double eps E))))).
Qed.
Print Assumptions C117_double.
(** ...but not every regularisation that the settings accept (between 0 and 1) avoids nan away from the ends. *)
Theorem C117_epsilon_refuted : exists eps p a b, 0 < eps < 1 /\ p <> a /\ p <> b /\
  fleg_velocity double (double PI) eps p a b = None.
Proof.
  exists tiny, vzero, (mkV (-1) 0 0), (mkV 1 0 0).
  exact (conj tiny_accepted (conj (proj1 lost_epsilon_ends) (conj (proj2 lost_epsilon_ends) (lost_epsilon (double PI))))).
Qed.
Print Assumptions C117_epsilon_refuted.

(** Without rounding these are the matrix and the right-hand side of the exact model. *)
Theorem C117_exact eps lat s r :
  fdownwash (fun x => x) PI eps lat = downwash eps lat /\ fboundary (fun x => x) sin cos PI lat s r = boundary lat s r.
Proof. exact (conj (downwash_exact eps lat) (boundary_exact lat s r)). Qed.
Print Assumptions C117_exact.

(** A lattice with a panel and the default regularisation. *)
Example C117_example : regular lat1 /\ 1 / 1000000 <= 1 / 1000000 < 1 /\ lat1 <> [].
Proof. exact (conj lat1_regular (conj default_epsilon (fun H => @nil_cons _ _ _ (eq_sym H)))). Qed.
