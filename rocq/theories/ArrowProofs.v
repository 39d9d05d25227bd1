(** Proofs about the arrow of the free stream. *)
From Coq Require Import Reals List Lra.
From Verif Require Import PyBase Vec PanelModel VlmModel ArrowModel.
Import ListNotations.
Open Scope R_scope.

Definition along (s : flow) : vec := mkV (cos (deg2rad (f_alpha s)) * cos (deg2rad (f_beta s))) (- sin (deg2rad (f_beta s))) (sin (deg2rad (f_alpha s)) * cos (deg2rad (f_beta s))).
Lemma along_norm s : vnorm (along s) = 1.
Proof.
  apply vnorm_eq_of_sq; [lra|]. unfold vdot, along. cbn [vx vy vz].
  pose proof (sin2_cos2 (deg2rad (f_alpha s))) as A. pose proof (sin2_cos2 (deg2rad (f_beta s))) as B. unfold Rsqr in *. nra.
Qed.
Lemma stream_norm s : vnorm (free_stream_velocity_vector s) = Rabs (f_airspeed s).
Proof. unfold free_stream_velocity_vector. fold (along s). rewrite vnorm_scale, along_norm. ring. Qed.
Lemma arrow_drawn s : 0 < f_airspeed s -> freestream_arrow s = Some (vsub vzero (vscale 3 (along s)), vscale 3 (along s)).
Proof.
  intros H. unfold freestream_arrow, add_freestream_vector, unit_vector. rewrite stream_norm, Rabs_right by lra. destruct (Req_EM_T (f_airspeed s) 0) as [E|N]; [lra|].
  assert (U : vscale (1 / f_airspeed s) (free_stream_velocity_vector s) = along s).
  { unfold free_stream_velocity_vector, vscale, along. cbn [vx vy vz]. f_equal; field; exact N. }
  rewrite U. reflexivity.
Qed.
Lemma arrow_right s : 0 < f_airspeed s -> exists start v, freestream_arrow s = Some (start, v) /\ vadd start v = vzero /\ vnorm v = 3 /\
  vadd (vscale (f_airspeed s) v) (vscale 3 (vel_wind s)) = vzero /\
  vscale 10000 v = vscale 3 (trail_dir (f_alpha s) (f_beta s)) /\
  (forall r F M, vdot F v = 3 * c_D (vlm_coeffs s r F M)).
Proof.
  intros H. eexists _, _. split; [exact (arrow_drawn s H)|]. split; [unfold vadd, vsub, vscale, vzero; cbn [vx vy vz]; f_equal; ring|].
  split; [rewrite vnorm_scale, along_norm, Rabs_right by lra; ring|]. split.
  - unfold vadd, vscale, vel_wind, freestream_direction, along, vzero. cbn [vx vy vz]. f_equal; ring.
  - split; [unfold vscale, trail_dir, freestream_direction, infty, along; cbn [vx vy vz]; f_equal; ring|]. intros r F M. unfold vlm_coeffs, vdot, vscale, along. cbn [vx vy vz c_D]. ring.
Qed.
Lemma arrow_none s : f_airspeed s = 0 -> freestream_arrow s = None.
Proof. intros H. unfold freestream_arrow, add_freestream_vector, unit_vector. rewrite stream_norm, H, Rabs_R0. destruct (Req_EM_T 0 0); [reflexivity|lra]. Qed.
Lemma marker_right s r : let m := add_CG r in
  m_yz m = (vy (m_3d m), vz (m_3d m)) /\ m_xz m = (vx (m_3d m), vz (m_3d m)) /\ m_xy m = (vx (m_3d m), vy (m_3d m)) /\
  vel_rot s r (m_3d m) = vzero /\
  (forall p, vdot (vel_rot s r p) (vsub p (m_3d m)) = 0).
Proof.
  cbn zeta. split; [reflexivity|]. split; [reflexivity|]. split; [reflexivity|]. unfold vel_rot, add_CG, vsub, vdot, vzero. cbn [vx vy vz m_3d]. split; [f_equal; ring|]. intros p. ring.
Qed.
