(** C17-C25, C52-C55: the solver core. *)
From Coq Require Import Reals ZArith String QArith List Lra.
From Verif Require Import PyBase PyFacts Vec StripModel StripSpec AircraftModel LatticeModel LatticeSpec PanelModel GeomModel GeomSpec
  NormalModel NormalSpec EnumProofs GeomProofs VlmModel VlmSpec VlmProofs VlmLaws VlmSymmetry BiotSavart VlmAircraft VlmExample
  Props_Lattice.
Import ListNotations.
Open Scope R_scope.

(** ** C17: free stream *)

Theorem C17_free_stream s :
  vdot (free_stream_velocity_vector s) (free_stream_velocity_vector s) = f_airspeed s * f_airspeed s /\
  (0 <= f_airspeed s -> vnorm (free_stream_velocity_vector s) = f_airspeed s) /\
  (f_alpha s = 0 -> f_beta s = 0 -> free_stream_velocity_vector s = mkV (f_airspeed s) 0 0) /\
  free_stream_velocity_vector s = vscale (f_airspeed s) (freestream_direction (deg2rad (f_alpha s)) (deg2rad (f_beta s))) /\
  vel_wind s = vscale (-1) (free_stream_velocity_vector s) /\
  trail_dir (f_alpha s) (f_beta s) = vscale 10000 (freestream_direction (deg2rad (f_alpha s)) (deg2rad (f_beta s))).
Proof. exact (free_stream s). Qed.
Print Assumptions C17_free_stream.

(** Within the documented range only zero angles give a flow along x. *)
Theorem C17_along_x s : 0 < f_airspeed s -> -90 < f_alpha s < 90 -> -90 < f_beta s < 90 ->
  vy (free_stream_velocity_vector s) = 0 -> vz (free_stream_velocity_vector s) = 0 -> f_alpha s = 0 /\ f_beta s = 0.
Proof. exact (free_stream_x s). Qed.
Print Assumptions C17_along_x.

Example C17_example : 0 < f_airspeed flow1 /\ -90 < f_alpha flow1 < 90 /\ -90 < f_beta flow1 < 90.
Proof. unfold flow1. cbn. lra. Qed.

(** ** C18: wind axes *)

Theorem C18_wind_axes s :
  vdot (axis_D s) (axis_D s) = 1 /\ vdot (axis_C s) (axis_C s) = 1 /\ vdot (axis_L s) (axis_L s) = 1 /\
  vdot (axis_D s) (axis_C s) = 0 /\ vdot (axis_D s) (axis_L s) = 0 /\ vdot (axis_C s) (axis_L s) = 0 /\
  vcross (axis_C s) (axis_L s) = axis_D s /\ wind s = vscale (f_airspeed s) (axis_D s).
Proof. exact (wind_axes s). Qed.
Print Assumptions C18_wind_axes.

Theorem C18_wind_components s r F M :
  let c := vlm_coeffs s r F M in
  c_D c = vdot F (axis_D s) /\ c_C c = vdot F (axis_C s) /\ c_L c = vdot F (axis_L s) /\
  F = vadd (vadd (vscale (c_D c) (axis_D s)) (vscale (c_C c) (axis_C s))) (vscale (c_L c) (axis_L s)) /\
  c_D c * c_D c + c_C c * c_C c + c_L c * c_L c = vdot F F /\
  (forall k, F = vscale k (wind s) -> c_D c = k * f_airspeed s /\ c_C c = 0 /\ c_L c = 0).
Proof. exact (wind_components s r F M). Qed.
Print Assumptions C18_wind_components.

Example C18_example : let c := vlm_coeffs (mkFlow 10 1 0 0 0 0 0) refs1 (mkV 1 2 3) vzero in c_D c = 1 /\ c_C c = 2 /\ c_L c = 3.
Proof.
  cbv zeta. unfold vlm_coeffs, deg2rad. cbn [c_D c_C c_L f_alpha f_beta vx vy vz]. rewrite Rmult_0_l, sin_0, cos_0. lra.
Qed.

(** ** C19: total loads *)

Theorem C19_total_loads eps lat s r gamma o : vlm_results eps lat s r gamma = Some o -> length gamma = length lat ->
  o_F o = vsum (map o_f (o_panels o)) /\
  o_M o = vsum (map (fun x => vcross (vsub (pB (fst x)) (r_RP r)) (o_f (snd x))) (combine lat (o_panels o))).
Proof. exact (total_loads eps lat s r gamma o). Qed.
Print Assumptions C19_total_loads.

Theorem C19_moment_transfer eps lat s r gamma o d : vlm_results eps lat s r gamma = Some o ->
  exists o', vlm_results eps lat s (with_RP r (vadd (r_RP r) d)) gamma = Some o' /\
    o_panels o' = o_panels o /\ o_F o' = o_F o /\ o_M o' = vsub (o_M o) (vcross d (o_F o)).
Proof. exact (moment_transfer eps lat s r gamma o d). Qed.
Print Assumptions C19_moment_transfer.

(** ** C20: panel forces *)

Theorem C20_panel_forces eps lat s r gamma o : vlm_results eps lat s r gamma = Some o -> length gamma = length lat ->
  length (o_panels o) = length lat /\
  forall n i g, nth_error lat n = Some i -> nth_error gamma n = Some g ->
  exists p, nth_error (o_panels o) n = Some p /\
    is_induced eps lat gamma (pB i) (o_iw p) /\
    let vel := vadd (o_iw p) (onset s (r_CG r) (pB i)) in
    let L := vsub (pV3 i) (pV2 i) in
    o_f p = vscale (f_rho s * g) (vcross vel L) /\
    vdot (o_f p) vel = 0 /\ vdot (o_f p) L = 0 /\
    (g = 0 -> o_f p = vzero) /\
    (dyn_pressure s <> 0 -> pA i <> 0 ->
       is (o_cp p) (vdot (o_f p) (pN i) / (f_rho s * (f_airspeed s * f_airspeed s) / 2 * pA i))).
Proof. exact (panel_results eps lat s r gamma o). Qed.
Print Assumptions C20_panel_forces.

(** One loaded panel: also for C21, C22, C53 (unique solution, non-zero circulation). *)
Example C20_example : exists m g o,
  downwash (1 / 1000000) lat1 = Some m /\ unique_solution m (boundary lat1 flow1 refs1) /\
  solves m (boundary lat1 flow1 refs1) g /\ vlm_results (1 / 1000000) lat1 flow1 refs1 g = Some o /\
  length g = length lat1 /\ exists x, g = [x] /\ x <> 0.
Proof.
  destruct (lat1_solved (1 / 1000000) flow1 refs1 ltac:(lra)) as (m & g & o & D & U & S & H). exists m, g, o.
  destruct (lat1_loaded (1 / 1000000) m g ltac:(lra) D S) as (x & -> & X).
  repeat (split; [assumption||reflexivity|]). exists x. auto.
Qed.

(** ** C21: independence of speed and density *)

Theorem C21_speed_density eps lat m k c s r g o :
  downwash eps lat = Some m -> f_P s = 0 -> f_Q s = 0 -> f_R s = 0 -> 0 < f_airspeed s -> 0 < f_rho s -> 0 < k -> 0 < c ->
  unique_solution m (boundary lat s r) ->
  solves m (boundary lat s r) g -> vlm_results eps lat s r g = Some o ->
  (forall g', solves m (boundary lat (faster k c s) r) g' <-> g' = map (Rmult k) g) /\
  exists o', vlm_results eps lat (faster k c s) r (map (Rmult k) g) = Some o' /\
    o_F o' = vscale (c * (k * k)) (o_F o) /\ o_M o' = vscale (c * (k * k)) (o_M o) /\
    same_coeffs (o_co o) (o_co o') /\
    map o_cp (o_panels o') = map o_cp (o_panels o).
Proof. exact (speed_scaling eps lat m k c s r g o). Qed.
Print Assumptions C21_speed_density.

Example C21_example : let s := mkFlow 10 1 5 3 0 0 0 in exists m g o,
  downwash (1 / 1000000) lat1 = Some m /\ unique_solution m (boundary lat1 s refs1) /\
  solves m (boundary lat1 s refs1) g /\ vlm_results (1 / 1000000) lat1 s refs1 g = Some o.
Proof. exact (lat1_solved (1 / 1000000) _ refs1 ltac:(lra)). Qed.

(** ** C22: flow tangency *)

Theorem C22_no_flow_through eps lat s r m g : downwash eps lat = Some m ->
  (solves m (boundary lat s r) g <->
   length g = length lat /\
   forall i, In i lat -> exists w, is_induced eps lat g (pC i) w /\ vdot (vadd w (onset s (r_CG r) (pC i))) (pN i) = 0).
Proof. exact (no_flow_through eps lat s r m g). Qed.
Print Assumptions C22_no_flow_through.

(** ** C23: regularity *)

Theorem C23_finite eps p a b : 0 < eps -> (exists v, leg_velocity eps p a b = Some v) <-> p <> a /\ p <> b.
Proof. exact (leg_finite eps p a b). Qed.
Print Assumptions C23_finite.

Theorem C23_on_line eps p a b v : leg_velocity eps p a b = Some v -> vcross (vsub p a) (vsub p b) = vzero -> v = vzero.
Proof. exact (leg_on_line eps p a b v). Qed.
Print Assumptions C23_on_line.

Theorem C23_reversed eps p a b : leg_velocity eps p b a = option_map (vscale (-1)) (leg_velocity eps p a b).
Proof. exact (leg_rev eps p a b). Qed.
Print Assumptions C23_reversed.

Theorem C23_translated eps d p a b : leg_velocity eps (vadd p d) (vadd a d) (vadd b d) = leg_velocity eps p a b.
Proof. exact (leg_move eps d p a b). Qed.
Print Assumptions C23_translated.

Theorem C23_own_bound_leg eps a b : 0 < eps -> a <> b -> leg_velocity eps (midpoint a b) a b = Some vzero.
Proof. exact (own_bound_leg eps a b). Qed.
Print Assumptions C23_own_bound_leg.

(** A lattice whose collocation and bound-leg points avoid all leg ends has a finite matrix and
    finite induced velocities for all circulations. *)
Theorem C23_regular_lattice eps lat s r g : 0 < eps -> regular lat -> length g = length lat ->
  exists m o, downwash eps lat = Some m /\ length m = length lat /\ vlm_results eps lat s r g = Some o /\ length (o_panels o) = length lat.
Proof. exact (regular_finite eps lat s r g). Qed.
Print Assumptions C23_regular_lattice.

Example C23_example : regular lat1.
Proof. exact lat1_regular. Qed.

(** ** C24: symmetry *)

Theorem C24_symmetric_flow eps lat sg s r g m o :
  symmetric_lattice sg lat -> f_beta s = 0 -> f_P s = 0 -> f_R s = 0 -> vy (r_RP r) = 0 ->
  downwash eps lat = Some m -> unique_solution m (boundary lat s r) ->
  solves m (boundary lat s r) g -> vlm_results eps lat s r g = Some o ->
  (forall i x, nth_error g i = Some x -> exists x', nth_error g (sg i) = Some x' /\ (x' = x \/ x' = - x)) /\
  (forall i p p' x x', nth_error lat i = Some p -> nth_error lat (sg i) = Some p' -> nth_error g i = Some x -> nth_error g (sg i) = Some x' ->
     (pV2 p' = mir (pV3 p) -> pV2 p <> pV3 p -> x' = x) /\ (pV2 p' = mir (pV2 p) -> pV2 p <> pV3 p -> x' = - x)) /\
  vy (o_F o) = 0 /\ c_C (o_co o) = 0 /\ vx (o_M o) = 0 /\ vz (o_M o) = 0 /\
  (r_area r <> 0 -> r_span r <> 0 ->
   is (c_Cy (o_co o)) 0 /\ is (c_CC (o_co o)) 0 /\ is (c_Cl (o_co o)) 0 /\ is (c_Cn (o_co o)) 0).
Proof. exact (symmetric_results eps lat sg s r g m o). Qed.
Print Assumptions C24_symmetric_flow.

(** The lattice made from a symmetric aircraft is symmetric. *)
Theorem C24_symmetric_aircraft geo camber alpha a : panelled a -> counts_set a -> flags_ok a ->
  (forall v, In v (all_subareas a) -> symmetric_visit geo camber v) ->
  exists pans n sg, gen_lattice geo camber true alpha 0 a = Ok (pans, n) /\ symmetric_lattice sg (set_normals pans n).
Proof. exact (symmetric_aircraft geo camber alpha a). Qed.
Print Assumptions C24_symmetric_aircraft.

Theorem C24_symmetric_aircraft_loads geo camber alpha a eps s r : panelled a -> counts_set a -> flags_ok a ->
  (forall v, In v (all_subareas a) -> symmetric_visit geo camber v) ->
  f_beta s = 0 -> f_P s = 0 -> f_R s = 0 -> vy (r_RP r) = 0 -> r_area r <> 0 -> r_span r <> 0 ->
  exists pans n, gen_lattice geo camber true alpha (f_beta s) a = Ok (pans, n) /\
  forall m g o, downwash eps (set_normals pans n) = Some m ->
    unique_solution m (boundary (set_normals pans n) s r) -> solves m (boundary (set_normals pans n) s r) g ->
    vlm_results eps (set_normals pans n) s r g = Some o ->
    vy (o_F o) = 0 /\ vx (o_M o) = 0 /\ vz (o_M o) = 0 /\ c_C (o_co o) = 0 /\
    is (c_Cy (o_co o)) 0 /\ is (c_CC (o_co o)) 0 /\ is (c_Cl (o_co o)) 0 /\ is (c_Cn (o_co o)) 0.
Proof. exact (symmetric_aircraft_loads geo camber alpha a eps s r). Qed.
Print Assumptions C24_symmetric_aircraft_loads.

Example C24_example : symmetric_lattice (fun i => i) lat1 /\ f_beta flow1 = 0 /\ f_P flow1 = 0 /\ f_R flow1 = 0 /\
  vy (r_RP refs1) = 0 /\ r_area refs1 <> 0 /\ r_span refs1 <> 0 /\
  exists m g o, downwash (1 / 1000000) lat1 = Some m /\ unique_solution m (boundary lat1 flow1 refs1) /\
    solves m (boundary lat1 flow1 refs1) g /\ vlm_results (1 / 1000000) lat1 flow1 refs1 g = Some o.
Proof.
  split; [exact lat1_symmetric|]. repeat (split; [reflexivity|]). split; [cbn; lra|]. split; [cbn; lra|].
  exact (lat1_solved (1 / 1000000) flow1 refs1 ltac:(lra)).
Qed.

(** An aircraft with a mirrored wing with deflected flaps and slats, and a fin in the plane. *)
Definition sym_ctl (c : wcontrol) : wcontrol :=
  mkWC (wc_ctl c) (wc_num_c c) (Some 10%Q) (Some 10%Q) (wc_inner c) (wc_outer c) (wc_eta_inner c) (wc_eta_outer c)
    (wc_xsi_inner c) (wc_xsi_outer c) (wc_h_inner c) (wc_h_outer c).
Definition ex_sym : aircraft :=
  mkAC "ac" [("wing", mkWing "wing" 2 (w_segs ex_wing) (map (fun x => (fst x, sym_ctl (snd x))) (w_ctls ex_wing))); ("fin", ex_fin)]%string.
Definition sym_geo (w s : string) : quad :=
  if String.eqb w "fin" then mkQuad (mkV 8 0 0) (mkV 9 0 3) (mkV 10 0 3) (mkV 10 0 0)
  else if String.eqb s "s1" then mkQuad (mkV 0 0 0) (mkV 0 4 0) (mkV 2 4 0) (mkV 2 0 0)
  else mkQuad (mkV 0 4 0) (mkV 1 8 1) (mkV 2 8 1) (mkV 2 4 0).

Example C24_aircraft_example : panelled ex_sym /\ counts_set ex_sym /\ flags_ok ex_sym /\
  forall v, In v (all_subareas ex_sym) -> symmetric_visit sym_geo (fun _ _ => 0) v.
Proof.
  split; [|split; [|split]].
  - intros wn w sn s [E|[E|[]]] Is; injection E as <- <-.
    + destruct (ex_ac_panelled "wing"%string ex_wing sn s (or_introl eq_refl) Is) as (A & B). split; [exact A|].
      intros st k v c I1 I2 E. destruct (B st k v c I1 I2 E) as (wc & W). revert W. cbn [w_ctls ex_wing map dget fst snd].
      destruct (String.eqb _ _); [intros _; eexists; reflexivity|]. destruct (String.eqb _ _); [intros _; eexists; reflexivity|discriminate].
    + exact (ex_ac_panelled "fin"%string ex_fin sn s (or_intror (or_introl eq_refl)) Is).
  - intros wn w [E|[E|[]]]; injection E as <- <-.
    + destruct (ex_ac_counts "wing"%string ex_wing (or_introl eq_refl)) as (A & B). split; [exact A|]. intros cn c I.
      destruct I as [E|[E|[]]]; injection E as <- <-; eexists; (split; [reflexivity|vm_compute; discriminate]).
    + exact (ex_ac_counts "fin"%string ex_fin (or_intror (or_introl eq_refl))).
  - intros wn w [E|[E|[]]]; injection E as <- <-; cbn; auto.
  - remember ex_sym as a eqn:EA. intros v I. destruct v as [[[[[na ka] v] [[nd kd] d]] [[ns ks] s]] [[nw kw] w]]. apply all_subareas_In in I.
    destruct I as (Iw & _). subst a. apply nth_error_In in Iw. destruct Iw as [E|[E|[]]]; injection E as <- <-.
    + left. split; [reflexivity|]. split; [|intros; right; reflexivity]. intros c wc _ G. apply dget_In in G.
      destruct G as [E|[E|[]]]; injection E as _ <-; reflexivity.
    + right. split; [reflexivity|]. do 4 (split; [reflexivity|]). split; [|reflexivity]. intros c wc dd _ G. discriminate.
Qed.

(** ** C25: normalisation *)

Theorem C25_coefficients_partial s r F M : dyn_pressure s <> 0 -> r_area r <> 0 -> r_span r <> 0 -> r_chord r <> 0 ->
  let c := vlm_coeffs s r F M in let q := f_rho s * (f_airspeed s * f_airspeed s) / 2 in
  is (c_Cx c) (vx F / (q * r_area r)) /\ is (c_Cy c) (vy F / (q * r_area r)) /\ is (c_Cz c) (vz F / (q * r_area r)) /\
  is (c_CD c) (c_D c / (q * r_area r)) /\ is (c_CC c) (c_C c / (q * r_area r)) /\ is (c_CL c) (c_L c / (q * r_area r)) /\
  is (c_Cl c) (vx M / (q * r_area r * r_span r)) /\ is (c_Cm c) (vy M / (q * r_area r * r_chord r)) /\
  is (c_Cn c) (vz M / (q * r_area r * r_span r)).
Proof. exact (coefficients s r F M). Qed.
Print Assumptions C25_coefficients_partial.

(** Zero dynamic pressure: the global coefficients use 1 instead. *)
Theorem C25_zero_pressure_partial s r F M : dyn_pressure s = 0 -> r_area r <> 0 -> r_span r <> 0 -> r_chord r <> 0 ->
  let c := vlm_coeffs s r F M in
  is (c_Cx c) (vx F / r_area r) /\ is (c_Cy c) (vy F / r_area r) /\ is (c_Cz c) (vz F / r_area r) /\
  is (c_CD c) (c_D c / r_area r) /\ is (c_CC c) (c_C c / r_area r) /\ is (c_CL c) (c_L c / r_area r) /\
  is (c_Cl c) (vx M / (r_area r * r_span r)) /\ is (c_Cm c) (vy M / (r_area r * r_chord r)) /\
  is (c_Cn c) (vz M / (r_area r * r_span r)).
Proof. exact (coefficients_q0 s r F M). Qed.
Print Assumptions C25_zero_pressure_partial.

(** The panel pressure coefficients have no such guard: 0/0. *)
Theorem C25_panel_cp_refuted : exists eps lat s r g o,
  0 < eps /\ regular lat /\ dyn_pressure s = 0 /\ (exists m, downwash eps lat = Some m /\ solves m (boundary lat s r) g) /\
  vlm_results eps lat s r g = Some o /\ exists p, In p (o_panels o) /\ o_cp p = None.
Proof.
  exists (1 / 1000000), lat1, (mkFlow 0 1 0 0 0 0 0), refs1.
  destruct (lat1_solved (1 / 1000000) (mkFlow 0 1 0 0 0 0 0) refs1 ltac:(lra)) as (m & g & o & D & U & S & H).
  exists g, o. split; [lra|]. split; [exact lat1_regular|].
  assert (Q : dyn_pressure (mkFlow 0 1 0 0 0 0 0) = 0) by (unfold dyn_pressure; cbn; lra).
  split; [exact Q|]. split; [exists m; auto|]. split; [exact H|].
  assert (L : length g = length lat1) by (destruct (proj1 (solves_iff _ _ _ _ _ _ D) S) as (L & _); exact L).
  destruct (panel_results _ _ _ _ _ _ H L) as (LP & _). destruct (o_panels o) as [|p l] eqn:E; [discriminate|].
  exists p. split; [left; reflexivity|]. apply (cp_q0 _ _ _ _ _ _ H Q). rewrite E. left. reflexivity.
Qed.
Print Assumptions C25_panel_cp_refuted.

Example C25_example : dyn_pressure flow1 <> 0 /\ r_area refs1 <> 0 /\ r_span refs1 <> 0 /\ r_chord refs1 <> 0.
Proof. unfold dyn_pressure, flow1, refs1. cbn. repeat split; lra. Qed.

(** ** C52: Biot-Savart *)

(** With a zero epsilon a leg induces exactly the Biot-Savart integral. *)
Theorem C52_exact_law p a b : off_line p a b -> exists u, leg_velocity 0 p a b = Some u /\ biot_savart p a b u.
Proof. exact (exact_leg p a b). Qed.
Print Assumptions C52_exact_law.

(** Otherwise the same direction, damped by a factor between 0 and 1 close to 1. *)
Theorem C52_regularised eps p a b u : 0 <= eps -> off_line p a b -> leg_velocity eps p a b = Some u ->
  exists u0, biot_savart p a b u0 /\ u = vscale (damping eps p a b) u0.
Proof. exact (leg_biot_savart eps p a b u). Qed.
Print Assumptions C52_regularised.

Theorem C52_damping eps p a b : 0 <= eps -> off_line p a b ->
  0 < damping eps p a b <= 1 /\ (eps = 0 -> damping eps p a b = 1) /\
  1 - damping eps p a b <= eps * (vnorm (vsub p a) * vnorm (vsub p b)) / (vnorm (vsub p a) * vnorm (vsub p b) + vdot (vsub p a) (vsub p b)).
Proof. exact (damping_range eps p a b). Qed.
Print Assumptions C52_damping.

Example C52_example : off_line (mkV 1 0 0) (mkV 0 (-1) 0) (mkV 0 1 0).
Proof. intro H. apply (f_equal vz) in H. vsimp. lra. Qed.

(** ** C53: superposition *)

Theorem C53_superposition eps lat m a b s1 s2 r g1 g2 : downwash eps lat = Some m ->
  f_alpha s1 = f_alpha s2 -> f_beta s1 = f_beta s2 ->
  solves m (boundary lat s1 r) g1 -> solves m (boundary lat s2 r) g2 ->
  solves m (boundary lat (blend a b s1 s2) r) (comb a b g1 g2).
Proof. exact (superposition eps lat m a b s1 s2 r g1 g2). Qed.
Print Assumptions C53_superposition.

Example C53_example : let s2 := mkFlow 20 1 5 0 1 0 0 in f_alpha flow1 = f_alpha s2 /\ f_beta flow1 = f_beta s2 /\
  exists m g1 g2, downwash (1 / 1000000) lat1 = Some m /\ solves m (boundary lat1 flow1 refs1) g1 /\ solves m (boundary lat1 s2 refs1) g2.
Proof.
  split; [reflexivity|]. split; [reflexivity|].
  destruct (lat1_solved (1 / 1000000) flow1 refs1 ltac:(lra)) as (m & g & o & D & _ & S & _).
  destruct (lat1_solved (1 / 1000000) (mkFlow 20 1 5 0 1 0 0) refs1 ltac:(lra)) as (m' & g' & o' & D' & _ & S' & _).
  rewrite D in D'. injection D' as <-. exists m, g, g'. auto.
Qed.

(** ** C54: translation *)

Theorem C54_translation eps d lat s r g o :
  downwash eps (map (move d) lat) = downwash eps lat /\
  boundary (map (move d) lat) s (moved d r) = boundary lat s r /\
  (vlm_results eps lat s r g = Some o -> vlm_results eps (map (move d) lat) s (moved d r) g = Some o).
Proof. exact (conj (downwash_move eps d lat) (conj (boundary_move d lat s r) (results_move eps d lat s r g o))). Qed.
Print Assumptions C54_translation.

(** ** C55: scale *)

Theorem C55_scale eps k lat s r g m o : 0 < k -> downwash eps lat = Some m ->
  exists m', downwash eps (map (scale k) lat) = Some m' /\
  boundary (map (scale k) lat) (scaled_flow k s) (scaled_refs k r) = boundary lat s r /\
  (solves m (boundary lat s r) g <-> solves m' (boundary lat s r) (map (Rmult k) g)) /\
  (dyn_pressure s <> 0 -> vlm_results eps lat s r g = Some o ->
   exists o', vlm_results eps (map (scale k) lat) (scaled_flow k s) (scaled_refs k r) (map (Rmult k) g) = Some o' /\
    o_F o' = vscale (k * k) (o_F o) /\ o_M o' = vscale (k * k * k) (o_M o) /\
    same_coeffs (o_co o) (o_co o') /\ map o_cp (o_panels o') = map o_cp (o_panels o) /\ map o_iw (o_panels o') = map o_iw (o_panels o)).
Proof.
  exact (fun K D => ex_intro _ (map (map (Rmult (/ k))) m) (conj (downwash_scale eps k lat m K D)
    (conj (boundary_scale k lat s r (Rgt_not_eq _ _ K)) (conj (solves_scaled k m _ g K) (results_scale eps k lat s r g o K))))).
Qed.
Print Assumptions C55_scale.
