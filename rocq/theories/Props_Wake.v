(** C104-C106: trailing vortices. *)
From Coq Require Import Reals ZArith List Lra Lia Psatz.
From Verif Require Import Vec PanelModel GeomSpec GeomProofs VlmModel VlmSpec VlmExample WakeSpec WakeProofs WakeScale.
Import ListNotations.
Open Scope R_scope.

(** ** C104: the trailing legs stand for vortices to infinity *)

(** A leg from [a] of length [L] differs from the vortex to infinity by at most [cut_off]. *)
Theorem C104_leg p a d : vnorm d = 1 -> vcross (vsub p a) d <> vzero ->
  exists v, semi_infinite p a d v /\
  forall L, 0 < L -> ahead p a d < L -> exists u, leg_velocity 0 p a (vadd a (vscale L d)) = Some u /\ vnorm (vsub u v) <= cut_off L p a d.
Proof. exact (finite_leg p a d). Qed.
Print Assumptions C104_leg.

(** With the regularisation, up to the damping of C21. *)
Theorem C104_regularised p a d : vnorm d = 1 -> vcross (vsub p a) d <> vzero ->
  exists v, semi_infinite p a d v /\
  forall eps L, 0 <= eps -> 0 < L -> ahead p a d < L -> exists u, leg_velocity eps p a (vadd a (vscale L d)) = Some u /\
    vnorm (vsub u v) <= cut_off L p a d + (1 - damping eps p a (vadd a (vscale L d))) * (vnorm v + cut_off L p a d).
Proof. exact (regularised_leg p a d). Qed.
Print Assumptions C104_regularised.

(** Size of the bound for points within the distance [S]. *)
Theorem C104_size L p a d S : vnorm d = 1 -> vnorm (vsub p a) <= S -> S < L ->
  cut_off L p a d <= S / (8 * PI * ((L - S) * (L - S))).
Proof. exact (cut_off_size L p a d S). Qed.
Print Assumptions C104_size.

(** The horseshoes of the lattice: the trailing legs run in the direction of the free stream and act
    as if they had no end. *)
Theorem C104_horseshoe alpha beta subs j p : In j (lattice (trail_dir alpha beta) subs) ->
  let w := flow_dir alpha beta in
  off_line p (pV2 j) (pV3 j) -> vcross (vsub p (pV2 j)) w <> vzero -> vcross (vsub p (pV3 j)) w <> vzero ->
  ahead p (pV2 j) w < 10000 -> ahead p (pV3 j) w < 10000 ->
  exists u l b r, horseshoe 0 p j = Some u /\ semi_infinite p (pV2 j) w l /\ biot_savart p (pV2 j) (pV3 j) b /\ semi_infinite p (pV3 j) w r /\
    vnorm (vsub u (vadd b (vsub r l))) <= cut_off 10000 p (pV2 j) w + cut_off 10000 p (pV3 j) w.
Proof. exact (infinite_horseshoe alpha beta subs j p). Qed.
Print Assumptions C104_horseshoe.

Example C104_example : let w := flow_dir 0 0 in let j := flat 10000 in let p := pC j in
  In j (lattice (trail_dir 0 0) [(quad1, (1, 1)%Z)]) /\ vnorm w = 1 /\
  off_line p (pV2 j) (pV3 j) /\ vcross (vsub p (pV2 j)) w <> vzero /\ vcross (vsub p (pV3 j)) w <> vzero /\
  ahead p (pV2 j) w < 10000 /\ ahead p (pV3 j) w < 10000.
Proof.
  cbv zeta. assert (W : flow_dir 0 0 = mkV 1 0 0).
  { unfold flow_dir, rad. replace (0 * PI / 180) with 0 by field. rewrite sin_0, cos_0. apply vec_eq; vsimp; ring. }
  assert (T : trail_dir 0 0 = mkV 10000 0 0).
  { unfold trail_dir, freestream_direction, deg2rad, infty. rewrite !Rmult_0_l, !sin_0, !cos_0. apply vec_eq; vsimp; ring. }
  rewrite W, T, flat_lattice. split; [left; reflexivity|]. split.
  { unfold vnorm. cbn [vx vy vz]. replace (1 * 1 + 0 * 0 + 0 * 0) with 1 by ring. apply sqrt_1. }
  unfold off_line, ahead, flat, vzero. cbn [pC pV2 pV3].
  split; [|split; [|split]]; try (intro H; apply (f_equal vz) in H; vsimp; lra). unfold vdot. vsimp. lra.
Qed.
(** For points within 100 length units of the start of a leg the bound is below 10^-7. *)
Example C104_size_example p a d : vnorm d = 1 -> vnorm (vsub p a) <= 100 -> cut_off 10000 p a d < 1 / 10000000.
Proof.
  intros D N. pose proof (cut_off_size 10000 p a d 100 D N ltac:(lra)) as H. eapply Rle_lt_trans; [exact H|].
  pose proof PI2_3_2 as P. unfold PI2 in P. assert (P3 : 3 < PI) by (unfold Rdiv in P; lra).
  apply (Rmult_lt_reg_r (8 * PI * ((10000 - 100) * (10000 - 100)))); [nra|]. unfold Rdiv at 1. rewrite Rmult_assoc, Rinv_l by nra. nra.
Qed.

(** ** C105: the trailing lines carry the differences of circulation *)

(** Velocity of a row of panels that share their edges: the bound legs with the circulations of the
    panels, and one vortex per trailing line with the difference between its two sides. *)
Theorem C105_row eps p row last g w : linked (row ++ [last]) -> length g = length (row ++ [last]) -> is_induced eps (row ++ [last]) g p w ->
  exists bs ts, Forall2 (fun j b => leg_velocity eps p (pV2 j) (pV3 j) = Some b) (row ++ [last]) bs /\
    Forall2 (fun l t => leg_velocity eps p (fst l) (snd l) = Some t) (trailing_lines (row ++ [last]) last) ts /\
    w = vadd (weighted g bs) (weighted (shed g) ts).
Proof. exact (row_induced eps p row last g w). Qed.
Print Assumptions C105_row.

(** What is shed on the way out is taken up again. *)
Theorem C105_total g : rsum (shed g) = 0.
Proof. exact (shed_total g). Qed.
Print Assumptions C105_total.

(** The rows of a subarea share their edges, also with the next subarea if the corners are the same
    points and the chordwise numbers of panels agree. *)
Theorem C105_lattice_rows dir q ps pc i : (1 <= ps)%Z -> (1 <= pc)%Z ->
  linked (map (fun j => make_panel dir q ps pc i (Z.of_nat j)) (seq 0 (Z.to_nat ps))).
Proof. exact (row_linked dir q ps pc i). Qed.
Print Assumptions C105_lattice_rows.

Theorem C105_next_subarea dir q q' ps ps' pc i : (1 <= ps)%Z -> (1 <= ps')%Z -> (1 <= pc)%Z -> qb q = qa q' -> qc q = qd q' ->
  let j := make_panel dir q ps pc i (ps - 1) in let j' := make_panel dir q' ps' pc i 0 in
  pV3 j = pV2 j' /\ pV4 j = pV1 j'.
Proof. exact (meet_linked dir q q' ps ps' pc i). Qed.
Print Assumptions C105_next_subarea.

Example C105_example : linked (lattice (mkV 10000 0 0) [(quad1, (3, 1)%Z)]) /\ shed [3; 5; 4] = [0 - 3; 3 - 5; 5 - 4; 4 - 0].
Proof. split; [exact (row_linked (mkV 10000 0 0) quad1 3 1 0 ltac:(lia) ltac:(lia))|reflexivity]. Qed.

(** ** C106: aircraft of another size *)

(** Partial: the legs of the program have a fixed length, so the aircraft of [k] times the size has
    the coefficients of the original with legs 1/[k] times as long. *)
Theorem C106_scaled_aircraft_partial eps k subs ns s r o : 0 < k -> dyn_pressure s <> 0 ->
  let dir := trail_dir (f_alpha s) (f_beta s) in
  solved eps (set_normals (lattice (vscale (/ k) dir) subs) ns) s r o ->
  exists o', solved eps (set_normals (lattice dir (scale_subs k subs)) ns) (scaled_flow k s) (scaled_refs k r) o' /\ same_coeffs (o_co o) (o_co o') /\
    o_F o' = vscale (k * k) (o_F o) /\ o_M o' = vscale (k * k * k) (o_M o).
Proof. exact (aircraft_scaled eps k _ subs ns s r o). Qed.
Print Assumptions C106_scaled_aircraft_partial.

(** With legs of the length of the program the coefficients change: a wing of one panel, and the same
    wing 5000 times as large. *)
Theorem C106_scaled_aircraft_refuted :
  exists eps k subs s r o o', 0 < eps /\ 0 < k /\ dyn_pressure s <> 0 /\
    solved eps (lattice (trail_dir (f_alpha s) (f_beta s)) subs) s r o /\
    solved eps (lattice (trail_dir (f_alpha s) (f_beta s)) (scale_subs k subs)) (scaled_flow k s) (scaled_refs k r) o' /\
    exists c c', c_CL (o_co o) = Some c /\ c_CL (o_co o') = Some c' /\ c' > c.
Proof. exact scaled_differs. Qed.
Print Assumptions C106_scaled_aircraft_refuted.

Example C106_example : exists o, solved (1 / 1000000) (lattice (vscale (/ 5000) (trail_dir 0 0)) [(quad1, (1, 1)%Z)]) flow2 refs1 o /\
  dyn_pressure flow2 <> 0.
Proof.
  destruct (flat_downwash (1 / 1000000)) as (c & C & W); [lra|]. pose proof trail_short.
  destruct (flat_solved 2 (c + 2 * trail (1 / 1000000) 2)) as (o & S & _); [lra|apply W; lra|lra|].
  exists o. split; [|unfold dyn_pressure, flow2; cbn; lra].
  assert (T : trail_dir 0 0 = mkV 10000 0 0).
  { unfold trail_dir, freestream_direction, deg2rad, infty. rewrite !Rmult_0_l, !sin_0, !cos_0. apply vec_eq; vsimp; ring. }
  rewrite T. replace (vscale (/ 5000) (mkV 10000 0 0)) with (mkV 2 0 0) by (apply vec_eq; vsimp; lra). rewrite flat_lattice. exact S.
Qed.
