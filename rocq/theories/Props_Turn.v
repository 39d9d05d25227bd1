(** C130: turned aircraft. *)
From Coq Require Import Reals String List ZArith QArith Lra.
From Verif Require Import PyBase Vec StripModel AircraftModel LatticeModel PanelModel GeomModel GeomSpec NormalModel VlmModel VlmSpec IsoSpec IsoProofs VlmExample IsoExample TurnSpec TurnProofs.

Import ListNotations.
Open Scope R_scope.

(** Any rotation of the aircraft together with the flow. *)
Theorem C130_turned Q geo camber a eps s s' r pans n g o : rotation Q -> mirrors_turned Q a -> turned_flow Q s s' ->
  gen_lattice geo camber true (f_alpha s) (f_beta s) a = Ok (pans, n) -> loads eps (set_normals pans n) s r g o ->
  exists pans' n', gen_lattice (fun w x => turned_quad Q (geo w x)) camber true (f_alpha s') (f_beta s') a = Ok (pans', n') /\
    exists g' o', loads eps (set_normals pans' n') s' (turned_refs Q r) g' o' /\
    o_F o' = Q (o_F o) /\ o_M o' = Q (o_M o) /\
    (forall i pr, nth_error (o_panels o) i = Some pr -> exists pr', nth_error (o_panels o') i = Some pr' /\ o_f pr' = Q (o_f pr) /\ o_iw pr' = Q (o_iw pr)) /\
    let c := o_co o in let c' := o_co o' in
    c_D c' = c_D c /\ c_CD c' = c_CD c /\ c_C c' * c_C c' + c_L c' * c_L c' = c_C c * c_C c + c_L c * c_L c.
Proof. intro ISO. exact (turned_loads Q ISO geo camber a eps s s' r pans n g o). Qed.
Print Assumptions C130_turned.

(** The turned flow can always be given by angles. *)
Theorem C130_angles Q s : rotation Q -> exists s', turned_flow Q s s' /\ -180 <= f_alpha s' <= 180 /\ -90 <= f_beta s' <= 90.
Proof. exact (turned_exists Q s). Qed.
Print Assumptions C130_angles.

(** Nose to the side: the angle of sideslip changes by the same angle, all coefficients in the directions of the flow stay. *)
Theorem C130_yaw t geo camber a eps s r pans n g o : mirrors_turned (yaw t) a -> f_alpha s = 0 ->
  gen_lattice geo camber true (f_alpha s) (f_beta s) a = Ok (pans, n) -> loads eps (set_normals pans n) s r g o ->
  let s' := mkFlow (f_airspeed s) (f_rho s) 0 (f_beta s + t) (vx (yaw t (rates s))) (vy (yaw t (rates s))) (vz (yaw t (rates s))) in
  exists pans' n', gen_lattice (fun w x => turned_quad (yaw t) (geo w x)) camber true (f_alpha s') (f_beta s') a = Ok (pans', n') /\
    exists g' o', loads eps (set_normals pans' n') s' (turned_refs (yaw t) r) g' o' /\
    let c := o_co o in let c' := o_co o' in
    c_D c' = c_D c /\ c_C c' = c_C c /\ c_L c' = c_L c /\
    c_CD c' = c_CD c /\ c_CC c' = c_CC c /\ c_CL c' = c_CL c /\ c_Cn c' = c_Cn c /\ c_Cz c' = c_Cz c.
Proof. exact (yaw_loads t geo camber a eps s r pans n g o). Qed.
Print Assumptions C130_yaw.

(** One wing down by 90 degrees: the angle of attack becomes the angle of sideslip, lift becomes side force. *)
Theorem C130_banked geo camber a eps s r pans n g o : mirrors_turned (roll 90) a -> f_beta s = 0 ->
  gen_lattice geo camber true (f_alpha s) (f_beta s) a = Ok (pans, n) -> loads eps (set_normals pans n) s r g o ->
  let s' := mkFlow (f_airspeed s) (f_rho s) 0 (f_alpha s) (f_P s) (- f_R s) (f_Q s) in
  exists pans' n', gen_lattice (fun w x => turned_quad (roll 90) (geo w x)) camber true (f_alpha s') (f_beta s') a = Ok (pans', n') /\
    exists g' o', loads eps (set_normals pans' n') s' (turned_refs (roll 90) r) g' o' /\
    let c := o_co o in let c' := o_co o' in
    c_D c' = c_D c /\ c_C c' = - c_L c /\ c_L c' = c_C c /\ c_CD c' = c_CD c /\ opposite (c_CL c) (c_CC c') /\ c_CL c' = c_CC c /\ c_Cl c' = c_Cl c.
Proof. exact (banked_loads geo camber a eps s r pans n g o). Qed.
Print Assumptions C130_banked.

(** An aircraft that is modelled completely, with loads; it can be turned by every rotation. *)
Example C130_turned_example Q : mirrors_turned Q one_ac /\ exists s pans n g o, f_P s <> 0 /\ f_alpha s = 0 /\ f_beta s = 0 /\
  gen_lattice one_geo (fun _ _ => 0) true (f_alpha s) (f_beta s) one_ac = Ok (pans, n) /\ loads (1 / 1000000) (set_normals pans n) s refs1 g o.
Proof.
  split; [intros wn w [E|[]]; injection E as <- <-; left; reflexivity|].
  exists (mkFlow 10 1 0 0 1 2 3). destruct (one_loads (mkFlow 10 1 0 0 1 2 3) refs1) as (pans & n & g & o & G & H). exists pans, n, g, o. split; [cbn; lra|]. auto.
Qed.
(** Rotations; the flow turned by two of them, one after the other; a wing mirrored at the xy-plane. *)
Example C130_rotations_example t u : rotation (yaw t) /\ rotation (roll t) /\ rotation (pitch t) /\ rotation (fun v => yaw t (roll u v)) /\
  mirrors_turned (yaw t) (mkAC "fins" [("fin", mkWing "fin" 1 [] [])]%string).
Proof.
  split; [apply yaw_iso|]. split; [apply roll_iso|]. split; [apply pitch_iso|]. split.
  - destruct (yaw_iso t) as (_ & A & B & C & D). destruct (roll_iso u) as (_ & A' & B' & C' & D').
    split; [left; reflexivity|]. split; [intros x y; rewrite A', A; reflexivity|]. split; [intros k x; rewrite B', B; reflexivity|].
    split; [intros x y; rewrite C, C'; reflexivity|]. intros x y. rewrite D, D', B. f_equal. apply vec_eq; cbn [vx vy vz vscale]; ring.
  - intros wn w [E|[]]; injection E as <- <-. right. exists XY. split; [reflexivity|]. intro v. apply vec_eq; reflexivity.
Qed.
