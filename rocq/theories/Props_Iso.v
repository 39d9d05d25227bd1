(** C98-C100: mirrored, turned and unloaded aircraft. *)
From Coq Require Import Reals ZArith String QArith List Lra.
From Verif Require Import PyBase Vec StripModel StripSpec AircraftModel LatticeModel LatticeSpec PanelModel GeomModel GeomSpec
  NormalModel NormalSpec EnumProofs GeomProofs VlmModel VlmSpec VlmProofs VlmLaws VlmSymmetry VlmExample
  IsoSpec IsoProofs IsoAircraft IsoPitch IsoExample Props_Strips Props_Lattice Props_Vlm.
Import ListNotations.
Open Scope R_scope.

(** ** C98: mirrored flight conditions *)

(** Any lattice and its mirror image. *)
Theorem C98_mirrored_lattice eps lat lat' sg s r g o : images (-1) mir sg lat lat' -> loads eps lat s r g o ->
  exists g' o', loads eps lat' (mirrored_flow s) (mirrored_refs r) g' o' /\
    o_F o' = mir (o_F o) /\ o_M o' = vscale (-1) (mir (o_M o)) /\
    (forall i pr, nth_error (o_panels o) i = Some pr ->
      exists pr', nth_error (o_panels o') (sg i) = Some pr' /\ o_f pr' = mir (o_f pr) /\ o_iw pr' = mir (o_iw pr)) /\
    let c := o_co o in let c' := o_co o' in
    c_D c' = c_D c /\ c_C c' = - c_C c /\ c_L c' = c_L c /\
    c_Cx c' = c_Cx c /\ c_Cz c' = c_Cz c /\ c_CD c' = c_CD c /\ c_CL c' = c_CL c /\ c_Cm c' = c_Cm c /\
    opposite (c_Cy c) (c_Cy c') /\ opposite (c_CC c) (c_CC c') /\ opposite (c_Cl c) (c_Cl c') /\ opposite (c_Cn c) (c_Cn c').
Proof. exact (mirrored_loads eps lat lat' sg s r g o). Qed.
Print Assumptions C98_mirrored_lattice.

(** The lattice of a symmetric aircraft with sideslip and any deflections, and the one with the
    opposite sideslip and mirrored deflections. *)
Theorem C98_mirrored_aircraft geo camber alpha beta a : panelled a -> counts_set a -> flags_ok a -> camber_of_shape camber ->
  (forall v, In v (all_subareas a) -> symmetric_shape geo camber v) ->
  exists pans n pans' n' sg, gen_lattice geo camber true alpha beta a = Ok (pans, n) /\
    gen_lattice geo camber true alpha (- beta) (mirrored_aircraft a) = Ok (pans', n') /\
    images (-1) mir sg (set_normals pans n) (set_normals pans' n').
Proof. exact (mirrored_lattice geo camber alpha beta a). Qed.
Print Assumptions C98_mirrored_aircraft.

Theorem C98_mirrored_aircraft_loads geo camber a eps s r : panelled a -> counts_set a -> flags_ok a -> camber_of_shape camber ->
  (forall v, In v (all_subareas a) -> symmetric_shape geo camber v) -> vy (r_CG r) = 0 -> vy (r_RP r) = 0 ->
  let s' := mirrored_flow s in
  exists pans n pans' n', gen_lattice geo camber true (f_alpha s) (f_beta s) a = Ok (pans, n) /\
    gen_lattice geo camber true (f_alpha s') (f_beta s') (mirrored_aircraft a) = Ok (pans', n') /\
    forall g o, loads eps (set_normals pans n) s r g o -> exists g' o', loads eps (set_normals pans' n') s' r g' o' /\
      o_F o' = mir (o_F o) /\ o_M o' = vscale (-1) (mir (o_M o)) /\
      let c := o_co o in let c' := o_co o' in
      c_CD c' = c_CD c /\ c_CL c' = c_CL c /\ c_Cm c' = c_Cm c /\
      opposite (c_CC c) (c_CC c') /\ opposite (c_Cl c) (c_Cl c') /\ opposite (c_Cn c) (c_Cn c').
Proof. exact (mirrored_aircraft_loads geo camber a eps s r). Qed.
Print Assumptions C98_mirrored_aircraft_loads.

Example C98_lattice_example : exists s g o, f_beta s <> 0 /\ f_P s <> 0 /\
  images (-1) mir (fun i => i) lat1 lat1 /\ loads (1 / 1000000) lat1 s refs1 g o.
Proof.
  exists (mkFlow 10 1 5 3 1 0 0). destruct (lat1_solved (1 / 1000000) (mkFlow 10 1 5 3 1 0 0) refs1 ltac:(lra)) as (m & g & o & D & U & S & H).
  exists g, o. split; [cbn; lra|]. split; [cbn; lra|]. split; [|exists m; auto].
  split; [reflexivity|]. split; [auto|]. intros i p N. destruct (lat1_symmetric i p N) as (_ & p' & N' & IM). exists p'. split; [exact N'|].
  apply image_by_of. exact IM.
Qed.

(** The aircraft of C08 has different deflections on both sides. *)
Example C98_aircraft_example : panelled ex_ac /\ counts_set ex_ac /\ flags_ok ex_ac /\ camber_of_shape (fun _ _ => 0) /\
  (forall v, In v (all_subareas ex_ac) -> symmetric_shape sym_geo (fun _ _ => 0) v) /\ mirrored_aircraft ex_ac <> ex_ac.
Proof.
  split; [exact ex_ac_panelled|]. split; [exact ex_ac_counts|]. split; [|split; [|split]].
  - intros wn w [E|[E|[]]]; injection E as <- <-; cbn; auto.
  - intros ? ? ? ? ? ? ?. reflexivity.
  - remember ex_ac as a eqn:EA. intros v I. destruct v as [[[[[na ka] v] [[nd kd] d]] [[ns ks] s]] [[nw kw] w]]. apply all_subareas_In in I.
    destruct I as (Iw & _). subst a. apply nth_error_In in Iw. destruct Iw as [E|[E|[]]]; injection E as <- <-.
    + left. split; [reflexivity|]. intros; right; reflexivity.
    + right. split; [reflexivity|]. do 4 (split; [reflexivity|]). reflexivity.
  - intro E. apply (f_equal (fun a => match a_wings a with (_, w) :: _ => match w_ctls w with (_, c) :: _ => wc_deflection c | [] => None end | [] => None end)) in E.
    discriminate.
Qed.

(** Loads exist for an aircraft of one panel, here with rates. *)
Example C98_loads_example : let s := mkFlow 10 1 0 0 1 2 3 in exists pans n g o,
  gen_lattice one_geo (fun _ _ => 0) true (f_alpha s) (f_beta s) one_ac = Ok (pans, n) /\
  loads (1 / 1000000) (set_normals pans n) s refs1 g o /\ vy (r_CG refs1) = 0 /\ vy (r_RP refs1) = 0.
Proof.
  cbv zeta. destruct (one_loads (mkFlow 10 1 0 0 1 2 3) refs1) as (pans & n & g & o & G & H). exists pans, n, g, o.
  split; [exact G|]. split; [exact H|]. split; reflexivity.
Qed.

(** ** C99: pitch *)

Theorem C99_pitched_lattice t eps lat lat' sg s r g o : images 1 (pitch t) sg lat lat' -> loads eps lat s r g o ->
  exists g' o', loads eps lat' (pitched_flow t s) (pitched_refs t r) g' o' /\
    o_F o' = pitch t (o_F o) /\ o_M o' = pitch t (o_M o) /\
    (forall i pr, nth_error (o_panels o) i = Some pr ->
      exists pr', nth_error (o_panels o') (sg i) = Some pr' /\ o_f pr' = pitch t (o_f pr) /\ o_iw pr' = pitch t (o_iw pr)) /\
    let c := o_co o in let c' := o_co o' in
    c_D c' = c_D c /\ c_C c' = c_C c /\ c_L c' = c_L c /\ c_CD c' = c_CD c /\ c_CC c' = c_CC c /\ c_CL c' = c_CL c /\ c_Cm c' = c_Cm c /\ c_Cy c' = c_Cy c.
Proof. exact (pitched_loads t eps lat lat' sg s r g o). Qed.
Print Assumptions C99_pitched_lattice.

(** An aircraft turned nose down by [t], flown at an angle of attack larger by [t]. *)
Theorem C99_pitched_aircraft t geo camber alpha beta a pans n : side_mirrors a ->
  gen_lattice geo camber true alpha beta a = Ok (pans, n) ->
  gen_lattice (fun w s => pitched_quad t (geo w s)) camber true (alpha + t) beta a = Ok (map (pitched_panel t) pans, map (pitch t) n).
Proof. intros S H. pose proof (pt_gen_lattice t geo camber alpha beta a S) as E. rewrite H in E. exact E. Qed.
Print Assumptions C99_pitched_aircraft.

Theorem C99_pitched_aircraft_loads t geo camber a eps s r pans n g o : side_mirrors a ->
  gen_lattice geo camber true (f_alpha s) (f_beta s) a = Ok (pans, n) -> loads eps (set_normals pans n) s r g o ->
  f_P s = 0 -> f_Q s = 0 -> f_R s = 0 ->
  let s' := mkFlow (f_airspeed s) (f_rho s) (f_alpha s + t) (f_beta s) 0 0 0 in
  exists pans' n', gen_lattice (fun w s => pitched_quad t (geo w s)) camber true (f_alpha s') (f_beta s') a = Ok (pans', n') /\
    exists g' o', loads eps (set_normals pans' n') s' (pitched_refs t r) g' o' /\
    let c := o_co o in let c' := o_co o' in
    c_CD c' = c_CD c /\ c_CC c' = c_CC c /\ c_CL c' = c_CL c /\ c_Cm c' = c_Cm c.
Proof. exact (pitched_aircraft_loads t geo camber a eps s r pans n g o). Qed.
Print Assumptions C99_pitched_aircraft_loads.

Example C99_lattice_example : exists s g o, images 1 (pitch 7) (fun i => i) lat1 (map (pitched_panel 7) lat1) /\
  loads (1 / 1000000) lat1 s refs1 g o /\ f_P s <> 0.
Proof.
  exists (mkFlow 10 1 5 3 1 0 0). destruct (lat1_solved (1 / 1000000) (mkFlow 10 1 5 3 1 0 0) refs1 ltac:(lra)) as (m & g & o & D & U & S & H).
  exists g, o. split; [|split; [exists m; auto|cbn; lra]]. split; [reflexivity|]. split; [auto|]. intros i p N. exists (pitched_panel 7 p).
  rewrite nth_error_map, N. split; [reflexivity|]. do 3 (split; [reflexivity|]). right. do 4 (split; [reflexivity|]). cbn [pN pitched_panel]. apply vec_eq; vsimp; ring.
Qed.

Example C99_aircraft_example : side_mirrors ex_ac /\ exists x, gen_lattice sym_geo (fun _ _ => 2) true 3 4 ex_ac = Ok x.
Proof.
  assert (F : flags_ok ex_ac) by (intros wn w [E|[E|[]]]; injection E as <- <-; cbn; auto).
  split; [intros wn w [E|[E|[]]]; injection E as <- <-; cbn; auto|].
  destruct (NormalProofs.final_normals_short sym_geo (fun _ _ => 2) 3 4 ex_ac ex_ac_panelled ex_ac_counts F) as (st & pans & n & _ & G & _). exists (pans, n). exact G.
Qed.

Example C99_loads_example : side_mirrors one_ac /\ exists pans n g o,
  gen_lattice one_geo (fun _ _ => 0) true 0 0 one_ac = Ok (pans, n) /\ loads (1 / 1000000) (set_normals pans n) (mkFlow 10 1 0 0 0 0 0) refs1 g o.
Proof. split; [intros wn w [E|[]]; injection E as <- <-; cbn; auto|exact (one_loads (mkFlow 10 1 0 0 0 0 0) refs1)]. Qed.

(** ** C100: no load without flow through the panels *)

Theorem C100_aligned eps lat s r g o : (forall p, In p lat -> vdot (onset s (r_CG r) (pC p)) (pN p) = 0) -> loads eps lat s r g o ->
  (forall x, In x g -> x = 0) /\ (forall pr, In pr (o_panels o) -> o_f pr = vzero /\ o_iw pr = vzero) /\ o_F o = vzero /\ o_M o = vzero /\
  c_D (o_co o) = 0 /\ c_C (o_co o) = 0 /\ c_L (o_co o) = 0.
Proof. exact (no_load eps lat s r g o). Qed.
Print Assumptions C100_aligned.

(** Uncambered segments in planes parallel to the x-axis, without deflections, angle of attack,
    sideslip and rotation. *)
Theorem C100_flat_aircraft geo camber a eps s r : panelled a -> counts_set a -> flags_ok a -> undeflected a -> (forall v x, camber v x = 0) ->
  (forall v, In v (all_subareas a) -> along_x (v_quad geo v)) ->
  f_alpha s = 0 -> f_beta s = 0 -> f_P s = 0 -> f_Q s = 0 -> f_R s = 0 ->
  exists pans n, gen_lattice geo camber true (f_alpha s) (f_beta s) a = Ok (pans, n) /\
  forall g o, loads eps (set_normals pans n) s r g o ->
    (forall x, In x g -> x = 0) /\ (forall pr, In pr (o_panels o) -> o_f pr = vzero) /\ o_F o = vzero /\ o_M o = vzero.
Proof. exact (flat_aircraft_loads geo camber a eps s r). Qed.
Print Assumptions C100_flat_aircraft.

Example C100_lattice_example : exists g o, (forall p, In p lat1 -> vdot (onset (mkFlow 10 1 0 0 0 0 0) (r_CG refs1) (pC p)) (pN p) = 0) /\
  loads (1 / 1000000) lat1 (mkFlow 10 1 0 0 0 0 0) refs1 g o.
Proof.
  destruct (lat1_solved (1 / 1000000) (mkFlow 10 1 0 0 0 0 0) refs1 ltac:(lra)) as (m & g & o & D & U & S & H).
  exists g, o. split; [|exists m; auto]. intros p [<-|[]]. unfold onset, wind, rates, rad, vdot, pan1. vsimp. cbn [f_alpha f_beta f_airspeed f_P f_Q f_R].
  replace (0 * PI / 180) with 0 by (unfold Rdiv; ring). rewrite sin_0. ring.
Qed.

Definition ex_flat : aircraft :=
  mkAC "ac" [("wing", mkWing "wing" 2 [("s2", ex_s2)] []); ("fin", ex_fin)]%string.
Example C100_aircraft_example : panelled ex_flat /\ counts_set ex_flat /\ flags_ok ex_flat /\ undeflected ex_flat /\
  forall v, In v (all_subareas ex_flat) -> along_x (v_quad sym_geo v).
Proof.
  split; [|split; [|split; [|split]]].
  - intros wn w sn s [E|[E|[]]] Is; injection E as <- <-.
    + destruct Is as [E|[]]. injection E as <- <-.
      destruct (ex_ac_panelled "wing"%string ex_wing "s2"%string ex_s2 (or_introl eq_refl) (or_intror (or_introl eq_refl))) as (A & B). split; [exact A|].
      intros st k v c I1 I2 E. exfalso.
      assert (X : forallb (fun st => forallb (fun kv => match sa_ctrl (snd kv) with Some _ => false | None => true end) (st_subs st)) (ws_strips ex_s2) = true)
        by (vm_compute; reflexivity).
      rewrite forallb_forall in X. specialize (X _ I1). rewrite forallb_forall in X. specialize (X _ I2). cbn [snd] in X. rewrite E in X. discriminate.
    + exact (ex_ac_panelled "fin"%string ex_fin sn s (or_intror (or_introl eq_refl)) Is).
  - intros wn w [E|[E|[]]]; injection E as <- <-.
    + destruct (ex_ac_counts "wing"%string ex_wing (or_introl eq_refl)) as (A & _). split; [|intros cn c []]. intros sn s [E|[]]. apply (A sn s). right. left. exact E.
    + exact (ex_ac_counts "fin"%string ex_fin (or_intror (or_introl eq_refl))).
  - intros wn w [E|[E|[]]]; injection E as <- <-; cbn; auto.
  - intros wn w cn c [E|[E|[]]]; injection E as <- <-; intros [].
  - remember ex_flat as a eqn:EA. intros v I. destruct v as [[[[[na ka] v] [[nd kd] d]] [[ns ks] s]] [[nw kw] w]]. apply all_subareas_In in I.
    destruct I as (Iw & Is & _). subst a. apply nth_error_In in Iw, Is. destruct Iw as [E|[E|[]]]; injection E as <- <-; destruct Is as [E|[]]; injection E as <- <-.
    + exists (mkV 0 (-1) 4), (-4). split; [discriminate_vec|]. split; [reflexivity|]. unfold v_quad, sym_geo, vdot. cbn. repeat split; lra.
    + exists (mkV 0 1 0), 0. split; [discriminate_vec|]. split; [reflexivity|]. unfold v_quad, sym_geo, vdot. cbn. repeat split; lra.
Qed.
