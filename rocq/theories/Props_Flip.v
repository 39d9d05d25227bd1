(** C129: opposite angles of attack. *)
From Coq Require Import Reals String List ZArith QArith Lra Lia.
From Verif Require Import PyBase Vec StripModel StripSpec StripRun AircraftModel LatticeModel LatticeSpec PanelModel GeomModel NormalModel NormalSpec VlmModel VlmSpec
  IsoSpec FlipSpec FlipProofs.
From Verif Require Props_Strips Props_Lattice Props_Order Props_Sides.
Import ListNotations.
Open Scope R_scope.

(** The aircraft mirrored at the xy-plane, with deflections and camber to the other side, at the opposite angle of attack. *)
Theorem C129_flipped geo geo' camber camber' a eps s r : (forall w x, geo' w x = flipped_quad (geo w x)) -> flipped_camber camber camber' -> panelled a -> counts_set a -> flags_ok a ->
  let s' := flipped_flow s in
  exists pans n pans' n', gen_lattice geo camber true (f_alpha s) (f_beta s) a = Ok (pans, n) /\
    gen_lattice geo' camber' true (f_alpha s') (f_beta s') (flipped_aircraft a) = Ok (pans', n') /\
    forall g o, loads eps (set_normals pans n) s r g o -> exists g' o', loads eps (set_normals pans' n') s' (flipped_refs r) g' o' /\
      o_F o' = flip (o_F o) /\ o_M o' = vscale (-1) (flip (o_M o)) /\
      (forall i pr, nth_error (o_panels o) i = Some pr -> exists pr', nth_error (o_panels o') i = Some pr' /\ o_f pr' = flip (o_f pr) /\ o_iw pr' = flip (o_iw pr)) /\
      let c := o_co o in let c' := o_co o' in
      c_D c' = c_D c /\ c_C c' = c_C c /\ c_L c' = - c_L c /\
      c_Cx c' = c_Cx c /\ c_Cy c' = c_Cy c /\ c_CD c' = c_CD c /\ c_CC c' = c_CC c /\ c_Cn c' = c_Cn c /\
      opposite (c_Cz c) (c_Cz c') /\ opposite (c_CL c) (c_CL c') /\ opposite (c_Cl c) (c_Cl c') /\ opposite (c_Cm c) (c_Cm c').
Proof. exact (flipped_loads geo geo' camber camber' a eps s r). Qed.
Print Assumptions C129_flipped.

(** Flat wings without camber and with opposite deflections. *)
Theorem C129_flat geo a eps s r : flat geo -> panelled a -> counts_set a -> flags_ok a -> vz (r_CG r) = 0 -> vz (r_RP r) = 0 ->
  let camber := fun (_ : subarea_visit) (_ : R) => 0 in let s' := flipped_flow s in
  exists pans n pans' n', gen_lattice geo camber true (f_alpha s) (f_beta s) a = Ok (pans, n) /\
    gen_lattice geo camber true (f_alpha s') (f_beta s') (flipped_aircraft a) = Ok (pans', n') /\
    forall g o, loads eps (set_normals pans n) s r g o -> exists g' o', loads eps (set_normals pans' n') s' r g' o' /\
      let c := o_co o in let c' := o_co o' in
      c_L c' = - c_L c /\ c_CD c' = c_CD c /\ c_CC c' = c_CC c /\ c_Cn c' = c_Cn c /\
      opposite (c_CL c) (c_CL c') /\ opposite (c_Cl c) (c_Cl c') /\ opposite (c_Cm c) (c_Cm c').
Proof. exact (flat_loads geo a eps s r). Qed.
Print Assumptions C129_flat.

(** Without deflections: the same aircraft. *)
Theorem C129_undeflected geo a eps s r : flat geo -> undeflected a -> panelled a -> counts_set a -> flags_ok a -> vz (r_CG r) = 0 -> vz (r_RP r) = 0 ->
  let camber := fun (_ : subarea_visit) (_ : R) => 0 in let s' := flipped_flow s in
  exists pans n pans' n', gen_lattice geo camber true (f_alpha s) (f_beta s) a = Ok (pans, n) /\
    gen_lattice geo camber true (f_alpha s') (f_beta s') a = Ok (pans', n') /\
    forall g o, loads eps (set_normals pans n) s r g o -> exists g' o', loads eps (set_normals pans' n') s' r g' o' /\
      let c := o_co o in let c' := o_co o' in
      c_L c' = - c_L c /\ c_CD c' = c_CD c /\ c_CC c' = c_CC c /\ c_Cn c' = c_Cn c /\
      opposite (c_CL c) (c_CL c') /\ opposite (c_Cl c) (c_Cl c') /\ opposite (c_Cm c) (c_Cm c').
Proof. exact (wing_loads geo a eps s r). Qed.
Print Assumptions C129_undeflected.

(** The aircraft of C08 with deflected flap and slat, and with camber. *)
Example C129_flipped_example : exists geo' camber', (forall w x, geo' w x = flipped_quad (Props_Order.ex_geo w x)) /\ flipped_camber Props_Order.ex_camber camber' /\
  panelled Props_Lattice.ex_ac /\ counts_set Props_Lattice.ex_ac /\ flags_ok Props_Lattice.ex_ac /\ flipped_aircraft Props_Lattice.ex_ac <> Props_Lattice.ex_ac.
Proof.
  exists (fun w x => flipped_quad (Props_Order.ex_geo w x)), (fun v x => - Props_Order.ex_camber v x). split; [reflexivity|]. split; [intros ? ? ? ? ? ? ?; reflexivity|].
  split; [exact Props_Lattice.ex_ac_panelled|]. split; [exact Props_Lattice.ex_ac_counts|]. split; [intros wn w [E|[E|[]]]; injection E as <- <-; cbn; auto|].
  intro E. apply (f_equal (fun a => map (fun w => map (fun c => wc_deflection (snd c)) (w_ctls (snd w))) (a_wings a))) in E. vm_compute in E. discriminate E.
Qed.
(** A flat wing with an aileron; deflected, and set to zero on one side and not set on the other. *)
Definition ex_geo (w s : string) : quad := mkQuad (mkV 0 0 0) (mkV 1 5 0) (mkV 3 5 0) (mkV 1 0 0).
Definition ex_ac (d : Q) : aircraft := mkAC "flat" [("wing"%string, mkWing "wing" 2 [("seg"%string, Props_Sides.ex_seg)] [("flap"%string, Props_Sides.ex_wc (Some d) None)])].
Example C129_flat_example d : flat ex_geo /\ panelled (ex_ac d) /\ counts_set (ex_ac d) /\ flags_ok (ex_ac d).
Proof.
  split; [intros w s; repeat split|]. split; [|split].
  - assert (X : forallb (fun st => forallb (fun kv => match sa_ctrl (snd kv) with Some c => String.eqb (ct_uid c) "flap" | None => true end) (st_subs st)) (ws_strips Props_Sides.ex_seg) = true) by (vm_compute; reflexivity).
    intros wn w sn s [I|[]] J. injection I as <- <-. destruct J as [J|[]]. injection J as <- <-. split; [eexists lin_interp, _; split; [left; exact lin_interp_ok|reflexivity]|].
    intros st k v c A B E. rewrite forallb_forall in X. specialize (X _ A). rewrite forallb_forall in X. specialize (X _ B). cbn [snd] in X. rewrite E in X. apply String.eqb_eq in X. rewrite X. eexists. reflexivity.
  - intros wn w [I|[]]. injection I as <- <-. split; intros n x [J|[]]; injection J as <- <-; eexists; (split; [reflexivity|lia]).
  - intros wn w [I|[]]. injection I as <- <-. cbn. auto.
Qed.
Example C129_undeflected_example : undeflected (ex_ac 0) /\ flipped_aircraft (ex_ac (5#1)) <> ex_ac (5#1).
Proof.
  split.
  - intros wn w cn c [I|[]] J. injection I as <- <-. destruct J as [J|[]]. injection J as <- <-. split; intros d E; [injection E as <-; reflexivity|discriminate E].
  - intro E. apply (f_equal (fun a => map (fun w => map (fun c => wc_deflection (snd c)) (w_ctls (snd w))) (a_wings a))) in E. vm_compute in E. discriminate E.
Qed.
