(** Property theorems: reference values that C cannot read (C112). *)
From Coq Require Import Reals Qreals List String ZArith QArith.
From Verif Require Import PyBase PyVal StateModel SettingsModel SettingsSpec AircraftModel LatticeSpec PanelModel VlmModel PrePanelModel PrePanelSpec
  NormalSpec ChainProofs AnalysisModel AnalysisSpec AnalysisSingular UnreadSpec UnreadProofs Props_Analysis.
From Verif Require RunModel RunSpec.
Import ListNotations.
Open Scope string_scope.

(** C112: a reference value that is not a float does not stop the run, and all files then hold zero
    forces, coefficients, velocities and boundary conditions.  (That the run comes to its end is C88,
    which holds for all reference values.) *)
Theorem C112_unread_zero :
  forall interp seg_dist geo camber solve base draw str_of save_cpacs parse cpacs s st w t w', solver_ok solve -> settings_ok s ->
  fresh (x_aircraft w) -> counts_set (x_aircraft w) -> x_data w = new_data -> unread (x_refs w) ->
  run_on interp seg_dist geo camber solve base draw str_of save_cpacs s parse cpacs s st w = (t, Ok w') ->
  forall i row d f, nth_error (fst (iter_states parse st)) i = Some row -> RunSpec.three_digits d i -> state_values row f ->
  let file := has_file (written t) base d in
  (forall c, file "global.json" c -> exists forces coeffs, c = RunModel.CGlobal row forces coeffs /\ no_loads forces coeffs) /\
  (forall c, file "panelwise.dat" c -> exists p, c = RunModel.CTable p /\ p <> [] /\ Forall zero_row p) /\
  (forall c, file "matrix.dat" c -> exists m, c = RunModel.CTable m /\ (Forall zero_equation m \/ forall row x, In row m -> In x row -> x = None)).
Proof. exact unread_zero. Qed.
Print Assumptions C112_unread_zero.

(** That an unreadable reference value makes the run fail is false: with an integer as reference
    area the run ends normally and the file of the loads holds zeros. *)
Theorem C112_reported_refuted :
  forall interp seg_dist geo camber solve base draw str_of save_cpacs, solver_ok solve -> (forall i n, draw i n = Ok tt) ->
  exists s parse st w r t w' row forces coeffs, settings_ok s /\ reference_values (x_refs w) r /\ unread (x_refs w) /\
  run_on interp seg_dist geo camber solve base draw str_of save_cpacs s parse false s st w = (t, Ok w') /\
  has_file (written t) base "000" "global.json" (RunModel.CGlobal row forces coeffs) /\ no_loads forces coeffs.
Proof.
  intros interp seg_dist geo camber solve base draw str_of save_cpacs SO D.
  destruct (unread_unnoticed interp seg_dist geo camber solve base draw str_of save_cpacs SO D) as (t & w' & row & fs & cs & H & F & N).
  exists tw_settings, (fun _ => Err ValueError), tw_state, un_world, (mkRefs (IZR 1) (Q2R 1) (Q2R 1) (Vec.mkV (Q2R 0) (Q2R 0) (Q2R 0)) (Vec.mkV (Q2R 0) (Q2R 0) (Q2R 0))), t, w', row, fs, cs.
  split; [exact tw_settings_ok|]. split; [|split; [exact un_unread|]; auto].
  assert (V : forall q, real_value (PFlt (Some q)) (Q2R q)) by (intro q; left; eauto).
  assert (P : real_point tw_point (Vec.mkV (Q2R 0) (Q2R 0) (Q2R 0))) by (do 3 eexists; repeat (split; [first [reflexivity|apply V]|]); apply V).
  do 5 eexists. repeat (split; [first [reflexivity|apply V|exact P|right; eexists; split; reflexivity]|]). exact P.
Qed.
Print Assumptions C112_reported_refuted.

(** The run of the witness meets the conditions of [C112_unread_zero]. *)
Example C112_example :
  solver_ok ex_solve /\ settings_ok tw_settings /\ fresh (x_aircraft un_world) /\ counts_set (x_aircraft un_world) /\ x_data un_world = new_data /\
  unread (x_refs un_world) /\ nth_error (fst (iter_states (fun _ => Err ValueError) tw_state)) 0 = Some tw_row /\ RunSpec.three_digits "000" 0 /\
  exists f, state_values tw_row f.
Proof.
  split; [exact ex_solver|]. split; [exact tw_settings_ok|]. split; [exact tw_fresh|]. split; [exact tw_counts|]. split; [reflexivity|].
  split; [exact un_unread|]. rewrite tw_states. split; [reflexivity|]. split; [exact (RunProofs.dec3_ok 0)|].
  eexists. do 7 eexists. repeat (split; [reflexivity|]). reflexivity.
Qed.
