(** Proofs about analyses with reference values that C cannot read (C112). *)
From Coq Require Import Reals Qreals Lra Lia List String ZArith QArith.
From Verif Require Import PyBase PyVal StateModel SettingsModel SettingsSpec AircraftModel LatticeSpec PanelModel VlmModel PrePanelModel PrePanelSpec
  PrePanelProofs NormalSpec ChainProofs AnalysisModel AnalysisSpec AnalysisProofs AnalysisTables AnalysisFinish AnalysisSingular UnreadSpec.
From Verif Require RunModel RunSpec RunProofs.
Import ListNotations.
Open Scope string_scope.

Lemma unread_fail d : unread d -> exists e, get_refs d = Fail e.
Proof.
  intros (k & I & N). unfold get_refs.
  assert (X : forall k, (forall x, dget d k <> Some (PFlt x)) -> exists e, get_float d k = Fail e).
  { intros j M. unfold get_float. destruct (dget d j) as [[]|]; eauto. exfalso. eapply M. reflexivity. }
  destruct (X k N) as [e E]. destruct (get_float d "area") as [a|] eqn:EA; [|eauto].
  destruct (get_float d "span") as [b|] eqn:ES; [|eauto]. destruct (get_float d "chord") as [c|] eqn:EC; [|eauto].
  destruct I as [<-|[<-|[<-|[]]]]; congruence.
Qed.

Section Unread.
Variable interp : string -> string -> Q * Q -> Q * Q -> Q -> res Q.
Variable seg_dist : string -> string -> Q * Q -> Q * Q -> Q.
Variable geo : string -> string -> quad.
Variable camber : subarea_visit -> R -> R.
Variable solve : option (list (list R)) -> option (list R) -> option (list R).
Variable base : string.
Variable draw : nat -> string -> res unit.
Variable str_of : pyval -> string.
Variable save_cpacs : world -> dict (list (option R)) -> res world.
Notation run s := (RunModel.run (option R) table world base draw str_of (analyse interp seg_dist geo camber solve s) save_cpacs).
Notation written := (RunSpec.written (option R) table).

Theorem unread_zero parse cpacs s st w t w' : solver_ok solve -> settings_ok s ->
  fresh (x_aircraft w) -> counts_set (x_aircraft w) -> x_data w = new_data -> unread (x_refs w) ->
  run s parse cpacs s st w = (t, Ok w') ->
  forall i row d f, nth_error (fst (iter_states parse st)) i = Some row -> RunSpec.three_digits d i -> state_values row f ->
  let file := has_file (written t) base d in
  (forall c, file "global.json" c -> exists forces coeffs, c = RunModel.CGlobal row forces coeffs /\ no_loads forces coeffs) /\
  (forall c, file "panelwise.dat" c -> exists p, c = RunModel.CTable p /\ p <> [] /\ Forall zero_row p) /\
  (forall c, file "matrix.dat" c -> exists m, c = RunModel.CTable m /\ (Forall zero_equation m \/ forall row x, In row m -> In x row -> x = None)).
Proof.
  intros SO S F C D U H. assert (S0 := S). destruct S0 as (_ & _ & _ & _ & _ & _ & SR & _ & (eps & SE & _)).
  apply RunProofs.typed_bool in SR as [rot SR]. destruct (unread_fail _ U) as [ec RF].
  destruct (RunProofs.run_files _ _ _ _ _ _ _ _ _ _ _ _ _ _ _ S H) as (outs & w1 & CO & NE & _ & _ & FI & _).
  assert (K : forall x, In x (fst (iter_states parse st)) -> dkeys x = STATE_PRIMARY_PARAMS).
  { intros x I. apply In_nth_error in I as [j J]. exact (iter_keys _ _ _ _ J). }
  intros i row d f N DD SV. assert (KR := iter_keys _ _ _ _ N). assert (SG := state_got_values _ _ SV KR).
  assert (O : exists o, nth_error outs i = Some o).
  { assert (L : List.length outs = List.length (fst (iter_states parse st))) by (clear - CO; induction CO; cbn; congruence).
    destruct (nth_error outs i) as [o|] eqn:E; [eauto|]. apply nth_error_None in E. rewrite L in E. apply nth_error_None in E. congruence. }
  destruct O as [o O]. destruct (computes_each _ _ _ _ _ _ _ _ _ _ CO D K i row o N O) as [w2 AN].
  destruct (analyse_ok _ _ _ _ _ _ _ _ _ _ _ AN KR) as (f' & n & lat & G & P & NP & NZ & L & E). rewrite SG in G. injection G as <-.
  cbv zeta in E. rewrite D in E.
  destruct (pre_panelled interp seg_dist _ _ F P) as [PA SB]. assert (C' := strips_counts _ _ SB C).
  assert (L0 := L). unfold make_lattice in L. cbn [getitem] in L. rewrite SE, SR in L. cbn [bind PyVal.truthy] in L.
  destruct (NormalModel.gen_lattice geo camber rot (f_alpha f) (f_beta f) (x_aircraft w2)) as [[pans ns]|] eqn:GL; [cbn [bind fst snd] in L|discriminate].
  assert (lat = Some (set_normals pans ns)) as -> by congruence. clear L. assert (SZ := lattice_size _ _ _ _ _ _ _ PA C' L0 NP).
  set (lt := set_normals pans ns) in *.
  assert (GE : get_epsilon s = Got (Some (Q2R eps))) by (unfold get_epsilon, get_float; rewrite SE; reflexivity).
  rewrite RF, GE in E.
  assert (X : forall name c, has_file (written t) base d name c -> exists key, RunSpec.state_file _ _ row o key name c).
  { intros name c I. rewrite (has_state_file _ _ _ _ _ _ _ _ _ i name c FI DD) in I. destruct I as (aero & o' & key & N1 & N2 & Y & _).
    exists key. congruence. }
  cbv zeta. split; [|split].
  - intros c I. destruct (X _ _ I) as [key Y]. inversion Y; subst. do 2 eexists. split; [reflexivity|].
    intros k J. cbn in J. repeat destruct J as [<-|J]; try tauto; split; reflexivity.
  - intros c I. destruct (X _ _ I) as [key Y]. inversion Y; subst. eexists. split; [reflexivity|]. cbn [RunModel.o_panel]. split.
    + unfold panel_table. intro Z. apply (f_equal (@List.length _)) in Z. rewrite stack_length in Z. cbn in Z. congruence.
    + apply Forall_forall. intros r R. unfold panel_table in R. apply stack_row in R as (j & J & ->). eexists.
      unfold AnalysisModel.steps, calc_boundary, calc_results. cbn. repeat rewrite (nth_repeat_in (Some 0%R) None _ _ J). reflexivity.
  - intros c I. destruct (X _ _ I) as [key Y]. inversion Y; subst. eexists. split; [reflexivity|]. cbn [RunModel.o_matrix].
    unfold matrix_table, AnalysisModel.steps, calc_boundary, calc_results. cbn [d_matrix d_rhs].
    destruct (calc_downwash (Got (Some (Q2R eps))) (Some lt) (List.length lt)) as [m|].
    + left. apply Forall_forall. intros r R. apply in_map_iff in R as ((a & b) & <- & R). cbn [fst snd].
      assert (B := in_combine_r _ _ _ _ R). apply repeat_spec in B as ->. exists a. reflexivity.
    + right. intros r x R Q. apply repeat_spec in R as ->. exact (repeat_spec _ _ _ Q).
Qed.

(** The plates of [tw_world] with an integer as reference area. *)
Definition un_world : world := mkWorld tw_aircraft (dset tw_refs "area" (PInt 1)) new_data.
Lemma un_unread : unread (x_refs un_world).
Proof. exists "area". split; [left; reflexivity|]. intros x H. vm_compute in H. discriminate. Qed.
Lemma un_run : (forall i n, draw i n = Ok tt) -> exists t w', run tw_settings (fun _ => Err ValueError) false tw_settings tw_state un_world = (t, Ok w').
Proof.
  intro D. assert (I := tw_states).
  apply (proj1 (finishes interp seg_dist geo camber solve base draw str_of save_cpacs (fun _ => Err ValueError) false
    tw_settings tw_state un_world tw_aircraft tw_settings_ok tw_fresh tw_counts ltac:(intros wn w [E|[E|[]]]; injection E as <- <-; cbn; auto)
    (tw_panelling _ _) D ltac:(discriminate) ltac:(rewrite I; reflexivity) ltac:(rewrite I; discriminate))).
  do 4 eexists. split; [left; reflexivity|]. left. reflexivity.
Qed.
Theorem unread_unnoticed : solver_ok solve -> (forall i n, draw i n = Ok tt) -> exists t w' row forces coeffs,
  run tw_settings (fun _ => Err ValueError) false tw_settings tw_state un_world = (t, Ok w') /\
  has_file (written t) base "000" "global.json" (RunModel.CGlobal row forces coeffs) /\ no_loads forces coeffs.
Proof.
  intros SO D. destruct (un_run D) as (t & w' & H). exists t, w', tw_row.
  destruct (RunProofs.run_files _ _ _ _ _ _ _ _ _ _ _ _ _ _ _ tw_settings_ok H) as (outs & w2 & C & _ & _ & _ & F & _).
  rewrite tw_states in C, F. cbn [fst] in C, F. inversion C as [|i' w0 r' rows' o outs' w4 w5 A' B']; subst. inversion B'; subst.
  assert (G : has_file (written t) base "000" "global.json" (RunModel.CGlobal tw_row (RunModel.o_forces o) (RunModel.o_coeffs o))).
  { apply (has_state_file _ _ _ _ _ _ _ _ _ 0%nat _ _ F); [exact (RunProofs.dec3_ok 0)|].
    exists tw_row, o, "global". split; [reflexivity|]. split; [reflexivity|]. split; [constructor|]. unfold RunSpec.requested.
    eexists. split; [vm_compute; do 2 eexists; [reflexivity|]|]. all: vm_compute; eauto 20. }
  exists (RunModel.o_forces o), (RunModel.o_coeffs o). split; [exact H|]. split; [exact G|].
  destruct (unread_zero (fun _ => Err ValueError) false tw_settings tw_state un_world t w' SO tw_settings_ok tw_fresh tw_counts eq_refl un_unread H 0%nat tw_row "000"
    (mkFlow (Q2R 10) (Q2R 1) (Q2R 0) (Q2R 0) (Q2R 0) (Q2R 0) (Q2R 0))) as (Z & _).
  - rewrite tw_states. reflexivity.
  - exact (RunProofs.dec3_ok 0).
  - do 7 eexists. repeat (split; [reflexivity|]). reflexivity.
  - destruct (Z _ G) as (fs & cs & E & NL). injection E as <- <-. exact NL.
Qed.
End Unread.
