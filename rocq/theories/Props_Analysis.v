(** Property theorems: the analysis of flight states in a run (C85-C89). *)
From Coq Require Import Reals Qreals Lra Lia List String ZArith QArith.
From Verif Require Import PyBase PyVal StateModel SettingsModel SettingsSpec AircraftModel LatticeSpec PanelModel VlmModel PrePanelModel PrePanelSpec WingSpec WingModel WingProofs
  NormalSpec ChainProofs AnalysisModel AnalysisSpec AnalysisProofs AnalysisTables AnalysisFinish AnalysisSingular Props_PrePanel.
From Verif Require RunModel RunSpec AircraftIOModel.
Import ListNotations.
Open Scope string_scope.

Notation run_on interp seg_dist geo camber solve base draw str_of save_cpacs s :=
  (RunModel.run (option R) table world base draw str_of (analyse interp seg_dist geo camber solve s) save_cpacs) (only parsing).
Notation written := (RunSpec.written (option R) table).

(** C85: in a finished run the results of a state are those of a run with this state alone. *)
Theorem C85_independent :
  forall interp seg_dist geo camber solve base draw str_of save_cpacs parse cpacs s st w t w',
  settings_ok s -> x_data w = new_data -> (forall i n, draw i n = Ok tt) ->
  run_on interp seg_dist geo camber solve base draw str_of save_cpacs s parse cpacs s st w = (t, Ok w') ->
  forall i row d, nth_error (fst (iter_states parse st)) i = Some row -> RunSpec.three_digits d i ->
  forall parse1 st1, iter_states parse1 st1 = ([row], Ok tt) ->
  exists t1 w1, run_on interp seg_dist geo camber solve base draw str_of save_cpacs s parse1 false s st1 w = (t1, Ok w1) /\
    (forall name c, has_file (written t) base d name c <-> has_file (written t1) base "000" name c) /\
    (forall p a r, In (p, RunModel.CMap a r) (written t) -> exists a1 r1, In (p, RunModel.CMap a1 r1) (written t1) /\
       forall k l, dget r k = Some l -> exists x, dget r1 k = Some [x] /\ nth_error l i = Some x).
Proof. exact independent. Qed.
Print Assumptions C85_independent.

(** C86: the compiled functions get the user's numbers: the files of a state hold what the lattice,
    downwash, boundary and result functions give for the values of the state, of the reference
    dictionary and of the settings. *)
Theorem C86_interface :
  forall interp seg_dist geo camber solve base draw str_of save_cpacs none_ok int_ok pf refdict r parse cpacs s st w t w',
  solver_ok solve -> settings_ok s ->
  fresh (x_aircraft w) -> counts_set (x_aircraft w) -> x_data w = new_data ->
  AircraftIOModel.generate_refs none_ok int_ok pf refdict = Ok (x_refs w) -> reference_values refdict r ->
  run_on interp seg_dist geo camber solve base draw str_of save_cpacs s parse cpacs s st w = (t, Ok w') ->
  exists eps rot a,
    dget s "_epsilon" = Some (PFlt (Some eps)) /\ dget s "_do_normal_rotations" = Some (PBool rot) /\
    pre_panelling interp seg_dist (x_aircraft w) = (a, Ok tt) /\
    forall i row d f, nth_error (fst (iter_states parse st)) i = Some row -> RunSpec.three_digits d i -> state_values row f ->
    exists pans ns, NormalModel.gen_lattice geo camber rot (f_alpha f) (f_beta f) a = Ok (pans, ns) /\
      let lat := set_normals pans ns in
      let b := boundary lat f r in
      let file := has_file (written t) base d in
      forall m g x, downwash (Q2R eps) lat = Some m -> solve (Some m) (Some b) = Some g -> vlm_results (Q2R eps) lat f r g = Some x ->
      (forall c, file "global.json" c -> exists forces coeffs, c = RunModel.CGlobal row forces coeffs /\ named_loads forces coeffs x) /\
      (forall c, file "panelwise.dat" c -> c = RunModel.CTable (map (fun gx => panel_row (fst gx) (snd gx)) (combine g (o_panels x)))) /\
      (forall c, file "matrix.dat" c -> c = RunModel.CTable (map (fun mb => matrix_row (fst mb) (snd mb)) (combine m b))).
Proof. exact interface. Qed.
Print Assumptions C86_interface.

(** C87: the files of one state agree with each other. *)
Theorem C87_files_agree :
  forall interp seg_dist geo camber solve base draw str_of save_cpacs parse cpacs s st w t w', solver_ok solve -> settings_ok s ->
  fresh (x_aircraft w) -> counts_set (x_aircraft w) -> x_data w = new_data ->
  run_on interp seg_dist geo camber solve base draw str_of save_cpacs s parse cpacs s st w = (t, Ok w') ->
  forall i d, RunSpec.three_digits d i ->
  let file := has_file (written t) base d in
  (forall aero forces coeffs p, file "global.json" (RunModel.CGlobal aero forces coeffs) -> file "panelwise.dat" (RunModel.CTable p) -> forces_add_up forces p) /\
  (forall p, file "panelwise.dat" (RunModel.CTable p) -> magnitudes p) /\
  (forall p m, file "panelwise.dat" (RunModel.CTable p) -> file "matrix.dat" (RunModel.CTable m) -> well_shaped p m /\ system_solved p m).
Proof. exact files_agree. Qed.
Print Assumptions C87_files_agree.

(** C88: once the panelling of a freshly loaded aircraft has succeeded, the run comes to its end if
    there is a segment; without segments it fails before anything is written. *)
Theorem C88_finishes :
  forall interp seg_dist geo camber solve base draw str_of save_cpacs parse cpacs s st w a,
  settings_ok s -> fresh (x_aircraft w) -> counts_set (x_aircraft w) -> flags_ok (x_aircraft w) ->
  pre_panelling interp seg_dist (x_aircraft w) = (a, Ok tt) -> (forall i n, draw i n = Ok tt) ->
  (cpacs = true -> forall w r, exists w', save_cpacs w r = Ok w') ->
  snd (iter_states parse st) = Ok tt -> fst (iter_states parse st) <> [] ->
  (has_segment (x_aircraft w) -> exists t w', run_on interp seg_dist geo camber solve base draw str_of save_cpacs s parse cpacs s st w = (t, Ok w')) /\
  (~ has_segment (x_aircraft w) -> run_on interp seg_dist geo camber solve base draw str_of save_cpacs s parse cpacs s st w = ([], Err LibError)).
Proof. exact finishes. Qed.
Print Assumptions C88_finishes.

(** An aircraft with a symmetric wing of several segments with a flap and a second wing, two states. *)
Definition ex_filled : aircraft := fst (set_autopanels None None ex_new).
Definition ex_two : fstate :=
  fst (StateModel.update (fun _ => Err ValueError) (fun _ => Err ValueError) new_state
    (map (fun kx => (fst kx, Many (map VNum [match snd kx with Some q => q | None => 0%Q end; 1%Q]))) tw_row)).
Definition ex_world : world := mkWorld ex_filled tw_refs new_data.
Definition ex_solve (m : option (list (list R))) (b : option (list R)) : option (list R) :=
  match m, b with
  | Some [[a]], Some [c] => Some [(c / a)%R]
  | _, _ => None
  end.
Lemma ex_solver : solver_ok ex_solve.
Proof.
  intros m b g. unfold ex_solve. destruct m as [[|[|a [|]] [|]]|]; try discriminate. destruct b as [[|c [|]]|]; try discriminate.
  intro H. injection H as <-. exists [c]. split; [reflexivity|]. split; [reflexivity|]. intros rows E _ [_ RG]. injection E as <-. split; [reflexivity|].
  unfold dot. cbn. f_equal. destruct (Req_dec a 0) as [->|NZ]; [|field; exact NZ]. exfalso. assert (Z : (1 = 0)%R); [|lra].
  apply (RG [1%R] eq_refl); [|left; reflexivity]. intros row [<-|[]]. unfold dot. cbn. lra.
Qed.
Lemma ex_filled_ok : fresh ex_filled /\ counts_set ex_filled /\ flags_ok ex_filled /\ has_segment ex_filled.
Proof.
  destruct C57_example as (F & P & G & _).
  destruct (autopanels_ok None None ex_new (positive_total _ P)) as (a1 & E & _ & D).
  assert (X : ex_filled = a1) by (unfold ex_filled; rewrite E; reflexivity). split; [rewrite X; exact (filled_fresh _ _ _ _ F D)|].
  assert (N : (1 <= or_one None)%Z) by (cbn; lia). split; [rewrite X; exact (filled_counts _ _ _ _ N G D)|]. clear. split.
  - intros wn w [E|[E|[]]]; injection E as <- <-; cbn; auto.
  - do 4 eexists. split; [left; reflexivity|]. left. reflexivity.
Qed.
Example C88_example :
  settings_ok tw_settings /\ fresh ex_filled /\ counts_set ex_filled /\ flags_ok ex_filled /\ has_segment ex_filled /\
  (exists a, pre_panelling ex_ip ex_dist ex_filled = (a, Ok tt)) /\
  snd (iter_states (fun _ => Err ValueError) ex_two) = Ok tt /\ List.length (fst (iter_states (fun _ => Err ValueError) ex_two)) = 2%nat.
Proof.
  split; [exact tw_settings_ok|]. destruct ex_filled_ok as (A & B & C & D). repeat (split; [assumption|]).
  split; [eexists; vm_compute; reflexivity|]. split; vm_compute; reflexivity.
Qed.
(** The run of the example is a run to which C85, C86 and C87 apply. *)
Example C85_example :
  solver_ok ex_solve /\ x_data ex_world = new_data /\
  (exists f, state_values tw_row f) /\ (exists r, reference_values tw_refs r) /\
  AircraftIOModel.generate_refs true true (fun _ => Err ValueError) tw_refs = Ok (x_refs ex_world) /\
  forall geo camber, exists t w', run_on ex_ip ex_dist geo camber ex_solve "ex" (fun _ _ => Ok tt) (fun _ => "") (fun w _ => Ok w) tw_settings
    (fun _ => Err ValueError) false tw_settings ex_two ex_world = (t, Ok w').
Proof.
  split; [exact ex_solver|]. split; [reflexivity|]. split.
  { eexists. do 7 eexists. repeat (split; [reflexivity|]). reflexivity. }
  split.
  { exists (mkRefs (Q2R 1) (Q2R 1) (Q2R 1) (Vec.mkV (Q2R 0) (Q2R 0) (Q2R 0)) (Vec.mkV (Q2R 0) (Q2R 0) (Q2R 0))).
    assert (V : forall q, real_value (PFlt (Some q)) (Q2R q)) by (intro q; left; eauto).
    assert (P : real_point tw_point (Vec.mkV (Q2R 0) (Q2R 0) (Q2R 0))) by (do 3 eexists; repeat (split; [first [reflexivity|apply V]|]); apply V).
    do 5 eexists. repeat (split; [first [reflexivity|apply V|exact P]|]). exact P. }
  split; [vm_compute; reflexivity|]. intros geo camber. destruct C88_example as (S & A & B & C & D & (a & PP) & I & L).
  apply (proj1 (finishes ex_ip ex_dist geo camber ex_solve "ex" (fun _ _ => Ok tt) (fun _ => "") (fun w _ => Ok w) (fun _ => Err ValueError) false
    tw_settings ex_two ex_world a S A B C PP (fun _ _ => eq_refl) ltac:(discriminate) I ltac:(intro Z; rewrite Z in L; discriminate))). exact D.
Qed.

(** C89: a finished run need not have a uniquely determined solution: with two wings in the same
    place the equations are singular, nothing is reported and all files are written. *)
Theorem C89_unique_solution_refuted :
  forall interp seg_dist camber solve base draw str_of save_cpacs, (forall i n, draw i n = Ok tt) ->
  exists geo parse s st w t w' m eqs,
  settings_ok s /\ fresh (x_aircraft w) /\ counts_set (x_aircraft w) /\ x_data w = new_data /\
  run_on interp seg_dist geo camber solve base draw str_of save_cpacs s parse false s st w = (t, Ok w') /\
  has_file (written t) base "000" "matrix.dat" (RunModel.CTable m) /\
  Forall2 (fun row ab => equation row (fst ab) (snd ab)) m eqs /\ ~ regular (map fst eqs).
Proof.
  intros interp seg_dist camber solve base draw str_of save_cpacs D.
  destruct (no_unique_solution interp seg_dist camber solve base draw str_of save_cpacs D) as (t & w' & m & eqs & H & F & E & N).
  exists tw_geo, (fun _ => Err ValueError), tw_settings, tw_state, tw_world, t, w', m, eqs.
  split; [exact tw_settings_ok|]. split; [exact tw_fresh|]. split; [exact tw_counts|]. split; [reflexivity|]. auto.
Qed.
Print Assumptions C89_unique_solution_refuted.
