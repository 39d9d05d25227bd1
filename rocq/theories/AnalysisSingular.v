(** Proofs about analyses without a unique solution (C89): two wings in the same place. *)
From Coq Require Import Reals Qreals Lra Lia List String Ascii Arith ZArith QArith Bool.
From Verif Require Import PyBase PyFacts PyVal StateModel StripModel StripSpec AircraftModel LatticeModel LatticeSpec LatticeProofs Vec PanelModel
  GeomModel GeomProofs NormalModel NormalSpec VlmModel VlmProofs PrePanelModel PrePanelSpec PrePanelProofs SchemaModel SettingsModel SettingsSpec SettingsProofs
  AnalysisModel AnalysisSpec AnalysisProofs AnalysisTables.
From Verif Require RunModel RunSpec RunProofs.
Import List ListNotations.
Open Scope string_scope.

(** A square plate of one panel, given twice under different names. *)
Definition tw_wing (n : string) : string * wing :=
  (n, mkWing n 0 [("s", mkWS "s" (Some 1%Z) (Some 1%Z) 1 new_segment)] []).
Definition tw_aircraft : aircraft := mkAC "twice" [tw_wing "first"; tw_wing "second"].
Definition tw_geo (wing seg : string) : quad := mkQuad (mkV 0 0 0) (mkV 0 1 0) (mkV 1 1 0) (mkV 1 0 0).
Definition tw_plot : pyval := PDict [("opt", PList []); ("show", PBool false); ("save", PBool false)].
Definition tw_settings : dict pyval :=
  fst (fst (update new_settings
   [("aircraft", PStr "twice.json"); ("state", PStr "st.json"); ("_do_normal_rotations", PBool false);
    ("plot", PDict [("geometry", tw_plot); ("lattice", tw_plot); ("matrix_downwash", tw_plot); ("results", tw_plot)]);
    ("save_results", PDict [("global", PBool true); ("panelwise", PBool true); ("matrix_system", PBool true); ("aeroperformance", PBool true)])])).
Definition tw_row : dict num :=
  [(AIRSPEED, Some 10); (ALPHA, Some 0); (BETA, Some 0); (DENSITY, Some 1); (RATE_P, Some 0); (RATE_Q, Some 0); (RATE_R, Some 0)].
Definition tw_state : fstate :=
  fst (StateModel.update (fun _ => Err ValueError) (fun _ => Err ValueError) new_state
    (map (fun kx => (fst kx, Many [match snd kx with Some q => VNum q | None => VNan end])) tw_row)).
Definition tw_point : pyval := PList [PFlt (Some 0); PFlt (Some 0); PFlt (Some 0)].
Definition tw_refs : dict pyval :=
  [("gcenter", tw_point); ("rcenter", tw_point); ("area", PFlt (Some 1)); ("span", PFlt (Some 1)); ("chord", PFlt (Some 1))].
Definition tw_world : world := mkWorld tw_aircraft tw_refs new_data.

Lemma tw_settings_ok : settings_ok tw_settings.
Proof. apply check_settings_iff. vm_compute. reflexivity. Qed.
Lemma tw_states : iter_states (fun _ => Err ValueError) tw_state = ([tw_row], Ok tt).
Proof. vm_compute. reflexivity. Qed.
Lemma tw_fresh : fresh tw_aircraft.
Proof.
  intros wn w [E|[E|[]]]; injection E as <- <-;
    (split; [repeat constructor; cbn; intuition discriminate|]; split; [constructor|]; split; [|intros cn c []];
     intros sn s [E|[]]; injection E as <- <-; reflexivity).
Qed.
Lemma tw_counts : counts_set tw_aircraft.
Proof.
  intros wn w [E|[E|[]]]; injection E as <- <-; (split; [|intros cn c []]);
    intros sn s [E|[]]; injection E as <- <-; exists 1%Z; (split; [reflexivity|lia]).
Qed.
Lemma tw_panelling interp dist : pre_panelling interp dist tw_aircraft = (tw_aircraft, Ok tt).
Proof. vm_compute. reflexivity. Qed.


Lemma Q2R0 : Q2R 0 = 0%R. Proof. unfold Q2R. cbn. lra. Qed.
Lemma Q2R1 : Q2R 1 = 1%R. Proof. unfold Q2R. cbn. lra. Qed.
Lemma tw_entry e : sa_type (v_sub (e_visit e)) = ASegment -> e_mirror e = false ->
  v_etas (e_visit e) = mkEtas (Q2R 0) (Q2R 1) (Q2R 1) (Q2R 0) -> v_xsis (e_visit e) = mkXsis (Q2R 0) (Q2R 0) (Q2R 1) (Q2R 1) ->
  entry_vertices tw_geo e = Ok (tw_geo "" "").
Proof.
  intros _ M E X. unfold entry_vertices, subarea_vertices, strip_vertices. rewrite M, E, X. cbn [bind r_eta_a r_eta_b r_eta_c r_eta_d r_xsi_a r_xsi_b r_xsi_c r_xsi_d].
  rewrite !Q2R0, !Q2R1. unfold v_quad, tw_geo. cbn [qa qb qc qd]. do 2 f_equal; apply vec_eq; cbn; ring.
Qed.

Lemma tw_lattice camber alpha beta : let p := make_panel (trail_dir alpha beta) (tw_geo "" "") 1 1 0 0 in
  NormalModel.gen_lattice tw_geo camber false alpha beta tw_aircraft = Ok ([p; p], [pN p; pN p]).
Proof.
  intro p. unfold NormalModel.gen_lattice. destruct (panel_count tw_aircraft) as [st|] eqn:E; [|vm_compute in E; discriminate].
  vm_compute in E. injection E as <-. cbn [bind bk_list c_book entry_rows]. 
  rewrite !tw_entry by reflexivity. cbn [bind e_num_c]. reflexivity.
Qed.

Definition tw_panel : panel := make_panel (trail_dir (Q2R 0) (Q2R 0)) (tw_geo "" "") 1 1 0 0.
Lemma tw_corners : pC tw_panel = mkV 0.75 0.5 0 /\ pV1 tw_panel = mkV 10000.25 0 0 /\ pV2 tw_panel = mkV 0.25 0 0 /\
  pV3 tw_panel = mkV 0.25 1 0 /\ pV4 tw_panel = mkV 10000.25 1 0.
Proof.
  unfold tw_panel, trail_dir, freestream_direction, deg2rad, infty. rewrite Q2R0, Rmult_0_l, cos_0, sin_0. unfold make_panel, panel_of_corners, corner, coord, tw_geo.
  cbn [pC pV1 pV2 pV3 pV4 qa qb qc qd vx vy vz vadd]. repeat split; apply vec_eq; cbn [vx vy vz vadd]; lra.
Qed.
Lemma vec_y u v : u = v -> vy u = vy v. Proof. intros ->. reflexivity. Qed.
Lemma tw_velocity eps : (0 < eps)%R -> exists v, horseshoe eps (pC tw_panel) tw_panel = Some v.
Proof.
  intro E. unfold horseshoe, legs. destruct tw_corners as (-> & -> & -> & -> & ->). cbn [leg_loop].
  rewrite !leg_regular by first [exact E|intro X; apply vec_y in X; cbn [vy] in X; lra]. eauto.
Qed.
Lemma tw_matrix eps : (0 < eps)%R -> exists a, downwash eps (set_normals [tw_panel; tw_panel] [pN tw_panel; pN tw_panel]) = Some [[a; a]; [a; a]].
Proof.
  intro E. destruct (tw_velocity eps E) as [v V]. exists (vdot v (pN tw_panel)).
  assert (S : set_normals [tw_panel; tw_panel] [pN tw_panel; pN tw_panel] = [tw_panel; tw_panel]) by reflexivity. rewrite S.
  unfold downwash. cbn [all_some]. rewrite V. reflexivity.
Qed.

Lemma twin_columns a : ~ regular [[a; a]; [a; a]].
Proof.
  intros [_ H]. assert (Z : (1 = 0)%R); [|lra]. apply (H [1; -1]%R eq_refl); [|left; reflexivity].
  intros row [<-|[<-|[]]]; unfold dot; cbn; lra.
Qed.

Section Run.
Variable interp : string -> string -> Q * Q -> Q * Q -> Q -> res Q.
Variable seg_dist : string -> string -> Q * Q -> Q * Q -> Q.
Variable camber : subarea_visit -> R -> R.
Variable solve : option (list (list R)) -> option (list R) -> option (list R).
Local Notation analyse := (AnalysisModel.analyse interp seg_dist tw_geo camber solve).
Variable base : string.
Variable draw : nat -> string -> res unit.
Variable str_of : pyval -> string.
Variable save_cpacs : world -> dict (list (option R)) -> res world.
Local Notation run s := (RunModel.run (option R) table world base draw str_of (analyse s) save_cpacs).
Local Notation written := (RunSpec.written (option R) table).

Lemma tw_analysis : exists w' o a b1 b2, analyse tw_settings tw_world true tw_row = (w', Ok o) /\
  RunModel.o_matrix o = [[Some a; Some a; Some b1]; [Some a; Some a; Some b2]].
Proof.
  assert (P : (0 < Q2R (1 # 1000000))%R) by (unfold Q2R; cbn; lra).
  destruct (tw_matrix _ P) as [a M].
  unfold AnalysisModel.analyse. cbn [x_aircraft tw_world]. rewrite tw_panelling.
  assert (N : num_panels tw_aircraft = Ok 2%nat) by (vm_compute; reflexivity). cbv zeta. rewrite N. cbn [bind].
  assert (F : exists f, get_state (map (fun kx => (fst kx, PFlt (snd kx))) tw_row) = Got (Some f) /\ f_alpha f = Q2R 0 /\ f_beta f = Q2R 0).
  { eexists. split; [reflexivity|]. split; reflexivity. }
  destruct F as (f & F & A & B). rewrite F. unfold make_lattice. cbn [getitem].
  assert (S1 : dget tw_settings "_epsilon" = Some (PFlt (Some (1 # 1000000)))) by (vm_compute; reflexivity).
  assert (S2 : dget tw_settings "_do_normal_rotations" = Some (PBool false)) by (vm_compute; reflexivity).
  rewrite S1, S2. cbn [bind PyVal.truthy]. rewrite A, B, tw_lattice. cbn [bind fst snd Nat.eqb]. fold tw_panel.
  destruct (get_refs (x_refs tw_world)) as [r|c] eqn:GR; [|vm_compute in GR; discriminate]. destruct r as [r|]; [|vm_compute in GR; discriminate].
  do 2 eexists. exists a. eexists. eexists. split; [reflexivity|]. cbn [RunModel.o_matrix].
  unfold matrix_table, AnalysisModel.steps, calc_results, calc_downwash, calc_boundary, get_epsilon, get_float. rewrite S1.
  change (num_of (Some (1 # 1000000))) with (Some (Q2R (1 # 1000000))).
  cbv beta iota. rewrite M. unfold boundary. cbn [d_matrix d_rhs set_results map set_normals combine fst snd app]. reflexivity.
Qed.

Theorem no_unique_solution : (forall i n, draw i n = Ok tt) -> exists t w' m eqs,
  run tw_settings (fun _ => Err ValueError) false tw_settings tw_state tw_world = (t, Ok w') /\
  has_file (written t) base "000" "matrix.dat" (RunModel.CTable m) /\
  Forall2 (fun row ab => equation row (fst ab) (snd ab)) m eqs /\ ~ regular (map fst eqs).
Proof.
  intro D. destruct tw_analysis as (w1 & o & a & b1 & b2 & A & M).
  destruct (run_single (option R) table world base draw str_of (analyse tw_settings) save_cpacs _ _ _ _ _ _ _ D tw_settings_ok tw_states A) as [t H].
  exists t, w1, (RunModel.o_matrix o), [([a; a], b1); ([a; a], b2)]. split; [exact H|]. split; [|split].
  - destruct (RunProofs.run_files _ _ _ _ _ _ _ _ _ _ _ _ _ _ _ tw_settings_ok H) as (outs & w2 & C & _ & _ & _ & F & _).
    rewrite tw_states in C, F. cbn [fst] in C, F. inversion C as [|i' w0 r' rows' o' outs' w4 w5 A' B']; subst. cbn [Nat.eqb] in A'. rewrite A in A'.
    injection A' as <- <-. inversion B'; subst.
    apply (has_state_file _ _ _ _ _ _ _ _ _ 0%nat _ _ F); [exact (RunProofs.dec3_ok 0)|].
    exists tw_row, o, "matrix_system". split; [reflexivity|]. split; [reflexivity|]. split; [constructor|]. unfold RunSpec.requested.
    eexists. split; [vm_compute; do 2 eexists; [reflexivity|]|]. all: vm_compute; eauto 20.
  - rewrite M. repeat constructor.
  - apply twin_columns.
Qed.
End Run.
