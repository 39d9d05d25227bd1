(** Property theorems: the standard run (C36, C63, C64). *)
From Coq Require Import List String ZArith QArith.
From Verif Require Import PyBase PyVal StateModel StateSpec SettingsModel SettingsSpec SettingsProofs RunModel RunSpec RunProofs.
Import ListNotations.
Open Scope string_scope.

(** C36: a finished run has written exactly the requested files of each state, under different
    names with the index of the state, and the requested map with the results of all states in
    order. *)
Theorem C36_files :
  forall V T world base draw str_of compute save_cpacs parse cpacs s st w t w', settings_ok s ->
  run V T world base draw str_of compute save_cpacs parse cpacs s st w = (t, Ok w') ->
  exists outs w1, let rows := fst (iter_states parse st) in
    computes V T world compute 0 w rows outs w1 /\ rows <> [] /\ snd (iter_states parse st) = Ok tt /\
    NoDup (map fst (written V T t)) /\
    (forall p c, In (p, c) (written V T t) <-> result_file V T base s rows outs p c \/ map_file V T base s st outs p c) /\
    (cpacs = false -> w' = w1) /\ (cpacs = true -> exists r, table V T outs r /\ save_cpacs w1 r = Ok w').
Proof. exact run_files. Qed.
Print Assumptions C36_files.

(** However a run ends: the files of the completed states are there, nothing but these and
    possibly the map has been written, and no file has been written twice. *)
Theorem C36_abort :
  forall V T world base draw str_of compute save_cpacs parse cpacs s st w t res, settings_ok s ->
  run V T world base draw str_of compute save_cpacs parse cpacs s st w = (t, res) ->
  exists done rest outs w1, fst (iter_states parse st) = (done ++ rest)%list /\ computes V T world compute 0 w done outs w1 /\
    NoDup (map fst (written V T t)) /\
    (forall p c, result_file V T base s done outs p c -> In (p, c) (written V T t)) /\
    (forall p c, In (p, c) (written V T t) -> result_file V T base s done outs p c \/ (rest = [] /\ map_file V T base s st outs p c)).
Proof.
  intros V T world base draw str_of compute save_cpacs parse cpacs s st w t res S R.
  destruct (run_any V T world base draw str_of compute save_cpacs parse cpacs s st w t res S R) as (a & b & c & d & H1 & H2 & H3 & H4 & H5 & _).
  exists a, b, c, d. auto.
Qed.
Print Assumptions C36_abort.

(** The indices of different states are different numerals. *)
Theorem C36_numerals :
  (forall i, exists d, three_digits d i) /\
  (forall d d' i, three_digits d i -> three_digits d' i -> d = d') /\
  (forall d i j, three_digits d i -> three_digits d j -> i = j).
Proof.
  split; [intro i; exists (dec3 i); exact (dec3_ok i)|]. split; [exact three_digits_unique|intros d i j [A _] [B _]; congruence].
Qed.
Print Assumptions C36_numerals.

Definition ex_plot (o : list pyval) (show save : bool) : pyval := PDict [("opt", PList o); ("show", PBool show); ("save", PBool save)].
Definition ex_settings : dict pyval :=
  fst (fst (update new_settings
   [("aircraft", PStr "ac.json"); ("state", PStr "st.json");
    ("plot", PDict [("geometry", ex_plot [] false true); ("lattice", ex_plot [] false false);
                    ("matrix_downwash", ex_plot [] true false); ("results", ex_plot [] false true)]);
    ("save_results", PDict [("global", PBool true); ("panelwise", PBool true); ("matrix_system", PBool false); ("aeroperformance", PBool true)])])).
Definition ex_states (l : list Q) : dict entry :=
  map (fun p => (p, Many (map VNum l))) [AIRSPEED; DENSITY; ALPHA; BETA; RATE_P; RATE_Q; RATE_R].
Definition ex_run (l : list Q) :=
  run num unit nat "wing" (fun _ _ => Ok tt) (fun o => match o with PStr x => x | _ => "" end)
    (fun w _ aero => (S w, Ok (mkOut (fun _ => match dget aero ALPHA with Some x => x | None => None end) (fun k => Some (Z.of_nat w # 1)) tt tt)))
    (fun w _ => Ok w) (fun _ => Err ValueError) false ex_settings
    (fst (StateModel.update (fun _ => Err ValueError) (fun _ => Err ValueError) new_state (ex_states l))) O.
Lemma ex_settings_ok : settings_ok ex_settings.
Proof. apply check_settings_iff. vm_compute. reflexivity. Qed.
Example C36_example :
  settings_ok ex_settings /\ exists t w', ex_run [1; 2] = (t, Ok w') /\
  map fst (written num unit t) = ["_results/wing_000/global.json"; "_results/wing_000/panelwise.dat";
    "_results/wing_001/global.json"; "_results/wing_001/panelwise.dat"; "_results/wing_aeroperformance.json"].
Proof. split; [exact ex_settings_ok|]. do 2 eexists. split; [vm_compute; reflexivity|]. reflexivity. Qed.

(** C63: a run with accepted settings, at least one state and working numerics comes to its end. *)
Theorem C63_finishes :
  forall V T world base draw str_of compute save_cpacs,
  (forall i n, draw i n = Ok tt) -> (forall w b a, exists w' o, compute w b a = (w', Ok o)) ->
  forall parse cpacs s st w, settings_ok s -> (cpacs = true -> forall w r, exists w', save_cpacs w r = Ok w') ->
  snd (iter_states parse st) = Ok tt -> fst (iter_states parse st) <> [] ->
  exists t w', run V T world base draw str_of compute save_cpacs parse cpacs s st w = (t, Ok w').
Proof. exact run_total. Qed.
Print Assumptions C63_finishes.

(** An accepted state with empty lists makes every run fail. *)
Theorem C63_empty_refuted :
  exists d st, (forall parse atmosphere, StateModel.update parse atmosphere new_state d = (st, Ok tt)) /\
  forall V T world base draw str_of compute save_cpacs parse s w, settings_ok s ->
    exists t, run V T world base draw str_of compute save_cpacs parse false s st w = (t, Err UnboundLocalError).
Proof.
  exists (ex_states []). eexists. split; [intros; vm_compute; reflexivity|].
  intros V T world base draw str_of compute save_cpacs parse s w S.
  apply (run_empty V T world base draw str_of compute save_cpacs parse s _ w S). reflexivity.
Qed.
Print Assumptions C63_empty_refuted.
Example C63_example :
  settings_ok ex_settings /\
  let st := fst (StateModel.update (fun _ => Err ValueError) (fun _ => Err ValueError) new_state (ex_states [1; 2])) in
  snd (iter_states (fun _ => Err ValueError) st) = Ok tt /\ List.length (fst (iter_states (fun _ => Err ValueError) st)) = 2%nat.
Proof. split; [exact ex_settings_ok|]. vm_compute. auto. Qed.

(** C64: a finished run has saved exactly the figures of the plots to be saved and displayed
    exactly those to be shown, for every state. *)
Theorem C64_figures :
  forall V T world base draw str_of compute save_cpacs parse cpacs s st w t w', settings_ok s ->
  run V T world base draw str_of compute save_cpacs parse cpacs s st w = (t, Ok w') ->
  (forall i name, In (EPlot i name) t <->
     (i < List.length (fst (iter_states parse st)))%nat /\ exists plot, figure str_of s plot name /\ plot_flag s plot "save") /\
  (forall i, In (EShow i) t <->
     (i < List.length (fst (iter_states parse st)))%nat /\ exists plot name, figure str_of s plot name /\ plot_flag s plot "show").
Proof. exact run_figures. Qed.
Print Assumptions C64_figures.
(** ... and everything to be saved or shown has been drawn without an error. *)
Theorem C64_drawn :
  forall V T world base draw str_of compute save_cpacs parse cpacs s st w t w', settings_ok s ->
  run V T world base draw str_of compute save_cpacs parse cpacs s st w = (t, Ok w') ->
  forall i plot label, (i < List.length (fst (iter_states parse st)))%nat -> drawing str_of s plot label ->
    plot_flag s plot "save" \/ plot_flag s plot "show" -> draw i label = Ok tt.
Proof. exact run_drawn. Qed.
Print Assumptions C64_drawn.
Example C64_example :
  settings_ok ex_settings /\ exists t w', ex_run [1; 2] = (t, Ok w') /\
  flat_map (fun e => match e with EPlot 1 n => [n] | EShow 1 => ["show"] | _ => [] end) t =
    ["show"; "geometry3D"; "geometry2D"; "results_cp3D"; "results_cp2D"].
Proof. split; [exact ex_settings_ok|]. do 2 eexists. split; [vm_compute; reflexivity|]. reflexivity. Qed.
