(** Property theorems: missing input files (C115). *)
From Coq Require Import List String Ascii ZArith QArith.
From Verif Require Import PyBase PyVal AircraftIOModel RunSpec StartModel StartSpec StartPaths StartProofs StartMissing StartExample.
From Verif Require SettingsSpec.
Import List ListNotations.
Open Scope string_scope.

(** C115: without the settings file nothing is changed; without the aircraft file no result is
    written; both are reported as missing files. *)
Theorem C115_missing :
  forall E fs p,
  (fs p = None -> standard_run E fs p = (fs, ([], Err FileNotFoundError))) /\ (fs p = Some NDir -> standard_run E fs p = (fs, ([], Err IOError))) /\
  (forall root name base a, decodes E -> project_of p root name -> base_of name base -> clear E fs root base -> accepted E fs p ->
     aircraft_file E fs p root a -> (forall c, fs a <> Some (NFile c)) ->
     (is_json a -> snd (standard_run E fs p) = ([], Err IOError)) /\ (is_xml a -> snd (standard_run E fs p) = ([], Err FileNotFoundError))).
Proof.
  intros E fs p. exact (conj (proj1 (no_settings E fs p)) (conj (proj2 (no_settings E fs p)) (fun root name base a => no_aircraft E fs p root name base a))).
Qed.
Print Assumptions C115_missing.

(** Without the flight state or a requested deformation no result is written either, and once the
    files read before are accepted, the missing file is what is reported. *)
Theorem C115_missing_state :
  forall E fs p root name base s, decodes E -> real p -> project_of p root name -> base_of name base ->
  gives E fs p "state" (PStr s) -> ~ same_text s "__CPACS" -> missing E fs root (resolve (root ++ ["state"])%list s) ->
  exists e, snd (standard_run E fs p) = ([], Err e) /\ (forall so fs2 a, aircraft_loaded E fs p so fs2 (Ok a) -> e = IOError).
Proof. exact no_state. Qed.
Print Assumptions C115_missing_state.

Theorem C115_missing_deformation :
  forall E fs p root name base v, decodes E -> real p -> project_of p root name -> base_of name base ->
  gives E fs p "deformation" v -> ~ SettingsSpec.empty v -> missing E fs root (resolve (root ++ ["deformation"])%list (fstr E v)) ->
  exists e, snd (standard_run E fs p) = ([], Err e) /\
    (forall so fs2 a st, aircraft_loaded E fs p so fs2 (Ok a) -> load_state E fs2 so = Ok st -> e = IOError).
Proof. exact no_deformation. Qed.
Print Assumptions C115_missing_deformation.

(** The example project without its state file, and one without its aircraft. *)
Definition ex_without (q : path) : path -> option (node ex_content) := fun p => if path_eqb p q then None else ex_fs p.
Definition ex_state_file : path := (ex_root ++ ["state"; "level.json"])%list.
Definition ex_no_state := ex_without ex_state_file.
Example C115_example :
  snd (standard_run ex_E ex_no_state (ex_p "cruise.json")) = ([], Err IOError) /\
  (exists so fs2 a, aircraft_loaded ex_E ex_no_state (ex_p "cruise.json") so fs2 (Ok a)) /\
  gives ex_E ex_no_state (ex_p "cruise.json") "state" (PStr "level.json") /\
  missing ex_E ex_no_state ex_root (resolve (ex_root ++ ["state"])%list "level.json") /\
  snd (standard_run ex_E (ex_without (ex_root ++ ["aircraft"; "ac.json"])%list) (ex_p "cruise.json")) = ([], Err IOError) /\
  snd (standard_run ex_E (ex_without (ex_root ++ ["aircraft"; "ac.xml"])%list) (ex_p "tool.json")) = ([], Err FileNotFoundError) /\
  snd (standard_run ex_E ex_fs (ex_p "none.json")) = ([], Err FileNotFoundError).
Proof.
  split; [vm_compute; reflexivity|]. split.
  { unfold aircraft_loaded. destruct (load_settings ex_E ex_no_state (ex_p "cruise.json")) as [fs1 r] eqn:L.
    assert (R : exists so, r = Ok so) by (replace r with (snd (load_settings ex_E ex_no_state (ex_p "cruise.json"))) by (rewrite L; reflexivity); eexists; vm_compute; reflexivity).
    destruct R as [so ->]. destruct (load_aircraft ex_E (put ex_E fs1 (f_log so) (NFile (log_text ex_E))) so) as [fs2 ra] eqn:A.
    assert (R : exists a, ra = Ok a).
    { assert (X : match snd (load_aircraft ex_E (put ex_E (fst (load_settings ex_E ex_no_state (ex_p "cruise.json")))
         (f_log (match snd (load_settings ex_E ex_no_state (ex_p "cruise.json")) with Ok so => so | Err _ => so end)) (NFile (log_text ex_E)))
         (match snd (load_settings ex_E ex_no_state (ex_p "cruise.json")) with Ok so => so | Err _ => so end)) with Ok _ => true | Err _ => false end = true) by (vm_compute; reflexivity).
      rewrite L in X. cbn [fst snd] in X. rewrite A in X. destruct ra as [a|]; [eauto|discriminate]. }
    destruct R as [a ->]. exists so, fs2, a, fs1. auto. }
  split; [do 2 eexists; split; [reflexivity|]; split; [reflexivity|]; reflexivity|].
  split; [split; [intro c; vm_compute; discriminate|]; split; [vm_compute; discriminate|intros (n & H); vm_compute in H; discriminate]|].
  split; [vm_compute; reflexivity|]. split; vm_compute; reflexivity.
Qed.
