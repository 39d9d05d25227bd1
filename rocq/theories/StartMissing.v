(** Proofs for C115: missing input files. *)
From Coq Require Import List String Ascii ZArith QArith Bool Lia.
From Verif Require Import PyBase PyVal AircraftIOModel AircraftIOSpec AircraftIOProofs CpacsAircraftModel RunSpec StartModel StartSpec StartPaths StartProofs StartMore.
From Verif Require StrFacts CliModel StateModel RunModel SettingsModel SettingsSpec SettingsProofs.
Import List ListNotations.
Open Scope string_scope.

Section Missing.
Variable E : env.
Notation fsys := (fsys E).

Lemma log_not_aircraft so a : is_xml a \/ is_json a -> a <> f_log so.
Proof.
  intros T ->. assert (NL : ~ is_xml (f_log so) /\ ~ is_json (f_log so)) by (rewrite xml_iff, json_iff; unfold f_log; rewrite name_last; split; discriminate). tauto.
Qed.

Theorem no_settings (fs : fsys) p : (fs p = None -> standard_run E fs p = (fs, ([], Err FileNotFoundError))) /\
  (fs p = Some NDir -> standard_run E fs p = (fs, ([], Err IOError))).
Proof. split; intro F; unfold standard_run, load_settings, read_settings; rewrite F; reflexivity. Qed.

Theorem no_aircraft fs p root name base a : decodes E -> project_of p root name -> base_of name base -> clear E fs root base -> accepted E fs p ->
  aircraft_file E fs p root a -> (forall c, fs a <> Some (NFile c)) ->
  (is_json a -> snd (standard_run E fs p) = ([], Err IOError)) /\ (is_xml a -> snd (standard_run E fs p) = ([], Err FileNotFoundError)).
Proof.
  intros J P B K AC AF N. assert (G : is_xml a \/ is_json a -> exists so fs1, load_settings E fs p = (fs1, Ok so) /\ f_aircraft E so = a /\
    (so_cpacs so = true <-> is_xml a) /\ (so_cpacs so = false <-> is_json a) /\ forall c, put E fs1 (f_log so) (NFile (log_text E)) a <> Some (NFile c)).
  { intro T. destruct (accepted_cases E _ _ _ _ _ P B AC) as [(so & RS)|[_ X]]; [|destruct (X a J AF); tauto].
    destruct (aircraft_named E _ _ _ _ _ _ J P B RS) as (A1 & A2 & A3). assert (Y := aircraft_unique E _ _ _ _ _ A1 AF).
    destruct (read_settings_ok E _ _ _ _ _ _ P B RS) as (RT & BS & _). rewrite <- RT, <- BS in K.
    destruct (load_settings_clear E _ _ _ RS K) as (fs1 & L & D). exists so, fs1. rewrite Y in *. repeat (split; [assumption||reflexivity|]).
    intro c. rewrite put_other by (apply log_not_aircraft; exact T).
    destruct (load_settings_cases E _ _ _ _ L) as [(e & _ & X & _)|(so' & _ & _ & Q)]; [discriminate|].
    destruct (Q a) as [X|(_ & X & _)]; rewrite X; [apply N|discriminate]. }
  split; intro X; (destruct G as (so & fs1 & L & Y & A2 & A3 & F); [tauto|]); unfold standard_run; rewrite L; unfold load_project, load_aircraft; cbv zeta.
  - rewrite (proj2 A3 X). unfold load_native. rewrite Y. destruct (put E fs1 (f_log so) (NFile (log_text E)) a) as [[|c]|]; [reflexivity|destruct (F c eq_refl)|reflexivity].
  - rewrite (proj2 A2 X). unfold load_cpacs. cbv zeta. rewrite Y. destruct (put E fs1 (f_log so) (NFile (log_text E)) a) as [[|c]|]; [reflexivity|destruct (F c eq_refl)|reflexivity].
Qed.

Lemma still_missing fs p root name base so fs2 r q : decodes E -> real p -> project_of p root name -> base_of name base ->
  aircraft_loaded E fs p so fs2 r -> missing E fs root q -> forall c, fs2 q <> Some (NFile c).
Proof.
  intros J RP P B (fs1 & L & A) (N & NL & NA) c.
  destruct (load_settings_cases E _ _ _ _ L) as [(e & _ & X & _)|(so' & RS & C & Q)]; [discriminate|].
  assert (so' = so) by (destruct C as [C|[e C]]; congruence). subst so'.
  destruct (read_settings_ok E _ _ _ _ _ _ P B RS) as (RT & _). destruct (project_real _ _ _ P RP) as [RR _]. subst root.
  destruct (load_aircraft_frame E (fun _ => False) (airfoil_place (so_root so)) _ _ _ _ RR (fun _ q H => H) A q) as [X|[(_ & _ & [])|X]]; [|contradiction].
  rewrite X, put_other by exact NL. destruct (Q q) as [Y|(_ & Y & _)]; rewrite Y; [apply N|discriminate].
Qed.

Theorem no_state fs p root name base s : decodes E -> real p -> project_of p root name -> base_of name base ->
  gives E fs p "state" (PStr s) -> ~ same_text s "__CPACS" -> missing E fs root (resolve (root ++ ["state"])%list s) ->
  exists e, snd (standard_run E fs p) = ([], Err e) /\
    (forall so fs2 a, aircraft_loaded E fs p so fs2 (Ok a) -> e = IOError).
Proof.
  intros J RP P B G NC M. unfold standard_run. destruct (load_settings E fs p) as [fs1 rs] eqn:L.
  destruct (load_settings_cases E _ _ _ _ L) as [(e & RS & -> & ->)|(so & RS & [->|(e & ->)] & D)].
  1,3: exists e; split; [reflexivity|]; intros so' fs2 a (f & L' & _); congruence.
  unfold load_project. cbv zeta. destruct (load_aircraft E _ so) as [fs2 [ac|e]] eqn:LA.
  2:{ exists e. split; [reflexivity|]. intros so' f2 a (f & L' & A). rewrite L in L'. injection L' as <- <-. rewrite LA in A. discriminate. }
  cbn [bind]. assert (S : load_state E fs2 so = Err IOError).
  { unfold load_state, state_is_cpacs. destruct (read_gives E _ _ _ "state" J RS) as [(v & G' & Y)|[Y _]]; [discriminate| |exfalso; eauto].
    assert (T : setting (so_dict so) "state" = PStr s) by (rewrite Y; symmetry; exact (gives_unique E _ _ _ _ _ G G')). rewrite T.
    destruct (String.eqb_spec (upper s) "__CPACS") as [U|U]; [exfalso; apply NC, text_upper; exact U|]. cbn [bind].
    assert (X := still_missing fs p root name base so fs2 (Ok ac) _ J RP P B (ex_intro _ fs1 (conj L LA)) M).
    destruct (read_settings_ok E _ _ _ _ _ _ P B RS) as (RT & _). unfold f_state. rewrite T, RT. cbn [fstr].
    destruct (fs2 (resolve (root ++ ["state"])%list s)) as [[|c]|]; [reflexivity|destruct (X c eq_refl)|reflexivity]. }
  rewrite S. cbn [bind]. exists IOError. split; reflexivity.
Qed.

Theorem no_deformation fs p root name base v : decodes E -> real p -> project_of p root name -> base_of name base ->
  gives E fs p "deformation" v -> ~ SettingsSpec.empty v -> missing E fs root (resolve (root ++ ["deformation"])%list (fstr E v)) ->
  exists e, snd (standard_run E fs p) = ([], Err e) /\
    (forall so fs2 a st, aircraft_loaded E fs p so fs2 (Ok a) -> load_state E fs2 so = Ok st -> e = IOError).
Proof.
  intros J RP P B G NC M. unfold standard_run. destruct (load_settings E fs p) as [fs1 rs] eqn:L.
  destruct (load_settings_cases E _ _ _ _ L) as [(e & RS & -> & ->)|(so & RS & [->|(e & ->)] & D)].
  1,3: exists e; split; [reflexivity|]; intros so' fs2 a st (f & L' & _); congruence.
  unfold load_project. cbv zeta. destruct (load_aircraft E _ so) as [fs2 [ac|e]] eqn:LA.
  2:{ exists e. split; [reflexivity|]. intros so' f2 a st (f & L' & A). rewrite L in L'. injection L' as <- <-. rewrite LA in A. discriminate. }
  cbn [bind]. destruct (load_state E fs2 so) as [st|e] eqn:LS.
  2:{ exists e. split; [reflexivity|]. intros so' f2 a st (f & L' & A) LS'. rewrite L in L'. injection L' as <- <-. rewrite LA in A. injection A as <- <-. congruence. }
  cbn [bind]. assert (S : load_deformation E fs2 so = Err IOError).
  { unfold load_deformation. destruct (read_gives E _ _ _ "deformation" J RS) as [(v' & G' & Y)|[Y _]]; [discriminate| |exfalso; eauto].
    assert (T : setting (so_dict so) "deformation" = v) by (rewrite Y; symmetry; exact (gives_unique E _ _ _ _ _ G G')). rewrite T.
    rewrite (proj2 (SettingsProofs.truthy_not v) NC).
    assert (X := still_missing fs p root name base so fs2 (Ok ac) _ J RP P B (ex_intro _ fs1 (conj L LA)) M).
    destruct (read_settings_ok E _ _ _ _ _ _ P B RS) as (RT & _). unfold f_deformation. rewrite T, RT.
    destruct (fs2 (resolve (root ++ ["deformation"])%list (fstr E v))) as [[|c]|]; [reflexivity|destruct (X c eq_refl)|reflexivity]. }
  rewrite S. cbn [bind]. exists IOError. split; reflexivity.
Qed.
End Missing.
