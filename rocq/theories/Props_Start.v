(** Property theorems: a run on a file system (C90-C97). *)
From Coq Require Import List String Ascii ZArith QArith.
From Verif Require Import PyBase PyVal AircraftIOModel AircraftIOSpec RunSpec StartModel StartSpec StartProofs StartInputs StartMore StartExample.
Import List ListNotations.
Open Scope string_scope.

(** C90: outcome, files and figures of a run depend only on the settings file and the files that
    it names. *)
Theorem C90_inputs :
  forall E fs1 fs2 p root name base, decodes E -> real p -> project_of p root name -> base_of name base ->
  clear E fs1 root base -> clear E fs2 root base ->
  (forall q, input E fs1 p root q -> fs1 q = fs2 q \/ (start_dir root base q /\ q <> p)) ->
  snd (standard_run E fs1 p) = snd (standard_run E fs2 p).
Proof. exact run_inputs. Qed.
Print Assumptions C90_inputs.

(** Old results, other aircraft and an unrelated file with the name of an airfoil. *)
Definition ex_fs2 : path -> option (node ex_content) :=
  ex_files ([ex_dir (ex_root ++ ["_results"]); ex_dir (ex_root ++ ["_results"; "cruise_000"]);
             ex_file (ex_root ++ ["_results"; "cruise_000"; "global.json"]) (Text "old");
             ex_file (ex_root ++ ["aircraft"; "ac.xml"]) (Text "other"); ex_file ["tmp"; "NACA0012"] (Text "shape")] ++ ex_list)%list.
Example ex_same (q : path) : input ex_E ex_fs (ex_p "cruise.json") ex_root q -> ex_fs q = ex_fs2 q.
Proof. intro H. apply ex_input in H. repeat (destruct H as [<-|H]; [reflexivity|]). destruct H. Qed.
Example C90_example :
  snd (standard_run ex_E ex_fs (ex_p "cruise.json")) = snd (standard_run ex_E ex_fs2 (ex_p "cruise.json")) /\
  snd (snd (standard_run ex_E ex_fs (ex_p "cruise.json"))) = Ok [[(Ok (FromFile (Text "points")), Ok (Naca "0012"))]].
Proof.
  split; [|vm_compute; reflexivity]. apply (C90_inputs ex_E ex_fs ex_fs2 _ ex_root "cruise.json" "cruise").
  - apply ex_decodes.
  - apply real_check. reflexivity.
  - exact (po_settings ex_root "cruise.json").
  - exact ex_base.
  - apply ex_clear. vm_compute. reflexivity.
  - apply ex_clear. vm_compute. reflexivity.
  - intros q H. left. exact (ex_same q H).
Qed.

(** C91: a name in the folder of airfoils means that file of the project, wherever the program was
    started; 'NACA' and digits mean a NACA airfoil unless there is a file of this name in the
    directory where the program was started; another name means a file seen from there, or is
    refused. *)
Theorem C91_airfoils :
  forall E fs,
  (forall root n t, real root -> plain n -> load_airfoil (render root) (PStr ("airfoils/" ++ n)) = Ok (PStr t) ->
   airfoil_source E fs t = match fs (root ++ ["airfoils"; n])%list with Some (NFile c) => Ok (FromFile c) | _ => Err ValueError end) /\
  (forall root n d i, same_text n ("NACA" ++ d) -> reading 0 d = Some i -> (forall c, fs (resolve (cwd E) n) <> Some (NFile c)) ->
   load_airfoil root (PStr n) = Ok (PStr n) /\ airfoil_source E fs n = Ok (Naca d)) /\
  (forall n, (forall c, fs (resolve (cwd E) n) <> Some (NFile c)) -> (forall a b, n = a ++ b -> ~ same_text a "NACA") ->
   airfoil_source E fs n = Err ValueError) /\
  (forall n c, fs (resolve (cwd E) n) = Some (NFile c) -> airfoil_source E fs n = Ok (FromFile c)).
Proof. intros E fs. exact (conj (project_airfoil E fs) (conj (naca_airfoil E fs) (conj (other_airfoil E fs) (file_airfoil E fs)))). Qed.
Print Assumptions C91_airfoils.

(** The same settings and aircraft mean other airfoils if the program is started elsewhere. *)
Theorem C91_directory_refuted :
  exists dir dir' w w', snd (snd (standard_run (ex_env dir) ex_fs2 (ex_p "cruise.json"))) = Ok w /\
    snd (snd (standard_run (ex_env dir') ex_fs2 (ex_p "cruise.json"))) = Ok w' /\ (w : profile_table ex_content) <> w'.
Proof. exists ["home"], ["tmp"]. do 2 eexists. split; [vm_compute; reflexivity|]. split; [vm_compute; reflexivity|]. discriminate. Qed.
Print Assumptions C91_directory_refuted.

Example C91_example :
  load_airfoil (render ex_root) (PStr "airfoils/blade.root") = Ok (PStr "/home/u/proj/airfoils/blade.root") /\
  airfoil_source (ex_env ["tmp"]) ex_fs2 "/home/u/proj/airfoils/blade.root" = Ok (FromFile (Text "points")) /\
  airfoil_source ex_E ex_fs2 "naca0012" = Ok (Naca "0012") /\
  airfoil_source (ex_env ["tmp"]) ex_fs2 "NACA0012" = Ok (FromFile (Text "shape")) /\
  airfoil_source ex_E ex_fs2 "Clark-Y" = Err ValueError.
Proof. vm_compute. repeat split. Qed.

(** C92: the extension of the aircraft file, in upper or lower case, decides how it is read. Any
    other extension ends the run before anything is changed, and CPACS states need a CPACS
    aircraft. *)
Theorem C92_formats :
  forall E fs p root name base a, decodes E -> project_of p root name -> base_of name base -> aircraft_file E fs p root a ->
  (accepted E fs p -> ~ is_xml a -> ~ is_json a -> standard_run E fs p = (fs, ([], Err ValueError))) /\
  (clear E fs root base -> accepted E fs p -> is_xml a -> forall c e, fs a = Some (NFile c) -> cpacs_doc E c = Err e -> snd (standard_run E fs p) = ([], Err e)) /\
  (clear E fs root base -> accepted E fs p -> is_json a -> forall c e, fs a = Some (NFile c) -> json E c = Err e -> snd (standard_run E fs p) = ([], Err e)) /\
  (is_json a -> wants_cpacs E fs p -> exists e, snd (standard_run E fs p) = ([], Err e)).
Proof.
  intros E fs p root name base a J P B A.
  exact (conj (fun AC NX NJ => unknown_format E fs p root name base a J P B AC A NX NJ)
    (conj (fun K AC X c e F D => xml_reader E fs p root name base a c e J P B K AC A X F D)
    (conj (fun K AC X c e F D => json_reader E fs p root name base a c e J P B K AC A X F D)
      (fun X W => cpacs_state_json E fs p root name base a J P B A X W)))).
Qed.
Print Assumptions C92_formats.
Example C92_example :
  accepted ex_E ex_fs (ex_p "odd.json") /\ aircraft_file ex_E ex_fs (ex_p "odd.json") ex_root (ex_root ++ ["aircraft"; "ac.stl"])%list /\
  snd (standard_run ex_E ex_fs (ex_p "odd.json")) = ([], Err ValueError) /\
  is_xml (ex_root ++ ["aircraft"; "AC.Xml"])%list /\ is_json (ex_root ++ ["aircraft"; "ac.v2.JSON"])%list /\
  ~ is_xml (ex_root ++ ["aircraft"; "ac.stl"])%list /\ ~ is_json (ex_root ++ ["aircraft"; "ac.stl"])%list.
Proof.
  split; [do 4 eexists; split; [reflexivity|]; split; [reflexivity|]; vm_compute; reflexivity|].
  split; [exists "ac.stl"; split; [do 2 eexists; split; [reflexivity|]; split; [reflexivity|]; reflexivity|reflexivity]|].
  split; [vm_compute; reflexivity|]. rewrite !xml_iff, !json_iff. repeat split; discriminate.
Qed.

(** C93: a second run gives the same outcome, files and figures, unless the run replaces its own
    input. *)
Theorem C93_repeat :
  forall E fs p root name base fs' t r, decodes E -> real p -> project_of p root name -> base_of name base -> clear E fs root base ->
  standard_run E fs p = (fs', (t, r)) ->
  (forall q, input E fs p root q -> ~ result_place root q /\ q <> (root ++ ["log.txt"])%list) ->
  (forall a, aircraft_file E fs p root a -> is_xml a -> ~ wants_cpacs E fs p /\ forall q, input E fs p root q -> ~ airfoil_place root q) ->
  snd (standard_run E fs' p) = (t, r).
Proof. exact run_again. Qed.
Print Assumptions C93_repeat.
Example C93_example :
  let '(fs', (t, r)) := standard_run ex_E ex_fs (ex_p "cruise.json") in
  snd (standard_run ex_E fs' (ex_p "cruise.json")) = (t, r) /\ length (written _ _ t) = 3%nat.
Proof.
  destruct (standard_run ex_E ex_fs (ex_p "cruise.json")) as [fs' [t r]] eqn:H. split.
  - apply (C93_repeat ex_E ex_fs _ ex_root "cruise.json" "cruise" fs' t r); [apply ex_decodes|apply real_check; reflexivity|exact (po_settings ex_root "cruise.json")|exact ex_base|apply ex_clear; vm_compute; reflexivity|exact H| |].
    + intros q I. apply ex_input in I. repeat (destruct I as [<-|I]; [split; [intros [(x & X)|(x & X)]; discriminate X|discriminate]|]). destruct I.
    + intros a (s & G & ->) X. exfalso. apply (ex_gives _ "cruise.json" _ _ _ _ eq_refl eq_refl) in G. vm_compute in G. injection G as <-. apply xml_iff in X. discriminate X.
  - assert (L : length (written _ _ (fst (snd (standard_run ex_E ex_fs (ex_p "cruise.json"))))) = 3%nat) by (vm_compute; reflexivity). rewrite H in L. exact L.
Qed.

(** C94: settings with different names (without extension) in one project keep their results and
    figures apart: the run of one changes nothing of the other but the common log file. *)
Theorem C94_apart :
  forall E fs p root name base base' fs' t r, decodes E -> real p -> project_of p root name -> base_of name base ->
  standard_run E fs p = (fs', (t, r)) -> base <> base' ->
  forall q, output root base' q -> q <> (root ++ ["log.txt"])%list ->
  ~ output root base q /\
  (fs' q = fs q \/ (fs q = None /\ fs' q = Some NDir) \/ exists a, aircraft_file E fs p root a /\ is_xml a /\ q = a).
Proof.
  intros E fs p root name base base' fs' t r J R P B H N q O L.
  split; [intro X; exact (L (outputs_apart _ _ _ _ N X O))|exact (run_apart E fs p root name base base' fs' t r J R P B H N q O L)].
Qed.
Print Assumptions C94_apart.
Example C94_example :
  let fs1 := fst (standard_run ex_E ex_fs (ex_p "cruise.json")) in
  let fs2 := fst (standard_run ex_E fs1 (ex_p "fast.json")) in
  let q := (ex_root ++ ["_results"; "cruise_001"; "global.json"])%list in
  output ex_root "cruise" q /\ (exists c, fs1 q = Some (NFile (Res c))) /\ fs2 q = fs1 q /\
  exists c, fs2 (ex_root ++ ["_results"; "fast_001"; "global.json"])%list = Some (NFile (Res c)).
Proof.
  cbv zeta. split; [exact (out_state ex_root "cruise" "_results" "001" 1 "global.json" (or_introl eq_refl) ltac:(split; [reflexivity|cbn; auto]))|].
  split; [eexists; vm_compute; reflexivity|]. split; [vm_compute; reflexivity|]. eexists; vm_compute; reflexivity.
Qed.
(** Two settings files of one project may have the same results. *)
Theorem C94_two_files_refuted :
  exists E fs p p' root name q c c', p <> p' /\ project_of p root name /\ project_of p' root name /\
    let '(fs1, (t, r)) := standard_run E fs p in let '(fs2, (t', r')) := standard_run E fs1 p' in
    (exists w, r = Ok w) /\ (exists w, r' = Ok w) /\ fs1 q = Some (NFile c) /\ fs2 q = Some (NFile c') /\ c <> c'.
Proof.
  exists ex_E, ex_fs, (ex_p "cruise.json"), (ex_root ++ ["cruise.json"])%list, ex_root, "cruise.json", (ex_root ++ ["_results"; "cruise_000"; "global.json"])%list.
  do 2 eexists. split; [discriminate|]. split; [exact (po_settings ex_root "cruise.json")|].
  split; [apply po_beside; intros [|? [|? [|? [|? ?]]]] H; discriminate H|].
  destruct (standard_run ex_E ex_fs (ex_p "cruise.json")) as [fs1 [t r]] eqn:H1.
  destruct (standard_run ex_E fs1 (ex_root ++ ["cruise.json"])%list) as [fs2 [t' r']] eqn:H2.
  replace fs1 with (fst (standard_run ex_E ex_fs (ex_p "cruise.json"))) in * by (rewrite H1; reflexivity).
  apply (f_equal (fun x => snd (snd x))) in H1. cbn [snd] in H1. rewrite <- H1.
  replace fs2 with (fst (standard_run ex_E (fst (standard_run ex_E ex_fs (ex_p "cruise.json"))) (ex_root ++ ["cruise.json"])%list)) by (rewrite H2; reflexivity).
  apply (f_equal (fun x => snd (snd x))) in H2. cbn [snd] in H2. rewrite <- H2. clear.
  split; [eexists; vm_compute; reflexivity|]. split; [eexists; vm_compute; reflexivity|]. split; [vm_compute; reflexivity|]. split; [vm_compute; reflexivity|]. discriminate.
Qed.
Print Assumptions C94_two_files_refuted.

(** C95: settings that have been read are saved to the file from which they were read exactly if
    it is in the folder for settings and has the extension 'json'. *)
Theorem C95_saved :
  forall E fs p so root name, project_of p root name -> read_settings E fs p = Ok so ->
  (f_settings so = p <-> exists d b, p = (d ++ ["settings"; (b ++ ".json")%string])%list /\ ~ only_dots b).
Proof. exact saved_at. Qed.
Print Assumptions C95_saved.
Example C95_example : exists so, read_settings ex_E ex_fs (ex_p "cruise.json") = Ok so /\ f_settings so = ex_p "cruise.json".
Proof. eexists. split; vm_compute; reflexivity. Qed.
(** Otherwise they may replace other settings. *)
Theorem C95_replaced_refuted :
  exists E fs p so c c', read_settings E fs p = Ok so /\ fs p = Some (NFile c) /\ f_settings so <> p /\ fs (f_settings so) = Some (NFile c') /\ c <> c'.
Proof.
  exists ex_E, ex_fs, (ex_root ++ ["cruise.json"])%list. do 3 eexists. split; [vm_compute; reflexivity|]. split; [vm_compute; reflexivity|].
  split; [discriminate|]. split; [vm_compute; reflexivity|]. discriminate.
Qed.
Print Assumptions C95_replaced_refuted.

(** C96: cleaning removes the results and figures of all settings of the project and nothing else;
    it may make the directories of the project. A later run gives the same as without cleaning. *)
Theorem C96_clean :
  forall E fs p root name base fs' r, project_of p root name -> base_of name base -> clean_project E fs p = (fs', r) ->
  (r = Ok tt -> forall q, result_place root q -> fs' q = None) /\
  (forall q, fs' q = fs q \/ (fs q = None /\ fs' q = Some NDir /\ start_dir root base q) \/ (r = Ok tt /\ result_place root q)).
Proof. exact clean_thm. Qed.
Print Assumptions C96_clean.
Theorem C96_run :
  forall E fs p root name base fs', decodes E -> real p -> project_of p root name -> base_of name base -> clear E fs root base ->
  clean_project E fs p = (fs', Ok tt) -> (forall q, input E fs p root q -> ~ result_place root q) ->
  snd (standard_run E fs' p) = snd (standard_run E fs p).
Proof. exact clean_run. Qed.
Print Assumptions C96_run.
Example C96_example :
  let fs1 := fst (standard_run ex_E ex_fs (ex_p "fast.json")) in
  let fs2 := fst (clean_project ex_E fs1 (ex_p "cruise.json")) in
  let q := (ex_root ++ ["_results"; "fast_001"; "global.json"])%list in
  snd (clean_project ex_E fs1 (ex_p "cruise.json")) = Ok tt /\ (exists c, fs1 q = Some (NFile c)) /\ fs2 q = None /\
  fs2 (ex_p "fast.json") = ex_fs (ex_p "fast.json") /\
  snd (standard_run ex_E fs2 (ex_p "cruise.json")) = snd (standard_run ex_E fs1 (ex_p "cruise.json")).
Proof.
  cbv zeta. split; [vm_compute; reflexivity|]. split; [eexists; vm_compute; reflexivity|]. split; [vm_compute; reflexivity|]. split; vm_compute; reflexivity.
Qed.

(** C97: a run changes nothing but its own results and figures, the log file and missing
    directories; with a CPACS aircraft also files in the folder for airfoils, and the aircraft
    file itself if the states come from it. *)
Theorem C97_changes :
  forall E fs p root name base fs' t r, decodes E -> real p -> project_of p root name -> base_of name base -> standard_run E fs p = (fs', (t, r)) ->
  forall q, fs' q = fs q \/
    (fs q = None /\ fs' q = Some NDir /\ made root base q) \/
    output root base q \/
    exists a, aircraft_file E fs p root a /\ is_xml a /\ (airfoil_place root q \/ (q = a /\ wants_cpacs E fs p)).
Proof. exact run_frame. Qed.
Print Assumptions C97_changes.
(** Every result file of the run is there afterwards, with its content. *)
Theorem C97_contents :
  forall E fs p root name base fs' t r, decodes E -> real p -> project_of p root name -> base_of name base -> standard_run E fs p = (fs', (t, r)) ->
  forall f c, In (f, c) (written _ _ t) -> output root base (resolve root f) /\
    (fs' (resolve root f) = Some (NFile (result_text E c)) \/ (aircraft_file E fs p root (resolve root f) /\ is_xml (resolve root f))).
Proof. exact run_content. Qed.
Print Assumptions C97_contents.
Example C97_example :
  let '(fs', (t, r)) := standard_run ex_E ex_fs (ex_p "tool.json") in
  map fst (written _ _ t) = ["_results/tool_000/global.json"; "_results/tool_aeroperformance.json"] /\ (exists w, r = Ok w) /\
  fs' (ex_root ++ ["_results"; "tool_aeroperformance.json"])%list = Some (NFile (Text "table")) /\
  fs' (ex_root ++ ["_plots"; "tool_000"; "geometry2D.png"])%list = Some (NFile (Text "geometry2D")) /\
  wants_cpacs ex_E ex_fs (ex_p "tool.json") /\ fs' (ex_root ++ ["airfoils"])%list = Some NDir.
Proof.
  assert (W : wants_cpacs ex_E ex_fs (ex_p "tool.json")).
  { exists "__cpacs". split; [do 2 eexists; split; [reflexivity|]; split; [reflexivity|]; reflexivity|]. apply StartPaths.text_upper. reflexivity. }
  destruct (standard_run ex_E ex_fs (ex_p "tool.json")) as [fs' [t r]] eqn:H.
  replace fs' with (fst (standard_run ex_E ex_fs (ex_p "tool.json"))) by (rewrite H; reflexivity).
  replace t with (fst (snd (standard_run ex_E ex_fs (ex_p "tool.json")))) by (rewrite H; reflexivity).
  replace r with (snd (snd (standard_run ex_E ex_fs (ex_p "tool.json")))) by (rewrite H; reflexivity). clear H.
  split; [vm_compute; reflexivity|]. split; [eexists; vm_compute; reflexivity|]. split; [vm_compute; reflexivity|]. split; [vm_compute; reflexivity|]. split; [exact W|vm_compute; reflexivity].
Qed.
