(** Property theorems: generation of a project (C48, C69). *)
From Coq Require Import List String Ascii ZArith QArith.
From Verif Require Import PyBase PyVal AircraftIOModel AircraftIOSpec AircraftIOProofs SetupModel SetupSpec SetupProofs.
From Verif Require StateModel.
Import ListNotations.
Open Scope string_scope.

(** C48: an existing path is left as it is, together with everything else, and the program exits
    with an error; otherwise nothing outside of the new directory changes, the template is always
    completed, and a given aircraft file leads to a complete project exactly if it can be loaded
    and saved.  [load_aircraft] is the function that loads a file. *)
Theorem C48_setup : forall load_aircraft fs cwd arg fs' r,
  setup_wkdir load_aircraft fs cwd arg = (fs', r) ->
  let dir := (cwd ++ ["pytornado"])%list in
  (fs dir <> None -> fs' = fs /\ r = Err SystemExit) /\
  (forall p, ~ within dir p -> fs' p = fs p) /\
  (fs dir = None -> arg = None -> r = Ok tt /\
     exists s d m, project_added fs fs' dir "template" "template_aircraft" s d m) /\
  (fs dir = None -> forall p name, arg = Some p -> named_json p name -> ~ within dir p ->
     (r = Ok tt <-> exists doc a j, fs p = Some (NFile (CJson doc)) /\ load_aircraft doc = Ok a /\ save a = Ok j) /\
     (r = Ok tt -> exists s d m, project_added fs fs' dir name name s d m)).
Proof.
  intros load fs cwd arg fs' r H dir. split; [|split; [|split]].
  - intro N. rewrite (refuses load fs cwd arg N) in H. injection H as <- <-. auto.
  - intros p W. rewrite <- (outside load fs cwd arg p W), H. reflexivity.
  - intros N ->. destruct (template_ok load fs cwd N) as (f & E & P). rewrite E in H. injection H as <- <-. eauto.
  - intros N p name -> J W. destruct (given_ok load fs cwd p name N J W fs' r H) as [A B]. split; [exact A|].
    intro O. destruct (proj1 A O) as (doc & a & j & X & Y & Z). eauto.
Qed.
Print Assumptions C48_setup.

(** Why a given file is refused: it is not there, a directory, not JSON, or the aircraft is not
    accepted. *)
Theorem C48_refused : forall load_aircraft fs cwd p name,
  let dir := (cwd ++ ["pytornado"])%list in fs dir = None -> named_json p name -> ~ within dir p ->
  (fs p = None -> snd (setup_wkdir load_aircraft fs cwd (Some p)) = Err FileNotFoundError) /\
  (fs p = Some NDir -> snd (setup_wkdir load_aircraft fs cwd (Some p)) = Err IOError) /\
  (fs p = Some (NFile COther) -> snd (setup_wkdir load_aircraft fs cwd (Some p)) = Err ValueError) /\
  (forall doc e, fs p = Some (NFile (CJson doc)) -> load_aircraft doc = Err e -> snd (setup_wkdir load_aircraft fs cwd (Some p)) = Err e).
Proof. exact refused. Qed.
Print Assumptions C48_refused.

(** A file that cannot be loaded leaves an incomplete project behind, and the next attempt is
    refused because of it. *)
Theorem C48_leftover_refuted : exists load_aircraft fs cwd p e fs',
  setup_wkdir load_aircraft fs cwd (Some p) = (fs', Err e) /\ e <> SystemExit /\ fs (cwd ++ ["pytornado"])%list = None /\
  forall arg, setup_wkdir load_aircraft fs' cwd arg = (fs', Err SystemExit).
Proof.
  exists (fun _ => Err KeyError), (fun q => if path_eqb q ["db"; "x.json"] then Some (NFile (CJson PNone)) else None), ["home"], ["db"; "x.json"], KeyError.
  eexists. split; [reflexivity|]. split; [discriminate|]. split; [reflexivity|]. intro arg. apply refuses. vm_compute. discriminate.
Qed.
Print Assumptions C48_leftover_refuted.
Example C48_example : exists a fs', AircraftIOModel.load true true "/home/pytornado" (fun _ => Err ValueError) (fun _ _ _ => Ok (fun _ => Some 0%Q)) (fun _ _ => Ok tt) (fun _ => Ok tt) (model_value template_aircraft) = Ok a /\
  setup_wkdir (fun _ => Ok a) (fun q => if path_eqb q ["db"; "x.json"] then Some (NFile (CJson PNone)) else None) ["home"] (Some ["db"; "x.json"]) = (fs', Ok tt) /\
  named_json ["db"; "x.json"] "x" /\ ~ within ["home"; "pytornado"] ["db"; "x.json"] /\ fs' ["home"; "pytornado"; "_results"; "x_000"] = Some NDir.
Proof.
  eexists. eexists. split; [vm_compute; reflexivity|]. split; [reflexivity|]. split; [|split; [|reflexivity]].
  - split; [exists "x"%char, ""; split; [reflexivity|discriminate]|exists ["db"]; reflexivity].
  - intros [r H]. discriminate.
Qed.

(** C69: the files of a generated project can be read: the settings name the files that exist, the
    state is a single flight state, and the aircraft is the one of the given file if its airfoils
    and computed angles survive (see C34), or the template, for which only the calculations on its
    geometry remain open here. *)
Theorem C69_usable : forall int_ok root parse_float derive import_airfoils finish_wing,
  let load := AircraftIOModel.load true int_ok root parse_float derive import_airfoils finish_wing in
  directory root -> forall fs cwd arg fs', setup_wkdir load fs cwd arg = (fs', Ok tt) ->
  let dir := (cwd ++ ["pytornado"])%list in
  (arg = None -> exists s d m, settings_for "template" "template_aircraft" s /\ one_state d /\
     fs' (dir ++ ["settings"; "template.json"])%list = Some (NFile (CJson s)) /\
     fs' (dir ++ ["state"; "template.json"])%list = Some (NFile (CState d)) /\
     fs' (dir ++ ["aircraft"; "template_aircraft.json"])%list = Some (NFile (CJson m)) /\ template_file m /\
     ((forall vs ai ao, exists f, derive vs ai ao = Ok f) -> (forall i o, import_airfoils i o = Ok tt) -> (forall l, finish_wing l = Ok tt) ->
      exists a, load m = Ok a)) /\
  (forall p name, arg = Some p -> named_json p name -> ~ within dir p ->
     exists s d m doc a, settings_for name name s /\ one_state d /\
     fs' (dir ++ ["settings"; (name ++ ".json")%string])%list = Some (NFile (CJson s)) /\
     fs' (dir ++ ["state"; (name ++ ".json")%string])%list = Some (NFile (CState d)) /\
     fs' (dir ++ ["aircraft"; (name ++ ".json")%string])%list = Some (NFile (CJson m)) /\
     fs p = Some (NFile (CJson doc)) /\ load doc = Ok a /\
     (each_segment (airfoils_kept root) a -> each_segment angles_kept a -> load m = Ok a)).
Proof. exact usable. Qed.
Print Assumptions C69_usable.
Example C69_example : exists fs', setup_wkdir (fun _ => Err ValueError) (fun _ => None) ["home"] None = (fs', Ok tt).
Proof. eexists. reflexivity. Qed.
