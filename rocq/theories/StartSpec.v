(** Specifications for a run on a file system (C90-C97). *)
From Coq Require Import List String Ascii ZArith QArith.
From Verif Require Import PyBase PyVal AircraftIOModel AircraftIOSpec RunSpec StartModel.
From Verif Require RunModel SettingsModel SettingsSpec.
Import List ListNotations.
Open Scope string_scope.

(** ** Names *)

(** A component of an absolute path without links. *)
Definition plain (c : string) : Prop := c <> "" /\ c <> "." /\ c <> ".." /\ ~ has_part "/" c.
Definition real (p : path) : Prop := Forall plain p.
Definition within (d p : path) : Prop := exists rest, p = (d ++ rest)%list.

(** The name without its extension: the last dot and what follows it, unless only dots come
    before. *)
Definition only_dots (s : string) : Prop := forall a c b, s = a ++ String c b -> c = "."%char.
Definition base_of (name base : string) : Prop :=
  (exists ext, name = base ++ "." ++ ext /\ ~ has_part "." ext /\ ~ only_dots base) \/
  (base = name /\ forall a ext, name = a ++ "." ++ ext -> only_dots a).
(** The extension of a file name, with dot. *)
Definition extension (name ext : string) : Prop :=
  exists stem e, stem <> "" /\ e <> "" /\ ~ has_part "." e /\ name = stem ++ "." ++ e /\ ext = e.

(** Letters. *)
Inductive same_letter : ascii -> ascii -> Prop :=
| sl_same c : same_letter c c
| sl_low c n : (n < 26)%nat -> nat_of_ascii c = (97 + n)%nat -> same_letter c (ascii_of_nat (65 + n))
| sl_up c n : (n < 26)%nat -> nat_of_ascii c = (65 + n)%nat -> same_letter c (ascii_of_nat (97 + n)).
(** Equal up to upper and lower case. *)
Inductive same_text : string -> string -> Prop :=
| st_nil : same_text "" ""
| st_cons c d r s : same_letter c d -> same_text r s -> same_text (String c r) (String d s).

(** ** The project of a settings file *)

Inductive project_of : path -> path -> string -> Prop :=
| po_settings root name : project_of (root ++ ["settings"; name])%list root name
| po_beside root name : (forall r, root <> (r ++ ["settings"])%list) -> project_of (root ++ [name])%list root name.

Section Spec.
Variable E : env.

(** What the settings file names. *)
Definition gives (fs : fsys E) (p : path) (key : string) (v : pyval) : Prop :=
  exists c d, fs p = Some (NFile c) /\ json E c = Ok (PDict d) /\ dget d key = Some v.
Definition aircraft_file (fs : fsys E) (p root q : path) : Prop :=
  exists s, gives fs p "aircraft" (PStr s) /\ q = resolve (root ++ ["aircraft"])%list s.
Definition is_xml (q : path) : Prop := exists d n e, q = (d ++ [n])%list /\ extension n e /\ same_text e "xml".
Definition is_json (q : path) : Prop := exists d n e, q = (d ++ [n])%list /\ extension n e /\ same_text e "json".
(** The settings file is accepted (see [SettingsSpec]), apart from the name of the aircraft. *)
Definition accepted (fs : fsys E) (p : path) : Prop :=
  exists c d s d', fs p = Some (NFile c) /\ json E c = Ok (PDict d) /\
    SettingsModel.update SettingsModel.new_settings d = (s, d', Ok tt).
(** The state is to be taken from the CPACS file. *)
Definition wants_cpacs (fs : fsys E) (p : path) : Prop := exists s, gives fs p "state" (PStr s) /\ same_text s "__CPACS".
(** A decoded object has every key once. *)
Definition decodes : Prop := forall c d, json E c = Ok (PDict d) -> NoDup (dkeys d).

(** Directories of a project that are made at the start, with the directories above them. *)
Definition start_dir (root : path) (base : string) (q : path) : Prop :=
  q <> [] /\ exists d rest, (root ++ d)%list = (q ++ rest)%list /\
    In d [["aircraft"]; ["airfoils"]; ["deformation"]; ["settings"]; ["state"];
          ["_plots"; (base ++ "_000")%string]; ["_results"; (base ++ "_000")%string]].

(** The output of the settings [base]. *)
Inductive output (root : path) (base : string) : path -> Prop :=
| out_log : output root base (root ++ ["log.txt"])%list
| out_map : output root base (root ++ ["_results"; (base ++ "_aeroperformance.json")%string])%list
| out_state top d i x : In top ["_results"; "_plots"] -> three_digits d i ->
    output root base (root ++ [top; (base ++ "_" ++ d)%string; x])%list.

(** Directories that a run may make. *)
Definition made (root : path) (base : string) (q : path) : Prop :=
  start_dir root base q \/ (q <> [] /\ exists o, output root base o /\ within q o).
(** A file in the folder for airfoils. *)
Definition airfoil_place (root : path) (q : path) : Prop := exists n, q = (root ++ ["airfoils"; n])%list.
(** Results and figures of all settings of the project. *)
Definition result_place (root : path) (q : path) : Prop := within (root ++ ["_results"])%list q \/ within (root ++ ["_plots"])%list q.

(** No file is where a directory has to be. *)
Definition clear (fs : fsys E) (root : path) (base : string) : Prop :=
  forall q c, start_dir root base q -> fs q <> Some (NFile c).

(** Airfoil names in a JSON aircraft file. *)
Definition mentions (doc : pyval) (s : string) : Prop :=
  exists ws w sl sg ad k, SettingsSpec.item doc "wings" (PList ws) /\ In w ws /\ SettingsSpec.item w "segments" (PList sl) /\ In sg sl /\
    SettingsSpec.item sg "airfoils" (PDict ad) /\ In (k, PStr s) ad.
(** Where they are looked for: in the project, or in the directory where the program was started.
    A missing name is looked for as 'None'. *)
Inductive airfoil_path (root : path) (doc : pyval) : path -> Prop :=
| ap_project s : mentions doc s -> begins "airfoils" s -> airfoil_path root doc (resolve root s)
| ap_other s : mentions doc s -> ~ begins "airfoils" s -> airfoil_path root doc (resolve (cwd E) s)
| ap_missing : airfoil_path root doc (resolve (cwd E) "None").

(** The files that a run may use. *)
Inductive input (fs : fsys E) (p root : path) : path -> Prop :=
| in_settings : input fs p root p
| in_aircraft a : aircraft_file fs p root a -> input fs p root a
| in_state s : gives fs p "state" (PStr s) -> ~ same_text s "__CPACS" -> input fs p root (resolve (root ++ ["state"])%list s)
| in_deformation v : gives fs p "deformation" v -> ~ SettingsSpec.empty v -> input fs p root (resolve (root ++ ["deformation"])%list (fstr E v))
| in_airfoil a c doc q : aircraft_file fs p root a -> is_json a -> fs a = Some (NFile c) -> json E c = Ok doc -> airfoil_path root doc q ->
    input fs p root q.

(** No file is there, and the run does not make one. *)
Definition missing (fs : fsys E) (root q : path) : Prop :=
  (forall c, fs q <> Some (NFile c)) /\ q <> (root ++ ["log.txt"])%list /\ ~ airfoil_place root q.
(** The settings and the aircraft are loaded. *)
Definition aircraft_loaded (fs : fsys E) (p : path) (so : sobj) (fs2 : fsys E) (r : res acdef) : Prop :=
  exists fs1, load_settings E fs p = (fs1, Ok so) /\ load_aircraft E (put E fs1 (f_log so) (NFile (log_text E))) so = (fs2, r).
End Spec.
