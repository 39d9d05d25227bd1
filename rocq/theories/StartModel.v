(** Model of [standard_run] (stdfun/run.py:57-182) on a file system: reading the settings
    (fileio/native/settings.py:42-67), the [Settings] object and its paths
    (objects/settings.py:112-237), the choice of the loaders, the import of airfoils
    (objects/aircraft.py:682-724), the files of the run ([RunModel]) and [clean_project_dir].

    Simplifications:
    - a path is the list of its components, a file system maps paths to directories and files;
      there are no links, permissions or full disks; writing a file succeeds; a directory cannot
      be made where a file is;
    - [ProjectPaths] (external) joins names to directories as pathlib does and replaces the counter;
      names contain no braces; '..' is removed as the operating system does it without links;
    - the settings file is given as an absolute path;
    - letters are ASCII;
    - what is not in this model is in the record [env]: the content of a file, the decoders (JSON, XML), what is
      written into result files, figures and the log file;
    - directories of a state are made together with the first file in them;
    - the aircraft file is written last if it is also a result file. *)
From Coq Require Import List String Ascii ZArith QArith Bool.
From Verif Require Import PyBase PyVal AircraftIOModel CliModel CpacsAircraftModel.
From Verif Require SettingsModel StateModel RunModel SetupModel.
Import List ListNotations.
Open Scope string_scope.

Notation path := SetupModel.path.
Notation path_eqb := SetupModel.path_eqb.
Notation name_of := SetupModel.name_of.
Notation splitext := SetupModel.splitext.

(** ** Names and paths *)

(** [s.split('/')] *)
Fixpoint components (s : string) : list string :=
  match s with
  | EmptyString => [""]
  | String c r =>
    if is_slash c then "" :: components r
    else match components r with [] => [String c ""] | x :: l => String c x :: l end
  end.
(** [os.path.join(dir, s)] as the operating system looks it up. *)
Definition step (acc : path) (c : string) : path :=
  if String.eqb c "" || String.eqb c "." then acc
  else if String.eqb c ".." then removelast acc
  else (acc ++ [c])%list.
Definition resolve (dir : path) (s : string) : path :=
  fold_left step (components s) (if String.prefix "/" s then [] else dir).
(** [str(path)] *)
Fixpoint joined (p : path) : string := match p with [] => "" | c :: r => "/" ++ c ++ joined r end.
Definition render (p : path) : string := match p with [] => "/" | _ => joined p end.

(** [PurePath.suffix]: from the last dot on, if it is neither the first nor the last character. *)
Fixpoint after_dot (s : string) : string :=
  match s with
  | EmptyString => EmptyString
  | String c r => if is_dot c && negb (has_dot r) then r else after_dot r
  end.
Definition suffix (name : string) : string :=
  if has_dot name then
    if ends_dot name then ""
    else match before_dot name with EmptyString => "" | _ => String "."%char (after_dot name) end
  else "".

(** [c.lower()], [c.upper()] *)
Definition lower_char (c : ascii) : ascii :=
  let n := nat_of_ascii c in if (65 <=? n)%nat && (n <=? 90)%nat then ascii_of_nat (n + 32) else c.
Definition upper_char (c : ascii) : ascii :=
  let n := nat_of_ascii c in if (97 <=? n)%nat && (n <=? 122)%nat then ascii_of_nat (n - 32) else c.
Fixpoint map_string (f : ascii -> ascii) (s : string) : string :=
  match s with EmptyString => EmptyString | String c r => String (f c) (map_string f r) end.
Definition lower := map_string lower_char.
Definition upper := map_string upper_char.

(** [s.strip('NACA')] removes the letters N, A and C at both ends. *)
Definition naca_letter (c : ascii) : bool := Ascii.eqb c "N" || Ascii.eqb c "A" || Ascii.eqb c "C".
Fixpoint lstrip (s : string) : string :=
  match s with EmptyString => EmptyString | String c r => if naca_letter c then lstrip r else s end.
Fixpoint rstrip (s : string) : string :=
  match s with
  | EmptyString => EmptyString
  | String c r => match rstrip r with
                  | EmptyString => if naca_letter c then EmptyString else String c EmptyString
                  | r' => String c r'
                  end
  end.
Definition strip_naca (s : string) : string := rstrip (lstrip s).

(** ** File system and environment *)

Inductive node (C : Type) := NDir | NFile (c : C).
Arguments NDir {C}.
Arguments NFile {C}.
(** Airfoil data: the content of a file, or NACA digits. *)
Inductive source (C : Type) := FromFile (c : C) | Naca (digits : string).
Arguments FromFile {C}.
Arguments Naca {C}.
Definition profile_table (C : Type) := list (list (res (source C) * res (source C))).

(** Everything that is not in this model. *)
Record env := mkEnv {
  (** content of files; numbers, tables and data of the run (see [RunModel]) *)
  C : Type; V : Type; T : Type; W : Type;
  (** the directory in which the program was started *)
  cwd : path;
  (** [json.load]; [str(v)] of a value that is no string *)
  json : C -> res pyval;
  str_of : pyval -> string;
  (** the airfoil library *)
  import_profile : source C -> res unit;
  (** see [AircraftIOModel] and [CpacsAircraftModel] *)
  none_ok : bool; int_ok : bool;
  parse_float : string -> res (option Q);
  derive : list pyval -> pyval -> pyval -> res (string -> option Q);
  finish_wing : list segdef -> res unit;
  locate : string -> Q -> Q -> res (string * Q * Q);
  (** Tixi and TiGL on the content of a file; what is written for an airfoil *)
  cpacs_doc : C -> res cdoc;
  profile_text : string * list (Q * Q) -> C;
  (** the state dictionary of a JSON file; altitude, Mach number and angles of a CPACS file; see
      [StateModel] *)
  state_doc : C -> res (dict StateModel.entry);
  cpacs_vectors : C -> res (list StateModel.num * list StateModel.num * list StateModel.num * list StateModel.num);
  parse : string -> res StateModel.num;
  atmosphere : list StateModel.num -> res (list StateModel.num * list StateModel.num);
  (** deformation fields and panel numbers (run.py:100-106): from the aircraft, its airfoils, the
      deformation file and the settings *)
  prepare : acdef -> profile_table C -> option C -> dict pyval -> res W;
  draw : nat -> string -> res unit;
  compute : dict pyval -> W -> bool -> dict StateModel.num -> W * res (RunModel.out V T);
  (** [cpacs.results.save_aeroperformance_map]: the new content of the file, also if it raises *)
  store : C -> dict (list V) -> C * res unit;
  (** what is written: result files, figures, log *)
  result_text : RunModel.content V T -> C;
  figure_file : string -> string;
  picture : string -> C;
  log_text : C }.

(** [Settings] (settings.py:112-140) without the paths, which follow from it. *)
Record sobj := mkSO { so_root : path; so_base : string; so_dict : dict pyval; so_cpacs : bool }.
Definition setting (s : dict pyval) (k : string) : pyval := match dget s k with Some v => v | None => PNone end.

Section Start.
Variable E : env.
Definition fsys := path -> option (node (C E)).
Definition put (fs : fsys) (p : path) (n : node (C E)) : fsys := fun q => if path_eqb q p then Some n else fs q.

(** [Path.mkdir(parents=True, exist_ok=True)] *)
Fixpoint make_path (fs : fsys) (done todo : path) : fsys * res unit :=
  match todo with
  | [] => (fs, Ok tt)
  | c :: r =>
    let q := (done ++ [c])%list in
    match fs q with
    | Some NDir => make_path fs q r
    | None => make_path (put fs q NDir) q r
    | Some (NFile _) => (fs, Err IOError)
    end
  end.
Fixpoint make_paths (fs : fsys) (l : list path) : fsys * res unit :=
  match l with
  | [] => (fs, Ok tt)
  | p :: l' => match make_path fs [] p with (fs', Ok _) => make_paths fs' l' | (fs', Err e) => (fs', Err e) end
  end.

(** ** Settings *)

Definition fstr (v : pyval) : string := match v with PStr s => s | _ => (str_of E) v end.

(** [generate_paths] (156-187) *)
Definition f_aircraft_of (root : path) (s : dict pyval) : path := resolve (root ++ ["aircraft"])%list (fstr (setting s "aircraft")).
Definition f_aircraft (so : sobj) : path := f_aircraft_of (so_root so) (so_dict so).
Definition f_deformation (so : sobj) : path := resolve (so_root so ++ ["deformation"])%list (fstr (setting (so_dict so) "deformation")).
Definition f_state (so : sobj) : path := resolve (so_root so ++ ["state"])%list (fstr (setting (so_dict so) "state")).
Definition f_settings (so : sobj) : path := (so_root so ++ ["settings"; (so_base so ++ ".json")%string])%list.
Definition f_log (so : sobj) : path := (so_root so ++ ["log.txt"])%list.
Definition project_dirs (so : sobj) : list path := map (fun p => (so_root so ++ p)%list) (SetupModel.project_dirs (so_base so)).

(** [_check_aircraft_file_type] (189-200) *)
Definition file_type (p : path) : res bool :=
  let e := lower (suffix (name_of p)) in
  if negb (existsb (String.eqb e) [".xml"; ".json"]) then Err ValueError
  else Ok (negb (String.eqb e ".json")).

(** [Settings.__init__] up to the directories (126-138). *)
Definition new_settings (name : string) (dir : path) (d : dict pyval) : res sobj :=
  let '(s, _, r) := SettingsModel.update SettingsModel.new_settings d in
  let? _ := r in
  let? cpacs := file_type (f_aircraft_of dir s) in
  Ok (mkSO dir (splitext name) s cpacs).

(** [load] (fileio/native/settings.py:42-67) *)
Definition working_dir (p : path) : path :=
  let dir := removelast p in if String.eqb (name_of dir) "settings" then removelast dir else dir.
Definition read_settings (fs : fsys) (p : path) : res sobj :=
  match fs p with
  | None => Err FileNotFoundError
  | Some NDir => Err IOError
  | Some (NFile c) =>
    let? v := (json E) c in
    let? d := items v in
    new_settings (name_of p) (working_dir p) d
  end.
Definition load_settings (fs : fsys) (p : path) : fsys * res sobj :=
  match read_settings fs p with
  | Err e => (fs, Err e)
  | Ok so => match make_paths fs (project_dirs so) with (fs', Ok _) => (fs', Ok so) | (fs', Err e) => (fs', Err e) end
  end.

(** [state_is_cpacs] (143-154) *)
Definition state_is_cpacs (so : sobj) : res bool :=
  match setting (so_dict so) "state" with
  | PStr s =>
    if String.eqb (upper s) "__CPACS" then if so_cpacs so then Ok true else Err RuntimeError
    else Ok false
  | _ => Err AttributeError
  end.

(** [clean] (220-225) of new settings (run.py:57-81): [rmtree] of the group 'tmp'. *)
Fixpoint prefix_path (d p : path) : bool :=
  match d, p with
  | [], _ => true
  | c :: d', x :: p' => String.eqb c x && prefix_path d' p'
  | _ :: _, [] => false
  end.
Definition remove_tree (fs : fsys) (d : path) : fsys := fun q => if prefix_path d q then None else fs q.
Definition tmp_dirs (so : sobj) : list path :=
  map (fun p => (so_root so ++ p)%list) [["_plots"]; ["_results"]; ["_plots"; SetupModel.counted (so_base so)]; ["_results"; SetupModel.counted (so_base so)]].
Definition clean_project (fs : fsys) (p : path) : fsys * res unit :=
  match load_settings fs p with
  | (fs', Err e) => (fs', Err e)
  | (fs', Ok so) => (fold_left remove_tree (tmp_dirs so) fs', Ok tt)
  end.

(** ** Aircraft and state *)

(** [_import_airfoils] (aircraft.py:682-724) for one name. *)
Definition airfoil_source (fs : fsys) (name : string) : res (source (C E)) :=
  match fs (resolve (cwd E) name) with
  | Some (NFile c) => Ok (FromFile c)
  | _ => if String.prefix "NACA" (upper name) then Ok (Naca (strip_naca (upper name))) else Err ValueError
  end.
Definition import_airfoils (fs : fsys) (inner outer : string) : res unit :=
  let? i := airfoil_source fs inner in
  let? _ := (import_profile E) i in
  let? o := airfoil_source fs outer in
  (import_profile E) o.

(** [native.aircraft.load] (43-118) *)
Definition load_native (fs : fsys) (so : sobj) : res acdef :=
  match fs (f_aircraft so) with
  | None | Some NDir => Err IOError
  | Some (NFile c) =>
    let? v := (json E) c in
    load (none_ok E) (int_ok E) (render (so_root so)) (parse_float E) (derive E) (import_airfoils fs) (finish_wing E) v
  end.

(** [cpacs.aircraft.load] (424-454): the airfoil files are written before the reference values are
    read and before the aircraft is generated. *)
Definition write_profiles (fs : fsys) (files : dict (string * list (Q * Q))) : fsys :=
  fold_left (fun fs e => put fs (resolve [] (fst e)) (NFile ((profile_text E) (snd e)))) files fs.
Definition load_cpacs (fs : fsys) (so : sobj) : fsys * res acdef :=
  let root := render (so_root so) in
  match fs (f_aircraft so) with
  | None | Some NDir => (fs, Err FileNotFoundError)
  | Some (NFile c) =>
    match (cpacs_doc E) c with
    | Err e => (fs, Err e)
    | Ok d =>
      match (let? u := aircraft_name d in let? ws := aircraft_wings (none_ok E) (int_ok E) root (locate E) d in Ok (u, ws)) with
      | Err e => (fs, Err e)
      | Ok (u, ws) =>
        let fs' := write_profiles fs (airfoil_files root [] 1 (cd_foils d)) in
        (fs', let? refs := read_refs (cd_refs d) in
              generate (none_ok E) (int_ok E) (parse_float E) (derive E) (import_airfoils fs') (finish_wing E) (mkAD u refs ws))
      end
    end
  end.

(** run.py:96 *)
Definition load_aircraft (fs : fsys) (so : sobj) : fsys * res acdef :=
  if so_cpacs so then load_cpacs fs so else (fs, load_native fs so).

Definition loaded (r : StateModel.fstate * res unit) : res StateModel.fstate := let '(st, o) := r in let? _ := o in Ok st.
(** [native.state.load] (38-64), [cpacs.state.load] (38-57), run.py:97 *)
Definition load_state (fs : fsys) (so : sobj) : res StateModel.fstate :=
  let? cp := state_is_cpacs so in
  if cp then
    match fs (f_aircraft so) with
    | Some (NFile c) => let? v := (cpacs_vectors E) c in let '(h, m, a, b) := v in loaded (StateModel.load_apm (parse E) (atmosphere E) h m a b)
    | _ => Err FileNotFoundError
    end
  else
    match fs (f_state so) with
    | Some (NFile c) => let? d := (state_doc E) c in loaded (StateModel.load (parse E) (atmosphere E) d)
    | _ => Err IOError
    end.

(** run.py:100-101 and the file access of [native.deformation.load] (38-59): the content of the
    deformation file, if one is given. *)
Definition load_deformation (fs : fsys) (so : sobj) : res (option (C E)) :=
  if truthy (setting (so_dict so) "deformation") then
    match fs (f_deformation so) with Some (NFile c) => Ok (Some c) | _ => Err IOError end
  else Ok None.

(** The airfoils of all segments. *)
Definition profiles (fs : fsys) (a : acdef) : profile_table (C E) :=
  map (fun kw => map (fun ks =>
    let f pos := airfoil_source fs (py_str (setting (sd_airfoils (snd ks)) pos)) in (f "inner", f "outer")) (wd_segs (snd kw))) (ad_wings a).

(** ** The run *)

(** The aircraft, the flight states and the initial data; run.py:88-106. *)
Definition load_project (fs : fsys) (so : sobj) : fsys * res (StateModel.fstate * W E) :=
  let fs1 := put fs (f_log so) (NFile (log_text E)) in
  let '(fs2, ra) := load_aircraft fs1 so in
  (fs2, let? a := ra in
        let? st := load_state fs2 so in
        let? def := load_deformation fs2 so in
        let? w := (prepare E) a (profiles fs2 a) def (so_dict so) in
        Ok (st, w)).

(** Writing of files. *)
Definition write_file (fs : fsys) (p : path) (c : C E) : fsys :=
  put (fst (make_path fs [] (removelast p))) p (NFile c).
Definition apply_event (so : sobj) (fs : fsys) (e : RunModel.event (V E) (T E)) : fsys :=
  match e with
  | RunModel.EFile p c => write_file fs (resolve (so_root so) p) ((result_text E) c)
  | RunModel.EPlot i n =>
    write_file fs (so_root so ++ ["_plots"; (so_base so ++ "_" ++ RunModel.dec3 i)%string; (figure_file E) n])%list ((picture E) n)
  | RunModel.EShow _ => fs
  end.

(** run.py:109-182 for the loaded project. *)
Definition both_cpacs (so : sobj) : bool := match state_is_cpacs so with Ok b => so_cpacs so && b | Err _ => false end.
Definition run_project (fs : fsys) (so : sobj) (st : StateModel.fstate) (w : W E) : fsys * (list (RunModel.event (V E) (T E)) * res (W E)) :=
  let s := so_dict so in
  let save_cpacs w r :=
    match fs (f_aircraft so) with
    | Some (NFile c) => let? _ := snd ((store E) c r) in Ok w
    | _ => Err LibError
    end in
  let '(t, r) := RunModel.run (V E) (T E) (W E) (so_base so) (draw E) (str_of E) ((compute E) s) save_cpacs (parse E) (both_cpacs so) s st w in
  let fs1 := fold_left (apply_event so) t fs in
  let '(rows, last) := StateModel.iter_states (parse E) st in
  let fs2 :=
    match snd (RunModel.loop (V E) (T E) (W E) (so_base so) (draw E) (str_of E) ((compute E) s) s rows last 0 w (RunModel.new_results (V E))), fs (f_aircraft so) with
    | Ok (_, results), Some (NFile c) => if both_cpacs so then put fs1 (f_aircraft so) (NFile (fst ((store E) c results))) else fs1
    | _, _ => fs1
    end in
  (fs2, (t, r)).

(** [standard_run] (84-182): the file system after it, the files and figures in the order in which
    they are made, and the outcome. *)
Definition standard_run (fs : fsys) (p : path) : fsys * (list (RunModel.event (V E) (T E)) * res (W E)) :=
  match load_settings fs p with
  | (fs1, Err e) => (fs1, ([], Err e))
  | (fs1, Ok so) =>
    match load_project fs1 so with
    | (fs2, Err e) => (fs2, ([], Err e))
    | (fs2, Ok (st, w)) => run_project fs2 so st w
    end
  end.
End Start.
