(** Model of [setup_wkdir] (stdfun/setup.py:42-161) and of the directories made by [Settings]
    (objects/settings.py:112-190).

    Simplifications: a path is the list of its components, already absolute; a file system maps
    paths to directories and files; making a directory or writing a file inside the new project
    directory succeeds (no permissions, no full disk); a file holds the value that [json.load]
    returns for it ([COther] if it is no JSON file); [ProjectPaths] joins names to the project
    directory and replaces "{counter:03d}" by the three digits of 0 (other braces in a file name are
    not expressible in its format and are excluded); printed texts are dropped. *)
From Coq Require Import List String Ascii ZArith QArith Bool.
From Verif Require Import PyBase PyVal ControlModel AircraftIOModel CliModel.
From Verif Require SettingsModel StateModel.
Import ListNotations.
Open Scope string_scope.

Definition path := list string.
Inductive content := CJson (v : pyval) | CState (d : dict StateModel.entry) | COther.
Inductive node := NDir | NFile (c : content).
Definition fsys := path -> option node.

Definition path_eqb (p q : path) : bool := if list_eq_dec string_dec p q then true else false.
Definition put (fs : fsys) (p : path) (n : node) : fsys := fun q => if path_eqb q p then Some n else fs q.

(** [Path(p).name] *)
Definition name_of (p : path) : string := last p "".
(** [os.path.splitext(name)[0]]: leading dots do not start an extension. *)
Fixpoint splitext (name : string) : string :=
  match name with
  | EmptyString => EmptyString
  | String c r => if is_dot c then String c (splitext r) else if has_dot name then before_dot name else name
  end.

(** settings.py:81-94 *)
Definition TEMPLATE_ROOT := "pytornado".
Definition counted (basename : string) : string := basename ++ "_000".
(** [generate_paths] (157-177): the directories of the group 'dir'; [make_dirs_for_groups] (140). *)
Definition project_dirs (basename : string) : list path :=
  [["aircraft"]; ["airfoils"]; ["deformation"]; ["settings"]; ["state"]; ["_plots"]; ["_results"];
   ["_plots"; counted basename]; ["_results"; counted basename]].
Definition make_dirs (dir : path) (basename : string) (fs : fsys) : fsys :=
  fold_left (fun fs p => put fs (dir ++ p)%list NDir) (project_dirs basename) fs.

Definition flt (q : Q) : pyval := PFlt (Some q).
Definition ints (l : list Z) : pyval := PList (map PInt l).

(** The rectangular wing (setup.py:96-131); [add_wing], [add_segment], [add_control] start from
    the empty definitions. *)
Definition template_segment : segdef :=
  mkSD "template_segment"
    [("a", ints [0; 0; 0]%Z); ("b", ints [0; 5; 0]%Z); ("c", ints [2; 5; 0]%Z); ("d", ints [2; 0; 0]%Z)]
    new_geometry [("inner", PStr "NACA0000"); ("outer", PStr "NACA0000")] new_seg_panels.
Definition template_control : ctldef :=
  mkCD "template_control" (Some "flap") (PInt 5) (PInt (-5))
    [("inner", PStr "template_segment"); ("outer", PStr "template_segment")]
    [("eta_inner", flt (2 # 10)); ("eta_outer", flt (8 # 10)); ("xsi_inner", flt (7 # 10)); ("xsi_outer", flt (7 # 10))]
    [("xsi_inner", flt (7 # 10)); ("xsi_outer", flt (7 # 10))]
    [("num_c", PNone)].
Definition template_aircraft : acdef :=
  mkAD "template_aircraft"
    [("area", PInt 10); ("span", PInt 5); ("chord", PInt 2); ("gcenter", ints [0; 0; 0]%Z); ("rcenter", ints [0; 0; 0]%Z);
     ("comment", PNone)]
    [("template_wing", mkWD "template_wing" (PInt 2) [("template_segment", template_segment)] [("template_control", template_control)])].

(** The settings (77-81, 133-141): defaults with six changes. *)
Definition in_results (s : dict pyval) (k : string) (x : pyval) : dict pyval :=
  match getitem (PDict s) "plot" with
  | Ok plot => match getitem plot "results" with
               | Ok results => dset s "plot" (SettingsModel.setitem plot "results" (SettingsModel.setitem results k x))
               | Err _ => s
               end
  | Err _ => s
  end.
Definition template_settings (aircraft state : string) : dict pyval :=
  let s := SettingsModel.new_settings in
  let s := dset s "aircraft" (PStr aircraft) in
  let s := dset s "state" (PStr state) in
  let s := dset s "vlm_autopanels_s" (PInt 20) in
  let s := dset s "vlm_autopanels_c" (PInt 5) in
  let s := in_results s "show" (PBool true) in
  in_results s "opt" (PList [PStr "cp"]).

(** The state (143-151). *)
Definition template_state : StateModel.fstate :=
  let set a k q := dset a k (StateModel.SRaw (StateModel.VNum q)) in
  let a := StateModel.f_aero StateModel.new_state in
  let a := set a "airspeed" (inject_Z 100) in
  let a := set a "density" (1225 # 1000) in
  let a := set a "alpha" (inject_Z 2) in
  let a := set a "beta" (inject_Z 0) in
  let a := set a "rate_P" (inject_Z 0) in
  let a := set a "rate_Q" (inject_Z 0) in
  let a := set a "rate_R" (inject_Z 0) in
  StateModel.mkFS a 0 None.

Section Setup.
(** [io.native.aircraft.load] on the content of the file (see [AircraftIOModel.load]). *)
Variable load_aircraft : pyval -> res acdef.

(** [load] (fileio/native/aircraft.py:56-62): the file must exist and be JSON. *)
Definition read_aircraft (fs : fsys) (p : path) : res acdef :=
  match fs p with
  | None => Err IOError
  | Some NDir => Err IOError
  | Some (NFile (CJson v)) => load_aircraft v
  | Some (NFile _) => Err ValueError
  end.

(** 133-161: the three files. *)
Definition save_all (fs : fsys) (dir : path) (basename settings_name aircraft_name state_name : string) (a : acdef) : fsys * res unit :=
  match snd (SettingsModel.save (template_settings aircraft_name state_name)) with
  | Err e => (fs, Err e)
  | Ok v =>
    let fs := put fs (dir ++ ["settings"; (settings_name ++ ".json")%string])%list (NFile (CJson v)) in
    let fs := put fs (dir ++ ["state"; state_name])%list (NFile (CState (StateModel.save template_state))) in
    match AircraftIOModel.save a with
    | Err e => (fs, Err e)
    | Ok j => (put fs (dir ++ ["aircraft"; aircraft_name])%list (NFile (CJson j)), Ok tt)
    end
  end.

(** [setup_wkdir] (42-161). *)
Definition setup_wkdir (fs : fsys) (cwd : path) (aircraft_file : option path) : fsys * res unit :=
  let dir := (cwd ++ [TEMPLATE_ROOT])%list in
  match fs dir with
  | Some _ => (fs, Err SystemExit)
  | None =>
    let fs1 := put fs dir NDir in
    let basename := match aircraft_file with None => "template" | Some p => stem_of_name (name_of p) end in
    let filename := match aircraft_file with None => basename ++ ".json" | Some p => name_of p end in
    let settings_name := splitext filename in
    let fs2 := make_dirs dir settings_name fs1 in
    let state_name := basename ++ ".json" in
    match aircraft_file with
    | Some p =>
      let aircraft_name := basename ++ ".json" in
      match fs2 p with
      | None => (fs2, Err FileNotFoundError)
      | Some NDir => (fs2, Err IOError)
      | Some (NFile c) =>
        let fs3 := put fs2 (dir ++ ["aircraft"; name_of p])%list (NFile c) in
        match read_aircraft fs3 (dir ++ ["aircraft"; aircraft_name])%list with
        | Err e => (fs3, Err e)
        | Ok a => save_all fs3 dir basename settings_name aircraft_name state_name a
        end
      end
    | None => save_all fs2 dir basename settings_name (ad_uid template_aircraft ++ ".json") state_name template_aircraft
    end
  end.
End Setup.
