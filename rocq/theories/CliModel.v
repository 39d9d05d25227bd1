(** Model of the command line program: src/bin/_pytornado_exe.py, and of the lookup in the aircraft
    database: src/lib/pytornado/database/tools.py.

    Simplifications: the command line has already been parsed by argparse (the two mutually
    exclusive groups become a hypothesis); verbosity flags only concern the logger and are
    dropped; what an action does is given by an oracle for its outcome; [Path(s).name] is the part
    after the last slash (no trailing slash, no '.' component); printed texts are dropped. *)
From Coq Require Import List String Ascii Bool.
From Verif Require Import PyBase AircraftIOModel.
Import ListNotations.
Open Scope string_scope.

(** The parsed arguments (49-68). *)
Record args := mkArgs {
  a_run : option string; a_cpacs2json : option string; a_make_example : bool; a_list : bool;
  a_from_db : option string; a_clean : bool; a_clean_only : bool }.

(** [clean_project_dir(get_settings(f))], [standard_run], [cpacs2pytornado], [setup_wkdir],
    [print_available_aircraft], [print_help]. *)
Inductive action := AClean (f : string) | ARun (f : string) | AConvert (f : string) | AExample (file : option string) | AList | AHelp.

(** [PurePath.stem]: [name[:i]] with [i = name.rfind('.')] if [0 < i < len(name) - 1]. *)
Definition is_dot (c : ascii) : bool := Ascii.eqb c "."%char.
Fixpoint has_dot (s : string) : bool := match s with EmptyString => false | String c r => is_dot c || has_dot r end.
(** The part before the last dot. *)
Fixpoint before_dot (s : string) : string :=
  match s with
  | EmptyString => EmptyString
  | String c r => if is_dot c && negb (has_dot r) then EmptyString else String c (before_dot r)
  end.
Fixpoint ends_dot (s : string) : bool :=
  match s with EmptyString => false | String c EmptyString => is_dot c | String _ r => ends_dot r end.
Definition stem_of_name (name : string) : string :=
  if has_dot name then
    if ends_dot name then name
    else match before_dot name with EmptyString => name | s => s end
  else name.
Definition stem (path : string) : string := stem_of_name (basename path).

Section Cli.
(** Outcome of each action; paths of the database in the order of [glob]. *)
Variable perform : action -> res unit.
Variable db : list string.

(** [get_aircraft_file_path] (tools.py:82-100) *)
Fixpoint find_path (paths : list string) (name : string) : res string :=
  match paths with
  | [] => Err FileNotFoundError
  | p :: paths' => if String.eqb (stem p) name then Ok p else find_path paths' name
  end.
Definition get_aircraft_file_path (name : string) : res string := find_path db name.
(** [list_aircraft_names] (67-79) *)
Definition list_aircraft_names : list string := map stem db.

Definition doing (a : action) (k : list action * res unit) : list action * res unit :=
  match perform a with
  | Ok _ => let '(t, r) := k in (a :: t, r)
  | Err e => ([a], Err e)
  end.
Definition done : list action * res unit := ([], Ok tt).

(** Truth value of an optional string. *)
Definition given (o : option string) : bool := match o with Some (String _ _) => true | _ => false end.
Definition text (o : option string) : string := match o with Some s => s | None => "" end.

(** 79-100 *)
Definition dispatch (a : args) : list action * res unit :=
  if given (a_run a) then doing (ARun (text (a_run a))) done
  else if given (a_cpacs2json a) then doing (AConvert (text (a_cpacs2json a))) done
  else if a_make_example a then doing (AExample None) done
  else match a_from_db a with
  | Some n =>
    match get_aircraft_file_path (stem n) with
    | Ok p => doing (AExample (Some p)) done
    | Err FileNotFoundError => doing AList ([], Err SystemExit)
    | Err e => ([], Err e)
    end
  | None => if a_list a then doing AList done else doing AHelp done
  end.

(** [main] (38-100) *)
Definition main (a : args) : list action * res unit :=
  if a_clean a || a_clean_only a then
    match a_run a with
    | None => ([], Err RuntimeError)
    | Some f => doing (AClean f) (if a_clean_only a then done else dispatch a)
    end
  else dispatch a.
End Cli.
