(** Model of the deformation file reader: src/lib/pytornado/fileio/native/deformation.py.

    Simplifications: the file is given by its size and by what the JSON reader of the aeroframe
    library returns for it (a dictionary of fields); a field is an abstract value; of a wing only
    the two attributes set here (aircraft.py:297-299) are kept.  Logging is omitted. *)
From Coq Require Import List String Ascii Arith Bool.
From Verif Require Import PyBase.
Import ListNotations.
Open Scope string_scope.

Section Deform.
Variable F : Type.

(** aircraft.py:297-299 *)
Record wing_def := mkWD { def_field : option F; def_field_mirror : option F }.

(** [s.startswith('_')] (63) *)
Definition starts_underscore (s : string) : bool := match s with String c _ => Ascii.eqb c "_" | EmptyString => false end.
(** [s.endswith('_m')] (67) *)
Fixpoint ends_m (s : string) : bool :=
  match s with
  | EmptyString => false
  | String _ r => String.eqb s "_m" || ends_m r
  end.
(** [s.replace('_m', '')] (68): all occurrences from left to right. *)
Fixpoint remove_m (s : string) : string :=
  match s with
  | EmptyString => EmptyString
  | String c r =>
    match r with
    | String c2 r2 => if Ascii.eqb c "_" && Ascii.eqb c2 "m" then remove_m r2 else String c (remove_m r)
    | EmptyString => s
    end
  end.

(** [aircraft.wings[k].attr = f]; [KeyError] if there is no such wing. *)
Definition assign (wings : dict wing_def) (k : string) (g : wing_def -> wing_def) : dict wing_def * res unit :=
  match dget wings k with
  | Some w => (dset wings k (g w), Ok tt)
  | None => (wings, Err KeyError)
  end.

(** The loop (58-71). *)
Fixpoint load_fields (wings : dict wing_def) (fields : dict F) : dict wing_def * res unit :=
  match fields with
  | [] => (wings, Ok tt)
  | (k, f) :: fields' =>
    if starts_underscore k then load_fields wings fields'
    else
      let '(wings', r) :=
        if ends_m k then assign wings (remove_m k) (fun w => mkWD (def_field w) (Some f))
        else assign wings k (fun w => mkWD (Some f) (def_field_mirror w)) in
      match r with Ok _ => load_fields wings' fields' | Err e => (wings', Err e) end
  end.

(** [load] (38-71); [file] is [None] if there is no file, otherwise its size and its content. *)
Definition load (file : option (nat * dict F)) (wings : dict wing_def) : dict wing_def * res unit :=
  match file with
  | None => (wings, Err IOError)
  | Some (size, fields) => if (size <? 10)%nat then (wings, Ok tt) else load_fields wings fields
  end.
End Deform.
Arguments mkWD {F}.
Arguments def_field {F}.
Arguments def_field_mirror {F}.
