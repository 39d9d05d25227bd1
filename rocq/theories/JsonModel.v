(** Model of the text of the JSON files: [dump_pretty_json] (src/lib/pytornado/fileio/utils.py:34-49),
    that is [json.dump] with [NDArrayEncoder], [indent=4] and [separators=(',', ': ')].  All JSON files
    are written with it: aircraft (fileio/native/aircraft.py:205), settings (settings.py:84), state
    (state.py:85), global results and performance map (results.py:88, 189).

    Modelled is the Python implementation of the encoder that is used when indentation is asked for
    (CPython, json/encoder.py, py_encode_basestring_ascii and _make_iterencode).  Simplifications: a
    character is a code point below 256; [repr] stands for [float.__repr__] of a finite number; NaN and
    the infinities are one value in [PyVal] and written as NaN; the text is returned as a whole (when an
    exception is raised the file has been opened and holds a part of it). *)
From Coq Require Import List String Ascii ZArith QArith Bool.
From Verif Require Import PyBase PyVal TableModel.
Import ListNotations.
Open Scope string_scope.

(** ** Strings *)
Definition hex (n : nat) : ascii := match String.get n "0123456789abcdef" with Some c => c | None => "0"%char end.
(** ESCAPE_DCT, and '\\u{0:04x}' for what is not printable ASCII. *)
Definition escape (c : ascii) : string :=
  let n := nat_of_ascii c in
  if Nat.eqb n 92 then "\\"
  else if Nat.eqb n 34 then "\"""
  else if Nat.eqb n 8 then "\b"
  else if Nat.eqb n 12 then "\f"
  else if Nat.eqb n 10 then "\n"
  else if Nat.eqb n 13 then "\r"
  else if Nat.eqb n 9 then "\t"
  else if (Nat.leb 32 n && Nat.leb n 126)%bool then String c ""
  else "\u00" ++ String (hex (n / 16)) (String (hex (n mod 16)) "").
Fixpoint escaped (s : string) : string := match s with EmptyString => "" | String c r => escape c ++ escaped r end.
Definition quote (s : string) : string := """" ++ escaped s ++ """".

(** ** Values *)
(** int.__repr__ *)
Definition int_text (z : Z) : string := if (z <? 0)%Z then "-" ++ dec (- z) else dec z.
(** '\n' + ' ' * (4 * level) *)
Definition newline (level : nat) : string := String nl (spaces (4 * level)).

Section Text.
Variable repr : Q -> string.

Fixpoint text (level : nat) (v : pyval) {struct v} : res string :=
  match v with
  | PNone => Ok "null"
  | PBool true => Ok "true"
  | PBool false => Ok "false"
  | PInt z => Ok (int_text z)
  | PFlt (Some q) => Ok (repr q)
  | PFlt None => Ok "NaN"
  | PStr s => Ok (quote s)
  | PPath _ => Err TypeError
  | PList l =>
    let? parts := (fix go l := match l with
      | [] => Ok []
      | x :: l' => let? t := text (S level) x in let? ts := go l' in Ok (t :: ts)
      end) l in
    match parts with
    | [] => Ok "[]"
    | _ => Ok ("[" ++ newline (S level) ++ String.concat ("," ++ newline (S level)) parts ++ newline level ++ "]")
    end
  | PDict d =>
    let? parts := (fix go d := match d with
      | [] => Ok []
      | kx :: d' => let? t := text (S level) (snd kx) in let? ts := go d' in Ok ((quote (fst kx) ++ ": " ++ t) :: ts)
      end) d in
    match parts with
    | [] => Ok "{}"
    | _ => Ok ("{" ++ newline (S level) ++ String.concat ("," ++ newline (S level)) parts ++ newline level ++ "}")
    end
  end.
Definition dump_pretty_json (v : pyval) : res string := text 0 v.

(** [_save_glob_results] (fileio/native/results.py:69-88) *)
Definition save_glob_results (aero refs forces coeffs : dict pyval) : res string :=
  dump_pretty_json (PDict [("aero", PDict aero); ("refs", PDict refs); ("global_forces", PDict forces); ("global_coeffs", PDict coeffs)]).

(** [list(v) if v is not None else []] (results.py:186) *)
Definition list_of (v : pyval) : res pyval :=
  match v with
  | PNone => Ok (PList [])
  | PList l => Ok (PList l)
  | PDict d => Ok (PList (map (fun kx => PStr (fst kx)) d))
  | PStr s => Ok (PList (map (fun c => PStr (String c "")) (list_ascii_of_string s)))
  | _ => Err TypeError
  end.
(** The loop of [save_aeroperformance_map] (183-186) over one dictionary. *)
Fixpoint put_columns (output : dict pyval) (d : dict pyval) : res (dict pyval) :=
  match d with
  | [] => Ok output
  | (k, v) :: d' => let? l := list_of v in put_columns (dset output k l) d'
  end.
(** [save_aeroperformance_map] (170-189) *)
Definition save_aeroperformance_map (aero results : dict pyval) : res string :=
  let? o1 := put_columns [] aero in
  let? o2 := put_columns o1 results in
  dump_pretty_json (PDict o2).
End Text.
