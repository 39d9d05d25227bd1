(** Model of [save_aeroperformance_map] (fileio/cpacs/results.py:38-64) and of the functions it uses
    (fileio/cpacs/utils.py:51-111, 206-246).

    Simplifications: an XML document is a map from paths to the words of the element at this path;
    the functions of tixi (external) are [check_element], [update_vector], [add_vector_at] below: an
    update needs the element, adding needs the parent and creates the child; any tixi error is
    [LibError]; the number format "%g" is the function [fmt]; a path denotes at most one element. *)
From Coq Require Import List String Ascii QArith Bool.
From Verif Require Import PyBase AircraftIOModel.
Import ListNotations.
Open Scope string_scope.

(** Words of the elements; number of children; attribute uID; path of the element with a uID. *)
Record xdoc := mkX { x_text : string -> option (list string); x_children : string -> nat;
                     x_uid : string -> option string; x_where : string -> option string }.

(** 56-65 *)
Definition MODEL := "/cpacs/vehicles/aircraft/model".
Definition APMAP := MODEL ++ "/analyses/aeroPerformance".
Definition TOOLSPEC := "/cpacs/toolspecific/pytornado".

Definition of_option {A} (o : option A) : res A := match o with Some x => Ok x | None => Err LibError end.
(** [getTextElement]: the words joined by blanks. *)
Definition get_text (d : xdoc) (p : string) : res string :=
  let? l := of_option (x_text d p) in Ok (String.concat " " l).

(** [_get_uid_apm] (90-111), [APM] (75-88). *)
Definition get_uid_apm (d : xdoc) : res string :=
  if Nat.eqb (x_children d APMAP) 1 then of_option (x_uid d (APMAP ++ "/aeroMap"))
  else get_text d (TOOLSPEC ++ "/aeroMapUID").
Definition APM (d : xdoc) : res string :=
  let? uid := get_uid_apm d in
  let? p := of_option (x_where d uid) in
  Ok (p ++ "/aeroPerformanceMap").

Section Save.
Variable fmt : Q -> string.

Definition set_text (d : xdoc) (p : string) (v : list string) : xdoc :=
  mkX (fun q => if String.eqb q p then Some v else x_text d q) (x_children d) (x_uid d) (x_where d).

Definition check_element (d : xdoc) (p : string) : bool := match x_text d p with Some _ => true | None => false end.
Definition update_vector (d : xdoc) (p : string) (v : list Q) : xdoc * res unit :=
  if check_element d p then (set_text d p (map fmt v), Ok tt) else (d, Err LibError).
Definition add_vector_at (d : xdoc) (parent child : string) (v : list Q) : xdoc * res unit :=
  if check_element d parent then (set_text d (parent ++ "/" ++ child) (map fmt v), Ok tt) else (d, Err LibError).

(** [s[:-n]] *)
Definition drop_last (n : nat) (s : string) : string := substring 0 (String.length s - n) s.

(** [add_vector] (206-230); [xpath.split("/")[-1]] is the part after the last slash. *)
Definition add_vector (d : xdoc) (xpath : string) (v : list Q) : xdoc * res unit :=
  let xpath := if ends_slash xpath then drop_last 1 xpath else xpath in
  let child := basename xpath in
  let parent := drop_last (String.length child + 1) xpath in
  if check_element d xpath then update_vector d xpath v else add_vector_at d parent child v.

(** results.py:52-59; a set, so the order of the loop is not determined. *)
Definition cpacs_mappings : list (string * string) :=
  [("cl", "CL"); ("cd", "CD"); ("cs", "CC"); ("cmd", "Cl"); ("cms", "Cm"); ("cml", "Cn")].

(** 61-64 for the mappings in the order [l]; the document is saved after any outcome
    ([modify_cpacs], utils.py:234-246). *)
Fixpoint save_loop (l : list (string * string)) (d : xdoc) (results : dict (list Q)) : xdoc * res unit :=
  match l with
  | [] => (d, Ok tt)
  | (key_cpacs, key_native) :: l' =>
    match APM d with
    | Err e => (d, Err e)
    | Ok apm =>
      match dget results key_native with
      | None => (d, Err KeyError)
      | Some v => let '(d', r) := add_vector d (apm ++ "/" ++ key_cpacs) v in
                  match r with Ok _ => save_loop l' d' results | Err e => (d', Err e) end
      end
    end
  end.
End Save.
