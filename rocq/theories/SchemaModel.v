(** Model of [schemadict.validate] (external library, not part of /repo), as far as the schemas of
    objects/aircraft.py use it.

    What is assumed about the library:
    - a missing required key, a value of a wrong type and a value out of range are all reported
      (as [SchemaError], whatever the class), nothing else is, and nothing is changed;
    - keys without a rule are ignored, so are rules without a key;
    - NaN and infinities violate every range.
    Two points are left open as parameters: whether None passes every rule ([none_ok]; the files
    in /repo/tests need this), and whether an integer passes for a float ([int_ok]). *)
From Coq Require Import List String ZArith QArith Bool.
From Verif Require Import PyBase PyVal.
Import ListNotations.

(** Value of a number; [Some None] is NaN or infinite. *)
Definition number_of (v : pyval) : option (option Q) :=
  match v with
  | PBool b => Some (Some (if b then 1 else 0)%Q)
  | PInt z => Some (Some (inject_Z z))
  | PFlt x => Some x
  | _ => None
  end.

(** [isinstance(v, (int, float))] *)
Definition is_num (v : pyval) : bool := match number_of v with Some _ => true | None => false end.

Section Schema.
Variable none_ok int_ok : bool.

Definition rule := pyval -> bool.

(** 'type': str *)
Definition r_str : rule := fun v => match v with PStr _ => true | _ => false end.
(** 'type': int, '>': 0 *)
Definition r_int_pos : rule :=
  fun v => match v with PInt z => Z.ltb 0 z | PBool b => b | _ => false end.
(** 'type': float *)
Definition r_float : rule :=
  fun v => match v with PFlt _ => true | PInt _ | PBool _ => int_ok | _ => false end.
(** 'type': float, '>=': lo, '<=': hi *)
Definition r_float_in (lo hi : Q) : rule :=
  fun v => r_float v && match number_of v with Some (Some q) => Qleb lo q && Qleb q hi | _ => false end.
(** 'type': float, '>': 0 *)
Definition r_float_pos : rule :=
  fun v => r_float v && match number_of v with Some (Some q) => Qltb 0 q | _ => false end.
(** aircraft.py:71, [SCHEMA_ARRAY_XYZ] *)
Definition r_xyz : rule :=
  fun v => match v with PList l => Nat.eqb (List.length l) 3 && forallb is_num l | _ => false end.

Definition passes (r : rule) (v : pyval) : bool :=
  match v with PNone => none_ok | _ => r v end.

Definition schema := list (string * rule).

Definition validate (required : list string) (s : schema) (d : dict pyval) : res unit :=
  if forallb (dmem d) required &&
     forallb (fun kr => match dget d (fst kr) with Some v => passes (snd kr) v | None => true end) s
  then Ok tt else Err SchemaError.
End Schema.
