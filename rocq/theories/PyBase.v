(** Common vocabulary of the models: Python exceptions as values and
    insertion-ordered dictionaries.  No proofs here (see [PyFacts.v]). *)
From Coq Require Import List String ZArith QArith Bool.
Import ListNotations.

(** Exception classes raised by the modelled code.  Only the class is kept;
    messages are dropped. *)
Inductive exn : Type :=
| ValueError | TypeError | KeyError | IndexError | AttributeError
| RuntimeError | ZeroDivisionError | UnboundLocalError
| ComponentDefinitionError   (* src/lib/pytornado/objects/aircraft.py:79 *)
| IOError | FileNotFoundError | SystemExit
| SchemaError                (* raised by the schemadict library *)
| LibError.                  (* any exception of another external library *)

(** Result of a call: a value or an exception. *)
Inductive res (A : Type) : Type :=
| Ok (a : A)
| Err (e : exn).
Arguments Ok {A} a.
Arguments Err {A} e.

Definition bind {A B} (x : res A) (f : A -> res B) : res B :=
  match x with Ok a => f a | Err e => Err e end.
Notation "'let?' x ':=' e 'in' k" := (bind e (fun x => k))
  (at level 200, x pattern, e at level 100, k at level 200).

Definition is_ok {A} (x : res A) : bool :=
  match x with Ok _ => true | Err _ => false end.

(** Python [dict]/[OrderedDict] with string keys: association list in
    insertion order.  [dset] keeps the place of an existing key, as Python
    does; [ddel] removes a key. *)
Definition dict (V : Type) := list (string * V).

Fixpoint dget {V} (d : dict V) (k : string) : option V :=
  match d with
  | [] => None
  | (k', v) :: d' => if String.eqb k k' then Some v else dget d' k
  end.

Fixpoint dset {V} (d : dict V) (k : string) (v : V) : dict V :=
  match d with
  | [] => [(k, v)]
  | (k', v') :: d' => if String.eqb k k' then (k', v) :: d' else (k', v') :: dset d' k v
  end.

Fixpoint ddel {V} (d : dict V) (k : string) : dict V :=
  match d with
  | [] => []
  | (k', v') :: d' => if String.eqb k k' then d' else (k', v') :: ddel d' k
  end.

Definition dkeys {V} (d : dict V) : list string := map fst d.
Definition dvalues {V} (d : dict V) : list V := map snd d.
Definition dmem {V} (d : dict V) (k : string) : bool :=
  match dget d k with Some _ => true | None => false end.

(** [d.update(u)] / [for k, v in u.items(): d[k] = v]. *)
Definition dupdate {V} (d u : dict V) : dict V :=
  fold_left (fun acc kv => dset acc (fst kv) (snd kv)) u d.

(** Replace the element at index [i] (an object reached through a reference
    is updated in place). *)
Fixpoint set_nth {A} (l : list A) (i : nat) (x : A) : list A :=
  match l, i with
  | [], _ => []
  | _ :: l', O => x :: l'
  | y :: l', S i' => y :: set_nth l' i' x
  end.

(** Comparisons of rationals as booleans. *)
Definition Qleb (x y : Q) : bool := Qle_bool x y.
Definition Qltb (x y : Q) : bool := negb (Qle_bool y x).
Definition Qeqb (x y : Q) : bool := Qeq_bool x y.
