(** Python values as they occur in settings and aircraft dictionaries, and JSON.  Used by
    [SettingsModel], [ControlModel] and [AircraftIOModel].

    - integers are [Z]; floats are exact rationals, [None] stands for NaN and the infinities;
    - a dictionary is an association list in insertion order;
    - a numpy vector of floats is a list of floats (that is how [NDArrayEncoder],
      fileio/utils.py:34-46, writes it);
    - [PPath] is a [pathlib.Path], which [json.dump] cannot write. *)
From Coq Require Import List String ZArith QArith Bool.
From Verif Require Import PyBase.
Import ListNotations.

Inductive pyval : Type :=
| PNone
| PBool (b : bool)
| PInt (z : Z)
| PFlt (x : option Q)
| PStr (s : string)
| PPath (s : string)
| PList (l : list pyval)
| PDict (d : list (string * pyval)).

(** [v[k]] with a string key: only dictionaries have them. *)
Definition getitem (v : pyval) (k : string) : res pyval :=
  match v with
  | PDict d => match dget d k with Some x => Ok x | None => Err KeyError end
  | _ => Err TypeError
  end.

(** Truth value of an object: [bool(v)]. *)
Definition truthy (v : pyval) : bool :=
  match v with
  | PNone => false
  | PBool b => b
  | PInt z => negb (Z.eqb z 0)
  | PFlt (Some q) => negb (Qeqb q 0)
  | PFlt None => true
  | PStr s => negb (String.eqb s "")
  | PPath _ => true
  | PList l => match l with [] => false | _ => true end
  | PDict d => match d with [] => false | _ => true end
  end.

(** [s.startswith(p)] *)
Definition startswith (p s : string) : bool := String.prefix p s.

(** [json.dump] followed by [json.load] (external): values that JSON can express come back
    unchanged, a [Path] is a TypeError.  NaN and infinities are written in Python's extended
    syntax and are read back. *)
Fixpoint jsonable (v : pyval) : bool :=
  match v with
  | PPath _ => false
  | PList l => (fix go l := match l with [] => true | x :: l' => jsonable x && go l' end) l
  | PDict d => (fix go d := match d with [] => true | kx :: d' => jsonable (snd kx) && go d' end) d
  | _ => true
  end.
Definition dump (v : pyval) : res pyval := if jsonable v then Ok v else Err TypeError.

(** Induction over values with all elements of lists and dictionaries as hypotheses. *)
Section Ind.
Variable P : pyval -> Prop.
Hypothesis H0 : P PNone.
Hypothesis H1 : forall b, P (PBool b).
Hypothesis H2 : forall z, P (PInt z).
Hypothesis H3 : forall x, P (PFlt x).
Hypothesis H4 : forall s, P (PStr s).
Hypothesis H5 : forall s, P (PPath s).
Hypothesis H6 : forall l, Forall P l -> P (PList l).
Hypothesis H7 : forall d, Forall (fun kx => P (snd kx)) d -> P (PDict d).
Fixpoint pyval_rect_nested (v : pyval) : P v :=
  match v with
  | PNone => H0 | PBool b => H1 b | PInt z => H2 z | PFlt x => H3 x | PStr s => H4 s | PPath s => H5 s
  | PList l => H6 l ((fix go l : Forall P l := match l with [] => Forall_nil _ | x :: l' => Forall_cons x (pyval_rect_nested x) (go l') end) l)
  | PDict d => H7 d ((fix go d : Forall (fun kx => P (snd kx)) d :=
      match d with [] => Forall_nil _ | kx :: d' => Forall_cons kx (pyval_rect_nested (snd kx)) (go d') end) d)
  end.
End Ind.
