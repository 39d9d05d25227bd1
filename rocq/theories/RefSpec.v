(** What balanced reference counts mean. *)
From Coq Require Import List ZArith String.
From Verif Require Import RefModel.
Import ListNotations.
Open Scope Z_scope.

(** References to object [o] held by containers, and all the others. *)
Definition held (l : slots) (o : Z) : Z := Z.of_nat (List.length (filter (fun s => snd s =? o) l)).
Definition contained (w : pyworld) (o : Z) : Z := held (attrs w) o + held (items w) o.
Definition elsewhere (w : pyworld) (o : Z) : Z := count_of (objs w) o - contained w o.

Definition exists_in (w : pyworld) (o : Z) : Prop := 0 <= o < Z.of_nat (List.length (objs w)).
(** Every slot refers to an existing object. *)
Definition closed (w : pyworld) : Prop :=
  forall s, In s (attrs w) \/ In s (items w) -> exists_in w (snd s).

(** A function that keeps no reference: every object is referenced from outside the containers as often
    as before; new objects only by containers. *)
Definition balanced (w w' : pyworld) : Prop :=
  (forall o, exists_in w o -> elsewhere w' o = elsewhere w o) /\
  (forall o, exists_in w' o -> ~ exists_in w o -> elsewhere w' o = 0).
(** A function that at least gives away no reference that is not its own. *)
Definition nothing_lost (w w' : pyworld) : Prop :=
  (forall o, exists_in w o -> exists_in w' o /\ elsewhere w o <= elsewhere w' o) /\
  (forall o, exists_in w' o -> ~ exists_in w o -> 0 <= elsewhere w' o).

(** Removing one reference from a container (deleting an attribute or an item, or the container
    itself being cleared), any number of times. *)
Inductive dropped : pyworld -> pyworld -> Prop :=
| drop_none w : dropped w w
| drop_attr w w' o n v a b : attrs w = a ++ (o, n, v) :: b ->
    dropped (mkPW (add_count (objs w) v (-1)) (a ++ b) (items w)) w' -> dropped w w'
| drop_item w w' o n v a b : items w = a ++ (o, n, v) :: b ->
    dropped (mkPW (add_count (objs w) v (-1)) (attrs w) (a ++ b)) w' -> dropped w w'.

(** How often object [o] is found among the attributes of a list. *)
Fixpoint tally (s : slots) (l : list (Z * string)) (o : Z) : Z :=
  match l with
  | [] => 0
  | (x, n) :: l' => (match lookup s x n with Some v => if v =? o then 1 else 0 | None => 0 end) + tally s l' o
  end.
(** The references a successful call keeps: of each attribute listed, one. *)
Definition lattice_kept (x : Z) : list (Z * string) :=
  map (pair x) ["p"; "p"; "v"; "v"; "c"; "c"; "bound_leg_midpoints"; "bound_leg_midpoints"; "n"; "n"; "a"; "a"; "epsilon"; "epsilon"; "info"]%string.
Definition kept (lattice state data : Z) (c : call) : list (Z * string) :=
  match c with
  | CLattice => lattice_kept lattice ++ [(state, "aero"); (lattice, "info")]%string
  | CDownwash => lattice_kept lattice
  | CBoundary => lattice_kept lattice ++ [(state, "aero"); (state, "refs")]%string
  | CResults => lattice_kept lattice ++ [(state, "aero"); (state, "refs"); (data, "panelwise"); (data, "forces"); (data, "coeffs")]%string
  end.
(** Objects it makes and never releases. *)
Definition made (c : call) : Z := match c with CLattice => 21 | CDownwash => 2 | CBoundary => 14 | CResults => 60 end.
(** A run of calls, all successful. *)
Inductive calls (lattice state data : Z) : list call -> pyworld -> pyworld -> Prop :=
| calls_nil w : calls lattice state data [] w w
| calls_cons c l w w1 w2 : perform lattice state data c w = (w1, inl tt) -> calls lattice state data l w1 w2 ->
    calls lattice state data (c :: l) w w2.
