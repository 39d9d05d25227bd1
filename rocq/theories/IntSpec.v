(** What correct addressing means. *)
From Coq Require Import List ZArith.
From Verif Require Import LatticeModel.
Import ListNotations.
Open Scope Z_scope.

(** The largest numbers of panels for which the indices of the matrix and of the corner points are
    [int]s: 46340^2 and 178956970 * 12 are just below 2^31. *)
Definition MATRIX_LIMIT : Z := 46340.
Definition LATTICE_LIMIT : Z := 178956970.

(** Afterwards an array of n rows and n columns at address 0 holds the values row by row, and nothing
    else has changed. *)
Definition matrix_stored {A} (val : Z -> Z -> A) (n : Z) (m m' : Z -> A) : Prop :=
  (forall i j, 0 <= i < n -> 0 <= j < n -> m' (i * n + j) = val i j) /\
  (forall a, ~ (0 <= a < n * n) -> m' a = m a).

(** Row lengths of the lattice arrays, coordinates of panel [p]: P and V have four points of three
    coordinates, C, N and the bound leg midpoints have three, A has one. *)
Definition row_width (a : arr) : Z := match a with AP | AV => 12 | AC | ABLM | AN => 3 | _ => 1 end.
Definition cell_of (p : Z) (a : arr) (k : Z) : Prop := row_width a * p <= k < row_width a * p + row_width a.
Definition cells_of (p : Z) (l : list (option (arr * Z))) : Prop :=
  forall x, In x l -> exists a k, x = Some (a, k) /\ cell_of p a k.
Definition cells_of_two (p q : Z) (l : list (option (arr * Z))) : Prop :=
  forall x, In x l -> exists a k, x = Some (a, k) /\ (cell_of p a k \/ cell_of q a k).
(** Every cell of the row of panel [p] is in the list. *)
Definition whole_row (p : Z) (l : list (option (arr * Z))) : Prop :=
  forall a k, In a [AP; AV; AC; ABLM; AN; AA] -> cell_of p a k -> In (Some (a, k)) l.

(** The largest number of panels for which the indices of points with three coordinates are [int]s. *)
Definition BOUNDARY_LIMIT : Z := 715827882.
(** A cell of one of n panels. *)
Definition of_panels (n : Z) (a : arr) (k : Z) : Prop := exists p, 0 <= p < n /\ cell_of p a k.
(** Number of panels of subareas with (spanwise, chordwise) numbers [pan] and symmetry flags
    [sym seg], [sym (seg + 1)], ...: a positive flag asks for the mirrored panels too. *)
Fixpoint made (sym : Z -> Z) (seg : Z) (pan : list (Z * Z)) : Z :=
  match pan with
  | [] => 0
  | (s, c) :: pan' => (if 0 <? sym seg then 2 * (s * c) else s * c) + made sym (seg + 1) pan'
  end.
