(** Model of the integer arithmetic in the compiled functions: aero/c_downwash.cpp,
    c_boundary.cpp, c_results.cpp and c_lattice.cpp compute array indices in [int], the number of
    panels is a [long int] (c_vlm.h, infostruct).

    Simplifications: [int] has 32 bits and [long int] 64 (LP64, as gcc and clang on Linux); a signed
    overflow is undefined behaviour ([None]); a [long] stored in an [int] keeps the low 32 bits
    (implementation-defined, gcc and clang). *)
From Coq Require Import List ZArith Bool.
From Verif Require Import LatticeModel.
Import ListNotations.
Open Scope Z_scope.

Definition INT_MAX : Z := 2147483647.
Definition LONG_MAX : Z := 9223372036854775807.

(** ** Expressions *)
Inductive cty := TInt | TLong.
Inductive cexp :=
  | CI (z : Z)                    (* variable or constant of type int *)
  | CL (z : Z)                    (* variable of type long int *)
  | CAdd (a b : cexp)
  | CMul (a b : cexp).

Definition ty_max (t : cty) : Z := match t with TInt => INT_MAX | TLong => LONG_MAX end.
Definition checked (t : cty) (z : Z) : option (cty * Z) :=
  if ((- ty_max t - 1 <=? z) && (z <=? ty_max t))%bool then Some (t, z) else None.

(** Usual arithmetic conversions: [long] if one operand is. *)
Definition join (s t : cty) : cty := match s, t with TInt, TInt => TInt | _, _ => TLong end.

Fixpoint ceval (e : cexp) : option (cty * Z) :=
  match e with
  | CI z => Some (TInt, z)
  | CL z => Some (TLong, z)
  | CAdd a b => match ceval a, ceval b with Some (s, x), Some (t, y) => checked (join s t) (x + y) | _, _ => None end
  | CMul a b => match ceval a, ceval b with Some (s, x), Some (t, y) => checked (join s t) (x * y) | _, _ => None end
  end.

(** [int v = e;] *)
Definition wrap32 (z : Z) : Z := (z + 2147483648) mod 4294967296 - 2147483648.
Definition assign_int (e : cexp) : option Z :=
  match ceval e with Some (_, z) => Some (wrap32 z) | None => None end.

(** Values of the counter in [for (int i = 0 ; i < num_pan ; ++i)]; the counter itself overflows
    if [num_pan] is larger than an [int] can be. *)
Definition counters (n : Z) : option (list Z) := if n <=? INT_MAX then Some (py_range 0 n) else None.

(** ** [vlm_downwash] (c_downwash.cpp) *)

(** 33, 40, 55, 56 *)
Definition index_i (i : Z) : option Z := assign_int (CMul (CI i) (CI NUM_COORD)).
Definition index_ij (num_pan i j : Z) : option Z := assign_int (CAdd (CMul (CI i) (CL num_pan)) (CI j)).
Definition index_leg (j k : Z) : option Z :=
  assign_int (CAdd (CMul (CMul (CI j) (CI NUM_V)) (CI NUM_COORD)) (CMul (CI k) (CI NUM_COORD))).
Definition index_leg2 (j k : Z) : option Z :=
  assign_int (CAdd (CMul (CMul (CI j) (CI NUM_V)) (CI NUM_COORD)) (CMul (CAdd (CI k) (CI 1)) (CI NUM_COORD))).

(** The stores [dw[index_ij] = ...] (91) in their order, on a memory that holds the matrix from
    address 0 on and other things around it; [val i j] is the value computed for panels i, j. *)
Section Store.
  Context {A : Type}.
  Variable val : Z -> Z -> A.
  Definition memory := Z -> A.
  Definition store (m : memory) (k : Z) (x : A) : memory := fun a => if a =? k then x else m a.

  Fixpoint store_row (n i : Z) (js : list Z) (m : memory) : option memory :=
    match js with
    | [] => Some m
    | j :: js' => match index_ij n i j with None => None | Some k => store_row n i js' (store m k (val i j)) end
    end.
  Fixpoint store_rows (n : Z) (is js : list Z) (m : memory) : option memory :=
    match is with
    | [] => Some m
    | i :: is' => match store_row n i js m with None => None | Some m' => store_rows n is' js m' end
    end.
  Definition downwash_stores (n : Z) (m : memory) : option memory :=
    match counters n with None => None | Some c => store_rows n c c m end.
End Store.

(** ** Reads in [vlm_downwash], [vlm_boundary] and [vlm_results] *)

(** All three coordinates at an index, [a[index + 2]] being evaluated in [int]. *)
Definition coords (a : arr) (e : option Z) : list (option (arr * Z)) :=
  map (fun d => match e with
    | None => None
    | Some k => match ceval (CAdd (CI k) (CI d)) with Some (_, z) => Some (a, z) | None => None end
    end) [0; 1; 2].

(** c_downwash.cpp 46-93 for panels i, j. *)
Definition downwash_reads (i j : Z) : list (option (arr * Z)) :=
  coords AC (index_i i) ++ coords AN (index_i i) ++
  flat_map (fun k => coords AV (index_leg j k) ++ coords AV (index_leg2 j k)) [0; 1; 2].
(** c_boundary.cpp 48-68 for panel i. *)
Definition boundary_reads (i : Z) : list (option (arr * Z)) := coords AC (index_i i) ++ coords AN (index_i i).
(** c_results.cpp 61-200 for panels i, j; 67, 68: ends of the bound leg. *)
Definition bound_end (i e : Z) : option Z :=
  assign_int (CAdd (CMul (CMul (CI i) (CI NUM_V)) (CI NUM_COORD)) (CMul (CI e) (CI NUM_COORD))).
Definition results_reads (i j : Z) : list (option (arr * Z)) :=
  coords ABLM (index_i i) ++ coords AV (bound_end i 1) ++ coords AV (bound_end i 2) ++ coords AN (index_i i) ++ [Some (AA, i)] ++
  flat_map (fun k => coords AV (index_leg j k) ++ coords AV (index_leg2 j k)) [0; 1; 2].

(** ** [vlm_lattice] (c_lattice.cpp) *)

(** Indices of the body of the panel loop (167-219, 287): [index_pan], first corner, other corners,
    vortex points, collocation point, area. *)
Definition lattice_index_pan (pan_c i j : Z) : option Z := assign_int (CAdd (CMul (CI j) (CI pan_c)) (CI i)).
Definition lattice_point (start index_pan e : Z) : option Z :=
  assign_int (CAdd (CMul (CMul (CAdd (CI start) (CI index_pan)) (CI NUM_P)) (CI NUM_COORD)) (CMul (CI e) (CI NUM_COORD))).
Definition lattice_index_N (start index_pan : Z) : option Z :=
  assign_int (CMul (CAdd (CI start) (CI index_pan)) (CI NUM_COORD)).
Definition lattice_index_A (start index_pan : Z) : option Z :=
  match ceval (CAdd (CI start) (CI index_pan)) with Some (_, z) => Some z | None => None end.
(** All cells written for panel (i, j). *)
Definition lattice_writes (start pan_c i j : Z) : list (option (arr * Z)) :=
  match lattice_index_pan pan_c i j with
  | None => [None]
  | Some p =>
    flat_map (fun e => coords AP (lattice_point start p e)) [0; 1; 2; 3] ++
    flat_map (fun e => coords AV (lattice_point start p e)) [0; 1; 2; 3] ++
    coords AC (lattice_index_N start p) ++ coords ABLM (lattice_index_N start p) ++ coords AN (lattice_index_N start p) ++
    [match lattice_index_A start p with Some k => Some (AA, k) | None => None end]
  end.
(** 72, 78-80, 290: [start_pan += pan_seg], with the numbers of panels read from a [long] array; one
    entry of the list for each pass, a subarea with symmetry having two. *)
Fixpoint lattice_starts (start : Z) (pan : list (Z * Z)) : option (list Z) :=
  match pan with
  | [] => Some []
  | (s, c) :: pan' =>
    match assign_int (CL s), assign_int (CL c) with
    | Some s', Some c' =>
      match assign_int (CMul (CI s') (CI c')) with
      | None => None
      | Some n =>
        match assign_int (CAdd (CI start) (CI n)) with
        | None => None
        | Some start' => match lattice_starts start' pan' with None => None | Some l => Some (start :: l) end
        end
      end
    | _, _ => None
    end
  end.
