(** C101: the compiled functions address the intended cells. *)
From Coq Require Import List ZArith Lia.
From Verif Require Import LatticeModel LatticeSpec IntModel IntSpec IntProofs IntRunModel IntRunProofs.
Import ListNotations.
Open Scope Z_scope.

(** The influence matrix, up to 46340 panels. *)
Theorem C101_matrix_partial (A : Type) (val : Z -> Z -> A) n m : 0 <= n <= MATRIX_LIMIT ->
  exists m', downwash_stores val n m = Some m' /\ matrix_stored val n m m'.
Proof. exact (downwash_stores_ok val n m). Qed.
Print Assumptions C101_matrix_partial.

(** Not for more. *)
Theorem C101_matrix_refuted : exists n (val : Z -> Z -> Z) m, 0 <= n /\
  ~ exists m', downwash_stores val n m = Some m' /\ matrix_stored val n m m'.
Proof. exact matrix_not_stored. Qed.
Print Assumptions C101_matrix_refuted.

(** For every larger number a value is stored 2^31 cells before the matrix; from 2^31 on the function
    has no defined behaviour at all. *)
Theorem C101_matrix_overrun (A : Type) (val : Z -> Z -> A) n m : MATRIX_LIMIT < n <= INT_MAX ->
  exists m' i j, downwash_stores val n m = Some m' /\ 0 <= i < n /\ 0 <= j < n /\ m' (-2147483648) = val i j.
Proof. exact (downwash_overrun val n m). Qed.
Print Assumptions C101_matrix_overrun.

Theorem C101_counter_undefined (A : Type) (val : Z -> Z -> A) n m : INT_MAX < n -> downwash_stores val n m = None.
Proof. exact (downwash_undefined val n m). Qed.
Print Assumptions C101_counter_undefined.

(** The other arrays, up to 178956970 panels. *)
Theorem C101_reads_partial i j : 0 <= i < LATTICE_LIMIT -> 0 <= j < LATTICE_LIMIT ->
  cells_of_two i j (downwash_reads i j) /\ cells_of i (boundary_reads i) /\ cells_of_two i j (results_reads i j).
Proof.
  intros I J. split; [exact (downwash_reads_ok i j I J)|]. split; [exact (boundary_reads_ok i I)|exact (results_reads_ok i j I J)].
Qed.
Print Assumptions C101_reads_partial.

Theorem C101_lattice_partial start c i j : 0 <= start -> 0 <= i < c -> 0 <= j -> start + (j * c + i) < LATTICE_LIMIT ->
  cells_of (start + (j * c + i)) (lattice_writes start c i j) /\ whole_row (start + (j * c + i)) (lattice_writes start c i j).
Proof. exact (lattice_writes_ok start c i j). Qed.
Print Assumptions C101_lattice_partial.

(** The first panel of each subarea follows the last one of the subareas before. *)
Theorem C101_starts_partial pan : (forall s c, In (s, c) pan -> 1 <= s /\ 1 <= c) ->
  zsum (map (fun p => fst p * snd p) pan) <= LATTICE_LIMIT ->
  exists l, lattice_starts 0 pan = Some l /\ List.length l = List.length pan /\
    forall k s c, nth_error pan k = Some (s, c) -> nth_error l k = Some (zsum (map (fun p => fst p * snd p) (firstn k pan))).
Proof. exact (lattice_starts_ok pan 0 (Z.le_refl 0)). Qed.
Print Assumptions C101_starts_partial.

(** A whole run of vlm_lattice, loop counters and reading of the subarea corners included: up to
    178956970 panels it accesses exactly the cells that C10 is about, in the same order; beyond, it
    computes an index that overflows. *)
Theorem C101_lattice_run : forall sym pan, (forall s c, In (s, c) pan -> 1 <= s /\ 1 <= c) ->
  (made sym 0 pan <= LATTICE_LIMIT -> int_lattice sym pan = Some (vlm_lattice_accesses sym pan)) /\
  (LATTICE_LIMIT < made sym 0 pan -> (forall s c, In (s, c) pan -> s <= INT_MAX /\ c <= INT_MAX) -> int_lattice sym pan = None).
Proof.
  intros sym pan H. split; [exact (int_lattice_ok sym pan H)|]. intros L M. apply int_lattice_over; [|exact L].
  intros s c I. destruct (H s c I), (M s c I). auto.
Qed.
Print Assumptions C101_lattice_run.

(** Whole runs of the functions that read the lattice: below their limits all cells read belong to
    the n panels; above, an index overflows. *)
Theorem C101_runs : forall n, 0 <= n ->
  (n <= LATTICE_LIMIT -> exists l, int_downwash n = Some l /\ Forall (fun x => of_panels n (fst x) (snd x)) l) /\
  (n <= LATTICE_LIMIT -> exists l, int_results n = Some l /\ Forall (fun x => of_panels n (fst x) (snd x)) l) /\
  (n <= BOUNDARY_LIMIT -> exists l, int_boundary n = Some l /\ Forall (fun x => of_panels n (fst x) (snd x)) l) /\
  (LATTICE_LIMIT < n -> int_downwash n = None /\ int_results n = None) /\
  (BOUNDARY_LIMIT < n -> int_boundary n = None).
Proof.
  exact (fun n N => conj (fun L => proj1 (int_runs_ok n (conj N L))) (conj (fun L => proj2 (int_runs_ok n (conj N L)))
    (conj (fun L => int_boundary_ok n (conj N L)) (conj (int_runs_over n) (int_boundary_over n))))).
Qed.
Print Assumptions C101_runs.

Example C101_matrix_example : downwash_stores (fun i j => i + j) 2 (fun _ => -7) <> None /\
  (forall a, In a [0; 1; 2; 3; 4; -1] -> match downwash_stores (fun i j => i + j) 2 (fun _ => -7) with
    | Some m => m a = match a with 0 => 0 | 1 => 1 | 2 => 1 | 3 => 2 | _ => -7 end | None => False end).
Proof. split; [vm_compute; discriminate|]. intros a [<-|[<-|[<-|[<-|[<-|[<-|[]]]]]]]; vm_compute; reflexivity. Qed.
(** 46341 panels: the indices of the last row. *)
Example C101_matrix_large : MATRIX_LIMIT < 46341 <= INT_MAX /\
  index_ij 46341 46340 4707 = Some 2147446647 /\ index_ij 46341 46340 46340 = Some (-2147479016).
Proof. split; [vm_compute; intuition discriminate|]. split; vm_compute; reflexivity. Qed.
Example C101_lattice_example : lattice_starts 0 [(10, 4); (6, 5); (2, 3)] = Some [0; 40; 70] /\
  cells_of 47 (lattice_writes 40 5 2 1) /\ whole_row 47 (lattice_writes 40 5 2 1).
Proof. split; [vm_compute; reflexivity|]. apply (lattice_writes_ok 40 5 2 1); vm_compute; intuition discriminate. Qed.
Example C101_run_example : let pan := [(2, 3); (1, 4)] in (forall s c, In (s, c) pan -> 1 <= s /\ 1 <= c) /\
  made (fun i => i) 0 pan = 14 /\ made (fun i => i) 0 pan <= LATTICE_LIMIT /\ option_map (@List.length _) (int_boundary 3) = Some 18%nat /\
  LATTICE_LIMIT < made (fun _ => 0) 0 [(178956971, 1)] /\ 178956971 <= INT_MAX.
Proof.
  cbv zeta. split; [intros s c [E|[E|[]]]; injection E as <- <-; lia|]. repeat split; vm_compute; try reflexivity; discriminate.
Qed.
