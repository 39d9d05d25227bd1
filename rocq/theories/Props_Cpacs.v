(** Property theorems: results in a CPACS file (C49). *)
From Coq Require Import List String QArith Permutation.
From Verif Require Import PyBase CpacsModel CpacsSpec CpacsProofs.
Import ListNotations.
Open Scope string_scope.

(** C49: whatever order the six mappings are processed in, and whatever the document held before,
    each field of the selected performance map holds the coefficients of its name, in the order of
    the states, and nothing else is changed.  Without a performance map the document stays as it
    is and there is a TIXI error, or a KeyError if a coefficient is missing.  [fmt] is the number format "%g". *)
Theorem C49_results : forall fmt l d results, Permutation l cpacs_mappings ->
  (forall p, (forall k n, field_of k n -> exists v, dget results n = Some v) -> map_at d p -> x_text d p <> None ->
     exists d', save_loop fmt l d results = (d', Ok tt) /\ holds fmt results d d' p) /\
  ((forall p, ~ map_at d p) -> save_loop fmt l d results = (d, Err LibError)) /\
  (forall p, map_at d p -> x_text d p = None -> (forall q, field_path p q -> x_text d q = None) ->
     exists e, save_loop fmt l d results = (d, Err e) /\ (e = LibError \/ e = KeyError /\ exists k n, field_of k n /\ dget results n = None)).
Proof.
  intros fmt l d results PM. split; [intros p R A P; exact (saved fmt l d results p PM R A P)|]. split; [exact (no_map fmt l d results PM)|].
  intros p A P N. exact (empty_map fmt l d results p PM A P N).
Qed.
Print Assumptions C49_results.
Definition ex_results : dict (list Q) :=
  [("CL", [1; 2]%Q); ("CD", [3; 4]%Q); ("CC", [0; 0]%Q); ("Cl", [5; 6]%Q); ("Cm", [7; 8]%Q); ("Cn", [9; 10]%Q)].
Definition ex_doc : xdoc :=
  mkX (fun q => if String.eqb q "/m[2]/aeroPerformanceMap" then Some [] else if String.eqb q "/m[2]/aeroPerformanceMap/cmd" then Some ["old"]
                else if String.eqb q "/cpacs/toolspecific/pytornado/aeroMapUID" then Some ["two"] else None)
      (fun _ => 2%nat) (fun _ => None) (fun u => if String.eqb u "two" then Some "/m[2]" else None).
Example C49_example : map_at ex_doc "/m[2]/aeroPerformanceMap" /\ x_text ex_doc "/m[2]/aeroPerformanceMap" <> None /\
  (forall k n, field_of k n -> exists v, dget ex_results n = Some v) /\
  x_text (fst (save_loop (fun q => if Qeq_bool q 5 then "5" else "?") (rev cpacs_mappings) ex_doc ex_results)) "/m[2]/aeroPerformanceMap/cmd" = Some ["5"; "?"].
Proof.
  split; [|split; [discriminate|split; [|reflexivity]]].
  - exists "two", "/m[2]". split; [reflexivity|]. split; [reflexivity|]. right. split; [discriminate|]. exists ["two"]. split; reflexivity.
  - intros k n []; eexists; reflexivity.
Qed.
