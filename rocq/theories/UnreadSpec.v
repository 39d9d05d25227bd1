(** Specification for analyses with reference values that C cannot read (C112). *)
From Coq Require Import Reals List String.
From Verif Require Import PyBase PyVal AnalysisModel AnalysisSpec.
Import ListNotations.
Open Scope string_scope.

(** A reference length or area that is missing or is not a float (an integer, for example). *)
Definition unread (refs : dict pyval) : Prop :=
  exists k, In k ["area"; "span"; "chord"] /\ forall x, dget refs k <> Some (PFlt x).

(** Results without any load: only the circulation may differ from zero. *)
Definition no_loads (forces coeffs : string -> option R) : Prop :=
  forall k, In k ["x"; "y"; "z"; "D"; "C"; "L"; "l"; "m"; "n"] -> forces k = Some 0%R /\ coeffs k = Some 0%R.
Definition zero_row (row : list (option R)) : Prop := exists g, row = g :: repeat (Some 0%R) 9.
(** An equation with right-hand side zero. *)
Definition zero_equation (row : list (option R)) : Prop := exists a, equation row a 0%R.
