(** Specifications for deformed wings (C65, C66, C67). *)
From Coq Require Import Reals ZArith.
From Verif Require Import PyBase Vec PanelModel GeomModel GeomSpec DeformGeomModel.
Open Scope R_scope.

(** The displacement of one side; no field means no displacement. *)
Definition moves (f : fields) (mirror : bool) (p : vec) : vec :=
  match (if mirror then f_mirror f else f_field f) with None => p | Some g => g p end.
Definition at_rest (f : fields) (mirror : bool) : Prop := forall p, moves f mirror p = p.
(** Both sides move as mirror images of each other. *)
Definition symmetric (f : fields) (p : plane) : Prop := forall v, moves f true (refl p v) = refl p (moves f false v).

(** Common side edge and common front or rear edge of two quadrilaterals. *)
Definition meet_spanwise (q1 q2 : quad) : Prop :=
  (qb q1 = qa q2 /\ qc q1 = qd q2) \/ (qa q1 = qb q2 /\ qd q1 = qc q2).
Definition meet_chordwise (q1 q2 : quad) : Prop :=
  (qd q1 = qa q2 /\ qc q1 = qb q2) \/ (qa q1 = qd q2 /\ qb q1 = qc q2).
