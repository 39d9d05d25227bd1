(** C124: what the compiled functions check of the Python objects they are given. *)
From Coq Require Import List ZArith String Lia.
From Verif Require Import RefModel RefSpec RefExample NeedSpec NeedProofs.
Import ListNotations.
Open Scope Z_scope.

(** If the attributes that are used as dictionaries are dictionaries, a call succeeds exactly if every attribute
    and entry it needs is there and of the right kind; otherwise it ends with an error code.  It adds no entries
    and takes none away. *)
Theorem C124_checked lattice state data c w : closed w -> dictionaries lattice state data w ->
  exists w' r, perform lattice state data c w = (w', r) /\ r <> inr Undefined /\ entries w' = entries w /\
    (r = inl tt <-> Forall (there w) (needs lattice state data c)).
Proof. intros C D. exact (call_checked w C lattice state data D c). Qed.
Print Assumptions C124_checked.

(** That they are dictionaries is not checked. *)
Definition without_info : pyworld :=
  mkPW (firstn 6 (objs ex_world) ++ (KOther, count_of (objs ex_world) 6) :: skipn 7 (objs ex_world)) (attrs ex_world) (items ex_world).
Theorem C124_unchecked_refuted : exists lattice state data w, closed w /\
  forall c, Forall (there w) (needs lattice state data c) /\ snd (perform lattice state data c w) = inr Undefined.
Proof.
  exists 0, 1, 2, without_info. split.
  - intros s H. destruct (ex_closed s H) as [A B]. split; [exact A|]. exact B.
  - intros c. split; [|destruct c; vm_compute; reflexivity].
    destruct c; repeat constructor; cbn [there]; repeat (eexists; try (split; [vm_compute; reflexivity|])); vm_compute; reflexivity || exact I.
Qed.
Print Assumptions C124_unchecked_refuted.

(** A complete set of objects, and one without the entry 'rate_Q'. *)
Definition without_rate : pyworld := mkPW (objs ex_world) (attrs ex_world) (filter (fun s => negb (String.eqb (snd (fst s)) "rate_Q")) (items ex_world)).
Example C124_example : closed ex_world /\ dictionaries 0 1 2 ex_world /\ (forall c, Forall (there ex_world) (needs 0 1 2 c)) /\
  dictionaries 0 1 2 without_rate /\ snd (perform 0 1 2 CLattice without_rate) = inr ERR_KEY /\ snd (perform 0 1 2 CDownwash without_rate) = inl tt.
Proof.
  assert (D : dictionaries 0 1 2 ex_world).
  { intros x n d H L. cbn in H. decompose [or] H; try tauto; match goal with E : (_, _) = (x, n) |- _ => injection E as <- <- end; vm_compute in L; injection L as <-; reflexivity. }
  split; [exact ex_closed|]. split; [exact D|]. split; [|split; [exact D|split; vm_compute; reflexivity]].
  intros c. destruct (C124_checked 0 1 2 c ex_world ex_closed D) as (w' & r & P & _ & _ & R). apply R.
  replace r with (snd (perform 0 1 2 c ex_world)) by (rewrite P; reflexivity). destruct c; vm_compute; reflexivity.
Qed.
