(** C102: references of the Python objects given to the compiled functions. *)
From Coq Require Import List ZArith String Lia.
From Verif Require Import RefModel RefSpec RefProofs RefExample.
Import ListNotations.
Open Scope Z_scope.

(** No call, however it ends, gives away a reference that it does not own. *)
Theorem C102_nothing_lost_partial lattice state data c w w' r : closed w -> perform lattice state data c w = (w', r) ->
  closed w' /\ attrs w' = attrs w /\ nothing_lost w w'.
Proof. exact (never_lost lattice state data c w w' r). Qed.
Print Assumptions C102_nothing_lost_partial.

(** But calls keep references: not balanced. *)
Theorem C102_balanced_refuted : forall c, exists lattice state data w w',
  closed w /\ (forall o, exists_in w o -> 0 <= elsewhere w o) /\
  perform lattice state data c w = (w', inl tt) /\ ~ balanced w w'.
Proof.
  intros c. exists 0, 1, 2, ex_world, (after c ex_world). split; [exact ex_closed|].
  split; [intros o H; rewrite (ex_elsewhere o H); destruct (o <? 3); lia|].
  split; [destruct c; vm_compute; reflexivity|]. intros [B _].
  specialize (B 13 ltac:(unfold exists_in; vm_compute; intuition discriminate)).
  destruct c; vm_compute in B; discriminate.
Qed.
Print Assumptions C102_balanced_refuted.

(** Exactly which ones and how many. *)
Theorem C102_kept lattice state data c w w' : closed w -> perform lattice state data c w = (w', inl tt) ->
  closed w' /\ attrs w' = attrs w /\
  (forall o, exists_in w o -> elsewhere w' o = elsewhere w o + tally (attrs w) (kept lattice state data c) o) /\
  Z.of_nat (List.length (objs w')) = Z.of_nat (List.length (objs w)) + made c /\
  (forall o, exists_in w' o -> ~ exists_in w o -> elsewhere w' o = 1).
Proof. exact (exact_gain lattice state data c w w'). Qed.
Print Assumptions C102_kept.

(** The arrays of a lattice survive everything that refers to them. *)
Theorem C102_never_freed lattice state data l w w' w'' n o :
  closed w -> In n ["p"; "v"; "c"; "bound_leg_midpoints"; "n"; "a"]%string -> lookup (attrs w) lattice n = Some o -> 0 <= elsewhere w o ->
  calls lattice state data l w w' -> dropped w' w'' ->
  2 * Z.of_nat (List.length l) <= count_of (objs w'') o.
Proof. exact (never_freed lattice state data l w w' w'' n o). Qed.
Print Assumptions C102_never_freed.

Example C102_example : closed ex_world /\ lookup (attrs ex_world) 0 "p" = Some 13 /\ 0 <= elsewhere ex_world 13 /\
  exists w', calls 0 1 2 [CLattice; CDownwash; CBoundary; CResults] ex_world w' /\ count_of (objs w') 13 = 9.
Proof.
  split; [exact ex_closed|]. split; [reflexivity|]. split; [vm_compute; discriminate|]. eexists. split.
  - eapply calls_cons; [vm_compute; reflexivity|]. eapply calls_cons; [vm_compute; reflexivity|].
    eapply calls_cons; [vm_compute; reflexivity|]. eapply calls_cons; [vm_compute; reflexivity|]. apply calls_nil.
  - vm_compute. reflexivity.
Qed.
(** A call that fails: the state has no attribute 'aero' (here: the results are given instead). *)
Example C102_failing_example : snd (perform 0 2 2 CLattice ex_world) = inr ERR_ATTRIBUTE.
Proof. vm_compute. reflexivity. Qed.
