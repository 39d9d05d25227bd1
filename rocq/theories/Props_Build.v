(** Property theorems: building an aircraft by calls (C110). *)
From Coq Require Import List String ZArith QArith Bool.
From Verif Require Import PyBase StripModel AircraftModel BuildSpec BuildProofs.
Import ListNotations.
Open Scope string_scope.

(** C110: after any session of calls, the aircraft is the one described by the calls; *)
Theorem C110_built : forall bs, built bs = described bs.
Proof. exact built_described. Qed.
Print Assumptions C110_built.
(** each call returns or raises according to the calls before it; *)
Theorem C110_outcome : forall bs b, snd (build_step (built bs) b) = outcome bs b.
Proof. intros bs b. rewrite built_described, step_described. reflexivity. Qed.
Print Assumptions C110_outcome.
(** a call that raises has no effect. *)
Theorem C110_refused : forall bs b e, outcome bs b = Err e -> built (bs ++ [b]) = built bs.
Proof.
  intros bs b e H. rewrite <- C110_outcome in H. pose proof (refused _ _ _ H) as R. unfold built in *. rewrite fold_left_app. exact R.
Qed.
Print Assumptions C110_refused.

(** A session with refused calls: a segment before its wing, a second wing of the same name, an
    impossible symmetry. *)
Definition ex_calls : list build :=
  [BSegment "w" "early"; BWing "w"; BSegment "w" "s1"; BSymmetry "w" 2; BWing "w"; BSymmetry "w" 4; BSegment "w" "s2"; BSegment "w" "s1"; BWing ""; BControl "w" "flap"; BWing "v"].
Example C110_example :
  built ex_calls = mkAC "aircraft" [("w", mkWing "w" 2 [("s1", described_segment "s1"); ("s2", described_segment "s2")] [("flap", described_control "flap")]); ("v", mkWing "v" 0 [] [])] /\
  outcome [] (BSegment "w" "early") = Err KeyError /\ outcome ex_calls (BWing "v") = Err ValueError /\ outcome ex_calls (BSymmetry "v" 4) = Err ValueError.
Proof. vm_compute. auto. Qed.
