(** Property theorems: definition of controls (C39). *)
From Coq Require Import List String ZArith QArith.
From Verif Require Import PyBase PyVal ControlModel ControlSpec ControlProofs.
Import ListNotations.
Open Scope string_scope.

(** C39: a control is accepted exactly if it follows the rules; [none_ok] and [int_ok] are the two
    open points of the schema library. *)
Theorem C39_check : forall none_ok int_ok sym c,
  snd (check none_ok int_ok sym c) = Ok tt <-> control_ok none_ok int_ok sym c.
Proof. exact check_iff. Qed.
Print Assumptions C39_check.

(** Only 'slat' and 'flap' can be assigned as device type. *)
Theorem C39_device : forall c v, (exists c', set_device c v = Ok c') <-> v = PStr "slat" \/ v = PStr "flap".
Proof. exact set_device_iff. Qed.
Print Assumptions C39_device.

(** An accepted control is unchanged, except that the deflections are floats and the mirrored side
    of a symmetric wing is deflected like the other side if nothing is said about it; checking it
    again changes nothing. *)
Theorem C39_result : forall none_ok int_ok sym c c',
  check none_ok int_ok sym c = (c', Ok tt) ->
  (cd_uid c' = cd_uid c /\ cd_device c' = cd_device c /\ cd_segment c' = cd_segment c /\ cd_rel c' = cd_rel c /\
   cd_hinge c' = cd_hinge c /\ cd_panels c' = cd_panels c) /\
  (exists q, angle (cd_deflection c) q /\ cd_deflection c' = PFlt (Some q) /\
   (sym = false -> cd_mirror c' = cd_mirror c) /\
   (sym = true -> cd_mirror c = PNone -> cd_mirror c' = PFlt (Some q)) /\
   (sym = true -> cd_mirror c <> PNone -> exists m, angle (cd_mirror c) m /\ cd_mirror c' = PFlt (Some m))) /\
  check none_ok int_ok sym c' = (c', Ok tt).
Proof.
  intros n i sym c c' H. destruct (check_result n i sym c c' H) as [A B]. split; [exact A|]. split; [exact B|]. exact (check_again n i sym c c' H).
Qed.
Print Assumptions C39_result.

(** The exception tells which rule is broken. *)
Theorem C39_exception : forall none_ok int_ok sym c e,
  snd (check none_ok int_ok sym c) = Err e -> control_error none_ok int_ok sym c e.
Proof. exact check_raises. Qed.
Print Assumptions C39_exception.

(** If the library lets None pass, a control without positions and without segments on one side is
    accepted. *)
Theorem C39_null_refuted : forall int_ok, exists c,
  snd (check true int_ok false c) = Ok tt /\ dget (cd_rel c) "eta_inner" = Some PNone /\ dget (cd_segment c) "outer" = Some PNone.
Proof.
  intro i. exists (mkCD "c" (Some "flap") (PInt 5) PNone [("inner", PStr "s"); ("outer", PNone)]
    [("eta_inner", PNone); ("eta_outer", PNone); ("xsi_inner", PNone); ("xsi_outer", PNone)]
    [("xsi_inner", PNone); ("xsi_outer", PNone)] [("num_c", PNone)]).
  repeat split.
Qed.
Print Assumptions C39_null_refuted.

Definition ex_control (e1 e2 : Q) : ctldef :=
  mkCD "flap" (Some "flap") (PInt 5) (PFlt (Some (-5)%Q)) [("inner", PStr "seg"); ("outer", PStr "seg")]
    [("eta_inner", PFlt (Some e1)); ("eta_outer", PFlt (Some e2)); ("xsi_inner", PFlt (Some (7#10)%Q)); ("xsi_outer", PFlt (Some (7#10)%Q))]
    [("xsi_inner", PFlt (Some (7#10)%Q)); ("xsi_outer", PFlt (Some (7#10)%Q))] [("num_c", PInt 2)].
Example C39_example :
  control_ok false false true (ex_control (2#10) (8#10)) /\ ~ control_ok false false true (ex_control (8#10) (2#10)) /\
  exists c', check false false true (ex_control (2#10) (8#10)) = (c', Ok tt) /\ cd_deflection c' = PFlt (Some 5%Q).
Proof.
  split; [apply check_iff; vm_compute; reflexivity|]. split; [intro H; apply check_iff in H; vm_compute in H; discriminate|].
  eexists. split; [vm_compute; reflexivity|]. reflexivity.
Qed.
Example C39_exception_example : forall none_ok int_ok, exists c,
  snd (check none_ok int_ok true c) = Err ValueError /\ cd_deflection c = PInt 91 /\ positions_ok none_ok int_ok c.
Proof.
  intros n i. exists (set_deflections (ex_control (2#10) (8#10)) (PInt 91) PNone). split; [reflexivity|]. split; [reflexivity|].
  apply schemas_ok. reflexivity.
Qed.
