(** Specification for deformation files (C46). *)
From Coq Require Import List String.
From Verif Require Import PyBase DeformModel.
Import ListNotations.
Open Scope string_scope.

(** Fields that other programs use. *)
Definition private (k : string) : Prop := exists r, k = "_" ++ r.
(** A name that cannot be confused with a private field or with a mirrored side. *)
Definition plain (u : string) : Prop := u <> "" /\ ~ private u /\ ~ exists a b, u = a ++ "_m" ++ b.

(** The key addresses wing [u]: [false] is the side itself, [true] the mirrored side. *)
Definition addresses (k u : string) (mirrored : bool) : Prop := k = if mirrored then u ++ "_m" else u.
(** The field for one side of a wing. *)
Definition side {F} (w : wing_def F) (mirrored : bool) : option F := if mirrored then def_field_mirror w else def_field w.
