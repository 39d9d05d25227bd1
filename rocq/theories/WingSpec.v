(** Specifications for automatic panel counts and wing-level quantities (C26, C27). *)
From Coq Require Import List String ZArith QArith Qabs.
From Verif Require Import PyBase StripModel AircraftModel WingModel.
Import ListNotations.
Open Scope Q_scope.

Definition qsum (l : list Q) : Q := fold_right Qplus 0 l.
Definition zsum (l : list Z) : Z := fold_right Z.add 0%Z l.

(** Entry-wise relation between two dictionaries with the same keys in the same order. *)
Definition dict_rel {V} (R : V -> V -> Prop) (d d' : dict V) : Prop :=
  Forall2 (fun x y => fst y = fst x /\ R (snd x) (snd y)) d d'.

(** [n] or, if the user gave nothing, [k]. *)
Definition given_or (n : option Z) (k : Z) (m : option Z) : Prop :=
  match n with Some _ => m = n | None => m = Some k end.

(** Number of spanwise panels of a segment of span [sp] on a wing of span [W] when the wing
    gets [n]: the smallest whole number that is at least the proportional share. *)
Definition share (sp W : Q) (n k : Z) : Prop :=
  sp * inject_Z n <= inject_Z k * W /\ inject_Z (k - 1) * W < sp * inject_Z n.

Definition segment_filled (W : Q) (nc ns : Z) (s s' : wsegment) : Prop :=
  ws_uid s' = ws_uid s /\ ws_span s' = ws_span s /\ ws_strips s' = ws_strips s /\
  given_or (ws_num_c s) nc (ws_num_c s') /\
  match ws_num_s s with
  | Some _ => ws_num_s s' = ws_num_s s
  | None => exists k, ws_num_s s' = Some k /\ share (ws_span s) W ns k
  end.

Definition control_filled (nc : Z) (c c' : wcontrol) : Prop :=
  given_or (wc_num_c c) nc (wc_num_c c') /\
  wc_ctl c' = wc_ctl c /\ wc_deflection c' = wc_deflection c /\ wc_deflection_mirror c' = wc_deflection_mirror c /\
  wc_inner c' = wc_inner c /\ wc_outer c' = wc_outer c /\
  wc_eta_inner c' = wc_eta_inner c /\ wc_eta_outer c' = wc_eta_outer c /\
  wc_xsi_inner c' = wc_xsi_inner c /\ wc_xsi_outer c' = wc_xsi_outer c /\
  wc_h_inner c' = wc_h_inner c /\ wc_h_outer c' = wc_h_outer c.

(** Total span of a wing. *)
Definition total_span (w : wing) : Q := qsum (map (fun x => Qabs (ws_span (snd x))) (w_segs w)).

Definition wing_filled (nc ns : Z) (w w' : wing) : Prop :=
  w_uid w' = w_uid w /\ w_symmetry w' = w_symmetry w /\
  dict_rel (segment_filled (total_span w) nc ns) (w_segs w) (w_segs w') /\
  dict_rel (control_filled nc) (w_ctls w) (w_ctls w').

Definition or_one (n : option Z) : Z := match n with Some k => k | None => 1 end.

(** All segments of all wings have positive span. *)
Definition positive_spans (a : aircraft) : Prop :=
  forall wn w sn s, In (wn, w) (a_wings a) -> In (sn, s) (w_segs w) -> 0 < ws_span s.

(** Spanwise count of a segment whose count is set. *)
Definition count_s (s : wsegment) : Z := match ws_num_s s with Some k => k | None => 0 end.

(** Consecutive intervals: each starts where the previous one ended. *)
Fixpoint chained (x : Q) (l : list (Q * Q)) (y : Q) : Prop :=
  match l with
  | [] => x == y
  | (a, b) :: l' => a == x /\ a < b /\ chained b l' y
  end.

(** Some segment of the wing has no spanwise panel count yet. *)
Definition needs_span (w : wing) : Prop := exists k s, In (k, s) (w_segs w) /\ ws_num_s s = None.

(** All panel counts are set. *)
Definition all_set (a : aircraft) : Prop := forall wn w, In (wn, w) (a_wings a) ->
  (forall k s, In (k, s) (w_segs w) -> ws_num_c s <> None /\ ws_num_s s <> None) /\
  (forall k c, In (k, c) (w_ctls w) -> wc_num_c c <> None).
