(** Specifications for the strips of a segment, written without the model's functions. *)
From Coq Require Import List String QArith Permutation.
From Verif Require Import PyBase StripModel.
Import ListNotations.
Open Scope Q_scope.

(** eta lies on the strip [s] (half open towards the tip). *)
Definition covers (s : strip) (eta : Q) : Prop := eta_a s <= eta /\ eta < eta_b s.

(** The strips tile the span [0,1): proper intervals inside [0,1], and every position
    belongs to exactly one strip. *)
Definition tiles_span (seg : segment) : Prop :=
  (forall s, In s seg -> 0 <= eta_a s /\ eta_a s < eta_b s /\ eta_b s <= 1) /\
  (forall eta, 0 <= eta -> eta < 1 ->
     exists i s, nth_error seg i = Some s /\ covers s eta /\
       forall j t, nth_error seg j = Some t -> covers t eta -> j = i).

(** The cuts at leading and trailing edge are at the same relative position. *)
Definition cuts_aligned (seg : segment) : Prop :=
  forall s, In s seg -> eta_d s == eta_a s /\ eta_c s == eta_b s.

(** There is a division line (or the root) at [x]. *)
Definition line_at (seg : segment) (x : Q) : Prop := exists s, In s seg /\ eta_a s == x.

(** ** Chord *)

(** Chordwise order of the pieces of a strip: slat, main surface, flap. *)
Definition opt_list {A} (o : option A) : list A := match o with Some a => [a] | None => [] end.

(** [pieces] tile [0,1] on one strip edge: [lo] and [hi] select the two ends of a piece. *)
Fixpoint tiles_from (lo hi : subarea -> Q) (start : Q) (pieces : list subarea) : Prop :=
  match pieces with
  | [] => start == 1
  | v :: rest => lo v == start /\ lo v < hi v /\ tiles_from lo hi (hi v) rest
  end.

(** A strip is well covered along the chord: its subareas are exactly a main surface and at
    most one slat and one flap (filed under their own type), and in the order
    slat, main, flap they tile [0,1] on the inner edge (xsi_a..xsi_d) and on the
    outer edge (xsi_b..xsi_c). *)
Definition tiles_chord (s : strip) : Prop :=
  exists (slat flap : option subarea) (main : subarea),
    (forall k v, In (k, v) (st_subs s) -> sa_type v = k) /\
    Permutation (map snd (st_subs s)) (opt_list slat ++ [main] ++ opt_list flap) /\
    sa_type main = ASegment /\
    (forall v, slat = Some v -> sa_type v = ADev Slat) /\
    (forall v, flap = Some v -> sa_type v = ADev Flap) /\
    tiles_from xsi_a xsi_d 0 (opt_list slat ++ [main] ++ opt_list flap) /\
    tiles_from xsi_b xsi_c 0 (opt_list slat ++ [main] ++ opt_list flap).

(** The device of kind [k] on a strip, if any: (control, line inner/outer, hinge inner/outer).
    The line of a flap is its front edge, that of a slat its rear edge. *)
Definition has_device (s : strip) (k : dkind) (c : control) (x1 x2 h1 h2 : Q) : Prop :=
  exists v, In (ADev k, v) (st_subs s) /\ sa_ctrl v = Some c /\ sa_hinge v = Some (h1, h2) /\
    match k with
    | Flap => xsi_a v = x1 /\ xsi_b v = x2
    | Slat => xsi_d v = x1 /\ xsi_c v = x2
    end.

Definition no_device (s : strip) (k : dkind) : Prop := forall v, ~ In (ADev k, v) (st_subs s).

(** Two rationals are at least [d] apart with [x] below [y]. *)
Definition below_by (d x y : Q) : Prop := x + d <= y.

(** Requirements on the interpolation of device lines across a strip (relative positions on
    the segment, so between 0 and 1): it succeeds between the end stations, stays between the
    end values, and keeps two lines that are [1/100] apart at both ends [1/100] apart. *)
Definition interp_ok (interp : Q * Q -> Q * Q -> Q -> res Q) : Prop :=
  (forall e1 e2 e x1 x2, 0 <= e1 -> e1 < e -> e < e2 -> e2 <= 1 ->
     exists x, interp (e1, x1) (e2, x2) e = Ok x /\
       ((x1 <= x /\ x <= x2) \/ (x2 <= x /\ x <= x1))) /\
  (forall e1 e2 e x1 x2 y1 y2 x y, 0 <= e1 -> e1 < e -> e < e2 -> e2 <= 1 ->
     below_by (1 # 100) x1 y1 -> below_by (1 # 100) x2 y2 ->
     interp (e1, x1) (e2, x2) e = Ok x -> interp (e1, y1) (e2, y2) e = Ok y ->
     below_by (1 # 100) x y).

(** The strip carries (a piece of) the control [c]. *)
Definition carries (s : strip) (c : control) : Prop :=
  exists k v, In (ADev k, v) (st_subs s) /\ sa_ctrl v = Some c.

(** When a device may be placed on a strip: it has a type, the strip has no device of that
    type, the line is inside (0,1), the hinge inside [0,1], and the line keeps 1/100 chord
    distance from the device on the other side. *)
Definition may_add (s : strip) (c : control) (k : dkind) (x1 x2 h1 h2 : Q) : Prop :=
  ct_type c = Some k /\ no_device s k /\
  (0 < x1 /\ x1 < 1) /\ (0 < x2 /\ x2 < 1) /\ (0 <= h1 /\ h1 <= 1) /\ (0 <= h2 /\ h2 <= 1) /\
  (forall c' y1 y2 g1 g2, has_device s Slat c' y1 y2 g1 g2 ->
     below_by (1 # 100) y1 x1 /\ below_by (1 # 100) y2 x2) /\
  (forall c' y1 y2 g1 g2, has_device s Flap c' y1 y2 g1 g2 ->
     below_by (1 # 100) x1 y1 /\ below_by (1 # 100) x2 y2).

(** Optional hinge positions default to the device line. *)
Definition default_to (o : option Q) (x : Q) : Q := match o with Some h => h | None => x end.

(** Every operation of a session returned normally. *)
Fixpoint all_accepted (interp : Q * Q -> Q * Q -> Q -> res Q) (seg : segment) (ops : list op) : Prop :=
  match ops with
  | [] => True
  | OpSubdiv a d ig :: rest =>
      (exists o, snd (add_subdivision interp seg a d ig) = Ok o) /\
      all_accepted interp (fst (add_subdivision interp seg a d ig)) rest
  | OpControl a b c x1 x2 o1 o2 :: rest =>
      snd (add_subdivision_for_control interp seg a b c x1 x2 o1 o2) = Ok tt /\
      all_accepted interp (fst (add_subdivision_for_control interp seg a b c x1 x2 o1 o2)) rest
  end.

(** All strips are wider than 1/1000. *)
Definition not_thin (seg : segment) : Prop := forall s, In s seg -> eta_a s + (1 # 1000) < eta_b s.

(** A session: either the interpolation is well behaved (then rejected calls may occur
    anywhere), or it is arbitrary and every call returned normally. *)
Definition sound_session (interp : Q * Q -> Q * Q -> Q -> res Q) (ops : list op) : Prop :=
  interp_ok interp \/ all_accepted interp new_segment ops.

(** At the span position [eta], [x] is on the line from (a, x1) to (b, x2) and [h] on the line from
    (a, h1) to (b, h2). *)
Definition on_lines (interp : Q * Q -> Q * Q -> Q -> res Q) (a x1 h1 b x2 h2 eta x h : Q) : Prop :=
  interp (a, x1) (b, x2) eta = Ok x /\ interp (a, h1) (b, h2) eta = Ok h.

(** Following the strips [idx] (listed from the outermost inwards), the device of kind [k]
    of control [c] runs without a step from (line x1, hinge h1) at the innermost edge to
    (line x2, hinge h2) at the outermost edge, and the strips are adjacent.  At every border
    between two of the strips [line] holds of the position, the device line and the hinge line. *)
Fixpoint unbroken (line : Q -> Q -> Q -> Prop) (seg : segment) (k : dkind) (c : control) (x1 h1 : Q) (idx : list nat)
  (x2 h2 : Q) : Prop :=
  match idx with
  | [] => False
  | j :: rest =>
    exists s xd hd, nth_error seg j = Some s /\ has_device s k c xd x2 hd h2 /\
      match rest with
      | [] => xd = x1 /\ hd = h1
      | j' :: _ => (exists t, nth_error seg j' = Some t /\ eta_b t == eta_a s /\ line (eta_b t) xd hd) /\
                   unbroken line seg k c x1 h1 rest xd hd
      end
  end.

(** [b] is an admissible outer edge on [seg]: the tip, an existing division line, or at least
    1/100 outboard of every division line on its inboard side. *)
Definition clear_edge (seg : segment) (b : Q) : Prop :=
  b == 1 \/ line_at seg b \/ (forall y, line_at seg y -> y <= b -> y + (1 # 100) <= b).

(** Straight line between two points of a planar trapezoidal segment with root chord [c1] and
    tip chord [c2], read in relative chordwise coordinates (used to show that [interp_ok] can be
    met; c1 = c2 is linear interpolation). *)
Definition trap_interp (c1 c2 : Q) (p q : Q * Q) (eta : Q) : res Q :=
  let '(e1, x1) := p in let '(e2, x2) := q in
  if Qeqb e1 e2 then Err RuntimeError
  else
    let t := (eta - e1) / (e2 - e1) in
    let w1 := (1 - t) * ((1 - e1) * c1 + e1 * c2) in
    let w2 := t * ((1 - e2) * c1 + e2 * c2) in
    if Qeqb (w1 + w2) 0 then Err ZeroDivisionError
    else Ok ((w1 * x1 + w2 * x2) / (w1 + w2)).
