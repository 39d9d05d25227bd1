(** Specification for C127: a wing mirrored at the xz-plane, and the same wing with both sides modelled. *)
From Coq Require Import Reals List String ZArith QArith Permutation.
From Verif Require Import PyBase Vec StripModel AircraftModel LatticeModel PanelModel GeomModel VlmModel VlmSpec OrderSpec.
Import ListNotations.

(** A subarea, a strip and a segment as they have to be defined on the other side: the inner edge there is the outer one here. *)
Definition other_sub (v v' : subarea) : Prop :=
  sa_type v' = sa_type v /\ xsi_a v' == xsi_b v /\ xsi_b v' == xsi_a v /\ xsi_c v' == xsi_d v /\ xsi_d v' == xsi_c v /\
  match sa_hinge v, sa_hinge v' with
  | Some (h1, h2), Some (h1', h2') => h1' == h2 /\ h2' == h1
  | None, None => True
  | _, _ => False
  end /\
  (sa_ctrl v = None <-> sa_ctrl v' = None).
Definition other_strip (s s' : strip) : Prop :=
  eta_a s' == 1 - eta_b s /\ eta_b s' == 1 - eta_a s /\ eta_c s' == 1 - eta_d s /\ eta_d s' == 1 - eta_c s /\
  Forall2 (fun x x' => other_sub (snd x) (snd x')) (st_subs s) (st_subs s').
Definition other_quad (q : quad) : quad := mkQuad (mir (qb q)) (mir (qa q)) (mir (qd q)) (mir (qc q)).

Section Sides.
Variables geo geo' : string -> string -> quad.
Variables camber camber' : subarea_visit -> R -> R.

(** The numbers of panels and the deflections of a control. *)
Definition panels_and_deflection (w : wing) (c : control) : option (option Z * option Q) :=
  option_map (fun wc => (wc_num_c wc, wc_deflection wc)) (dget (w_ctls w) (ct_uid c)).
Definition panels_and_mirrored_deflection (w : wing) (c : control) : option (option Z * option Q) :=
  option_map (fun wc => (wc_num_c wc, wc_deflection_mirror wc)) (dget (w_ctls w) (ct_uid c)).

(** [r] is the segment [x] of a mirrored wing, on a wing that is not mirrored. *)
Definition this_side (x r : item string wsegment * item string wing) : Prop :=
  let s := obj (fst x) in let s' := obj (fst r) in let w := obj (snd x) in let w' := obj (snd r) in
  w_symmetry w' = 0%Z /\ geo' (w_uid w') (ws_uid s') = geo (w_uid w) (ws_uid s) /\ ws_strips s' = ws_strips s /\ ws_num_c s' = ws_num_c s /\
  (forall sub st y, camber' (sub, st, fst r, snd r) y = camber (sub, st, fst x, snd x) y) /\
  (forall st k v c, In st (ws_strips s) -> In (k, v) (st_subs st) -> sa_ctrl v = Some c -> panels_and_deflection w' c = panels_and_deflection w c).

(** [t] is the mirror image of [x], modelled on a wing that is not mirrored, and with the deflections that [x] has on the mirrored side. *)
Definition other_side (x t : item string wsegment * item string wing) : Prop :=
  let s := obj (fst x) in let s' := obj (fst t) in let w := obj (snd x) in let w' := obj (snd t) in
  w_symmetry w' = 0%Z /\ geo' (w_uid w') (ws_uid s') = other_quad (geo (w_uid w) (ws_uid s)) /\ ws_num_c s' = ws_num_c s /\
  (exists l, Forall2 other_strip (ws_strips s) l /\ Permutation l (ws_strips s')) /\
  (forall sub st sub' st' y, other_sub (obj sub) (obj sub') -> other_strip (obj st) (obj st') ->
     camber' (sub', st', fst t, snd t) y = camber (sub, st, fst x, snd x) y) /\
  (forall st k v st' k' v' c c', In st (ws_strips s) -> In (k, v) (st_subs st) -> In st' (ws_strips s') -> In (k', v') (st_subs st') ->
     other_strip st st' -> other_sub v v' -> sa_ctrl v = Some c -> sa_ctrl v' = Some c' ->
     panels_and_deflection w' c' = panels_and_mirrored_deflection w c).

(** The same for a wing mirrored at the xy-plane: edges keep their order. *)
Definition under_quad (q : quad) : quad :=
  let f v := mkV (vx v) (vy v) (Ropp (vz v)) in mkQuad (f (qa q)) (f (qb q)) (f (qc q)) (f (qd q)).
Definition under_side (x t : item string wsegment * item string wing) : Prop :=
  let s := obj (fst x) in let s' := obj (fst t) in let w := obj (snd x) in let w' := obj (snd t) in
  w_symmetry w' = 0%Z /\ geo' (w_uid w') (ws_uid s') = under_quad (geo (w_uid w) (ws_uid s)) /\ ws_strips s' = ws_strips s /\ ws_num_c s' = ws_num_c s /\
  (forall sub st y, camber' (sub, st, fst t, snd t) y = camber (sub, st, fst x, snd x) y) /\
  (forall st k v c, In st (ws_strips s) -> In (k, v) (st_subs st) -> sa_ctrl v = Some c -> panels_and_deflection w' c = panels_and_mirrored_deflection w c).

(** Some mirrored segments are replaced by both sides, the others are kept. *)
Inductive both_sides : list (item string wsegment * item string wing) -> list (item string wsegment * item string wing) -> Prop :=
| b_nil : both_sides [] []
| b_keep x x' l l' : same_segment geo geo' camber camber' x x' -> both_sides l l' -> both_sides (x :: l) (x' :: l')
| b_both x r t l l' : w_symmetry (obj (snd x)) = 2%Z -> this_side x r -> other_side x t -> both_sides l l' -> both_sides (x :: l) (r :: t :: l')
| b_under x r t l l' : w_symmetry (obj (snd x)) = 1%Z -> this_side x r -> under_side x t -> both_sides l l' -> both_sides (x :: l) (r :: t :: l').
Definition modelled_on_both_sides (a a' : aircraft) : Prop :=
  exists l l', Permutation (all_segments a) l /\ both_sides l l' /\ Permutation l' (all_segments a').
End Sides.
