(** Specification for C128: a segment, and the same segment divided into several ones. *)
From Coq Require Import Reals String List ZArith QArith Qreals Permutation.
From Verif Require Import PyBase Vec StripModel AircraftModel LatticeModel PanelModel GeomModel VlmModel VlmSpec OrderSpec.
Import ListNotations.

(** The same subarea; numbers may be written differently. *)
Definition same_sub (v v' : subarea) : Prop :=
  sa_type v' = sa_type v /\ xsi_a v' == xsi_a v /\ xsi_b v' == xsi_b v /\ xsi_c v' == xsi_c v /\ xsi_d v' == xsi_d v /\
  match sa_hinge v, sa_hinge v' with
  | Some (h1, h2), Some (h1', h2') => h1' == h1 /\ h2' == h2
  | None, None => True
  | _, _ => False
  end /\
  sa_ctrl v' = sa_ctrl v.

(** A part of a segment: between the positions [p_lo] and [p_hi] on the front edge, and between [p_lo'] and [p_hi'] on the rear edge. *)
Record range := mkRange { p_lo : Q; p_hi : Q; p_lo' : Q; p_hi' : Q }.
(** Position in the segment of a position in the part. *)
Definition within (lo hi t : Q) : Q := (1 - t) * lo + t * hi.
Definition within_R (a b : vec) (t : Q) : vec := vadd (vscale (1 - Q2R t)%R a) (vscale (Q2R t) b).
Definition same_strip (g : range) (s s' : strip) : Prop :=
  eta_a s == within (p_lo g) (p_hi g) (eta_a s') /\ eta_b s == within (p_lo g) (p_hi g) (eta_b s') /\
  eta_c s == within (p_lo' g) (p_hi' g) (eta_c s') /\ eta_d s == within (p_lo' g) (p_hi' g) (eta_d s') /\
  Forall2 (fun x x' => same_sub (snd x) (snd x')) (st_subs s) (st_subs s').
Definition part_quad (q : quad) (g : range) : quad :=
  mkQuad (within_R (qa q) (qb q) (p_lo g)) (within_R (qa q) (qb q) (p_hi g)) (within_R (qd q) (qc q) (p_hi' g)) (within_R (qd q) (qc q) (p_lo' g)).

Section Parts.
Variables geo geo' : string -> string -> quad.
Variables camber camber' : subarea_visit -> R -> R.

(** [r] is the part of the segment [x] with the strips [l]; the wing may have another name and other segments and controls. *)
Definition part (x : item string wsegment * item string wing) (l : list strip) (r : item string wsegment * item string wing) : Prop :=
  let s := obj (fst x) in let s' := obj (fst r) in let w := obj (snd x) in let w' := obj (snd r) in
  exists g, w_symmetry w' = w_symmetry w /\ geo' (w_uid w') (ws_uid s') = part_quad (geo (w_uid w) (ws_uid s)) g /\ ws_num_c s' = ws_num_c s /\
  Forall2 (same_strip g) l (ws_strips s') /\
  (forall sub st sub' st' y, same_sub (obj sub) (obj sub') -> same_strip g (obj st) (obj st') ->
     camber' (sub', st', fst r, snd r) y = camber (sub, st, fst x, snd x) y) /\
  (forall st k v c, In st l -> In (k, v) (st_subs st) -> sa_ctrl v = Some c -> dget (w_ctls w') (ct_uid c) = dget (w_ctls w) (ct_uid c)).
(** The segments [rs] are together the segment [x]: each strip is in one of them. *)
Definition parts (x : item string wsegment * item string wing) (rs : list (item string wsegment * item string wing)) : Prop :=
  exists ls, Permutation (ws_strips (obj (fst x))) (concat ls) /\ Forall2 (part x) ls rs.
(** Each segment of the first aircraft is divided, possibly into one. *)
Definition divided (a a' : aircraft) : Prop :=
  exists rss, Forall2 parts (all_segments a) rss /\ Permutation (concat rss) (all_segments a').
End Parts.
