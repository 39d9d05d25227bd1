(** Model of the continuity check of [Wing.generate] (objects/aircraft.py:410-498) and of the
    warnings it writes.

    Simplifications: real numbers; the direction of an edge of length zero is NaN (an array divided by
    0.0) and is [None]; a comparison with NaN is false. *)
From Coq Require Import Reals List Bool.
From Verif Require Import Vec PanelModel.
Import ListNotations.
Open Scope R_scope.

(** 64 *)
Definition TOL : R := 1 / 100.

(** [abs] of an array *)
Definition absv (v : vec) : vec := mkV (Rabs (vx v)) (Rabs (vy v)) (Rabs (vz v)).

(** Segment edge directions (418-428) *)
Definition edge_direction (p q : vec) : option vec :=
  let v := absv (vsub q p) in
  if Req_EM_T (vnorm v) 0 then None else Some (vscale (1 / vnorm v) v).
(** Cross-segment directions (431-453) *)
Definition cross_direction (p q : vec) : option vec :=
  let v := absv (vsub q p) in
  if Req_EM_T (vnorm v) 0 then Some vzero else Some (vscale (1 / vnorm v) v).

(** [np.linalg.norm(u - v) < TOL] *)
Definition near (u v : option vec) : bool :=
  match u, v with
  | Some u, Some v => if Rlt_dec (vnorm (vsub u v)) TOL then true else false
  | _, _ => false
  end.

(** Body of the loop (414-490): [segment_continuous] *)
Definition segment_continuous (s1 s2 : quad) : bool :=
  let a1d1 := edge_direction (qa s1) (qd s1) in
  let b1c1 := edge_direction (qb s1) (qc s1) in
  let a2d2 := edge_direction (qa s2) (qd s2) in
  let b2c2 := edge_direction (qb s2) (qc s2) in
  let a1c2 := cross_direction (qa s1) (qc s2) in
  let d1c2 := cross_direction (qd s1) (qc s2) in
  let b1d2 := cross_direction (qb s1) (qd s2) in
  let c1d2 := cross_direction (qc s1) (qd s2) in
  let b1c2 := cross_direction (qb s1) (qc s2) in
  let c1c2 := cross_direction (qc s1) (qc s2) in
  let a1d2 := cross_direction (qa s1) (qd s2) in
  let d1d2 := cross_direction (qd s1) (qd s2) in
  if near a2d2 b1c1 then near a2d2 b1d2 || near a2d2 c1d2
  else if near b2c2 a1d1 then near b2c2 a1c2 || near b2c2 d1c2
  else if near b2c2 b1c1 then near b2c2 b1c2 || near b2c2 c1c2
  else if near a2d2 a1d1 then near a2d2 a1d2 || near a2d2 d1d2
  else false.

(** Loop (413-495): indices [i] of the warnings "Edge i-i+1 is discontinuous" (493); the wing itself is
    reported (498) if there is any. *)
Fixpoint check_edges (i : nat) (segs : list quad) (wing_continuous : bool) : list nat * bool :=
  match segs with
  | s1 :: ((s2 :: _) as rest) =>
    let c := segment_continuous s1 s2 in
    let '(l, w) := check_edges (S i) rest (wing_continuous && c) in
    (if c then l else i :: l, w)
  | _ => ([], wing_continuous)
  end.
Record warnings := mkWarn { w_edges : list nat; w_wing : bool }.
Definition continuity (segs : list quad) : warnings :=
  let '(l, c) := check_edges 0 segs true in mkWarn l (negb c).
