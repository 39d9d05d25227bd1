(** Vortices that start at a point and extend to infinity; trailing vortices of a row of panels;
    scaled aircraft. *)
From Coq Require Import Reals List ZArith.
From Verif Require Import Vec PanelModel GeomSpec VlmModel VlmSpec.
Import ListNotations.
Open Scope R_scope.

(** [v] is the velocity at [p] of a vortex of unit strength from [a] to infinity in direction [d]: the
    limit of the Biot-Savart integrals over longer and longer pieces. *)
Definition semi_infinite (p a d v : vec) : Prop :=
  forall e, 0 < e -> exists M, forall L, M <= L ->
    exists u, biot_savart p a (vadd a (vscale L d)) u /\ vnorm (vsub u v) < e.

(** Position of [p] relative to the line from [a] in direction [d] (of length 1): distance travelled
    along it and distance from it. *)
Definition ahead (p a d : vec) : R := vdot (vsub p a) d.
Definition aside (p a d : vec) : R := vnorm (vcross (vsub p a) d).

(** Direction of the free stream, angles in degrees. *)
Definition flow_dir (alpha beta : R) : vec :=
  mkV (cos (rad alpha) * cos (rad beta)) (- sin (rad beta)) (sin (rad alpha) * cos (rad beta)).

(** Bound for the part of the vortex beyond the length [L]. *)
Definition cut_off (L : R) (p a d : vec) : R := aside p a d / (8 * PI * ((L - ahead p a d) * (L - ahead p a d))).

(** A spanwise row of panels: the right edge of each is the left edge of the next, also downstream. *)
Fixpoint linked (row : list panel) : Prop :=
  match row with
  | j :: (j' :: _) as rest => pV3 j = pV2 j' /\ pV4 j = pV1 j' /\ linked rest
  | _ => True
  end.
(** The trailing lines of a row from left to right: start at the wing and end downstream. *)
Definition left_line (j : panel) : vec * vec := (pV2 j, pV1 j).
Definition right_line (j : panel) : vec * vec := (pV3 j, pV4 j).
Definition trailing_lines (row : list panel) (last : panel) : list (vec * vec) := map left_line row ++ [right_line last].
(** Circulation shed at the lines: difference of the panels on either side, 0 outside. *)
Definition shed (g : list R) : list R := map (fun x => fst x - snd x) (combine (0 :: g) (g ++ [0])).
Definition weighted (g : list R) (us : list vec) : vec := vsum (map (fun x => vscale (fst x) (snd x)) (combine g us)).

(** The corner points of a subarea of an aircraft that is [k] times as large. *)
Definition scale_quad (k : R) (q : quad) : quad := mkQuad (vscale k (qa q)) (vscale k (qb q)) (vscale k (qc q)) (vscale k (qd q)).
Definition scale_subs (k : R) (subs : list (quad * (Z * Z))) : list (quad * (Z * Z)) := map (fun x => (scale_quad k (fst x), snd x)) subs.

(** [o]: what the solver returns for a lattice whose circulations are determined. *)
Definition solved (eps : R) (lat : list panel) (s : flow) (r : refs) (o : results) : Prop :=
  exists m g, downwash eps lat = Some m /\ (forall x, solves m (boundary lat s r) x <-> x = g) /\ vlm_results eps lat s r g = Some o.
