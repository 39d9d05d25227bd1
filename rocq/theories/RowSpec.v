(** Wings that lie in a plane parallel to the flow, with one row of panels and a straight line of bound
    vortices across the flow. *)
From Coq Require Import Reals List ZArith.
From Verif Require Import Vec PanelModel GeomSpec VlmModel VlmSpec.
Import ListNotations.
Open Scope R_scope.

(** Panels side by side in the plane z = [z0], at the right of [y]: the bound vortex of each panel lies
    on the line x = [x0], the trailing vortices extend to x = [x0 + L], the collocation point lies
    between them.  There may be gaps between the panels.  The normal vectors point downwards, possibly
    tilted by camber or by controls. *)
Inductive strips (L x0 z0 : R) : R -> list panel -> Prop :=
| strips_nil y : strips L x0 z0 y []
| strips_cons y y1 y2 x c b j rest :
    y <= y1 -> y1 < c < y2 -> 0 < x < L ->
    pV1 j = mkV (x0 + L) y1 z0 -> pV2 j = mkV x0 y1 z0 -> pV3 j = mkV x0 y2 z0 -> pV4 j = mkV (x0 + L) y2 z0 ->
    pC j = mkV (x0 + x) c z0 -> y1 < b < y2 -> pB j = mkV x0 b z0 -> vz (pN j) < 0 ->
    strips L x0 z0 y2 rest -> strips L x0 z0 y (j :: rest).

(** A subarea between [y1] and [y2] with chord lengths [c1] and [c2] whose quarter-chord line lies at
    x = [x0] (corner points as in aircraft.py: a and b at the leading edge, c and d at the trailing edge). *)
Definition plain (x0 z0 y1 y2 c1 c2 : R) : quad :=
  mkQuad (mkV (x0 - c1 / 4) y1 z0) (mkV (x0 - c2 / 4) y2 z0) (mkV (x0 + 3 * c2 / 4) y2 z0) (mkV (x0 + 3 * c1 / 4) y1 z0).

(** A wing of such subareas from left to right, with any number of strips, one panel per strip; [w] is
    the length of the trailing vortices. *)
Inductive plain_wing (w x0 z0 : R) : R -> list (quad * (Z * Z)) -> Prop :=
| plain_nil y : plain_wing w x0 z0 y []
| plain_cons y y1 y2 c1 c2 n rest :
    y <= y1 -> y1 < y2 -> 0 < c1 < 2 * w -> 0 < c2 < 2 * w -> (0 < n)%Z ->
    plain_wing w x0 z0 y2 rest -> plain_wing w x0 z0 y ((plain x0 z0 y1 y2 c1 c2, (n, 1%Z)) :: rest).

(** The lattice of a wing after its normal vectors have been tilted. *)
Definition tilted (j j' : panel) : Prop :=
  pV1 j' = pV1 j /\ pV2 j' = pV2 j /\ pV3 j' = pV3 j /\ pV4 j' = pV4 j /\ pC j' = pC j /\ pB j' = pB j /\ vz (pN j') < 0.

(** For every right-hand side, the system of equations with matrix [m] has exactly one solution. *)
Definition uniquely_solvable (m : list (list R)) : Prop :=
  forall b, length b = length m -> exists g, solves m b g /\ forall h, solves m b h -> h = g.

(** Uniform flow in the direction of the x axis, without rotation. *)
Definition straight (s : flow) : Prop := f_alpha s = 0 /\ f_beta s = 0 /\ f_P s = 0 /\ f_Q s = 0 /\ f_R s = 0.
(** Widths of the panels and the sum of circulation times width. *)
Definition width (j : panel) : R := vy (pV3 j) - vy (pV2 j).
Definition circulation_area (lat : list panel) (g : list R) : R := rsum (map (fun x => snd x * width (fst x)) (combine lat g)).
