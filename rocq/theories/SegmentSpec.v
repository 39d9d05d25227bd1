(** What the geometric properties of a segment must be, independently of how they are computed. *)
From Coq Require Import Reals.
From Verif Require Import Vec PanelModel.
Open Scope R_scope.

(** [theta] degrees is the angle of the point (x, y), counted from the x axis towards y. *)
Definition angle_of (theta x y : R) : Prop :=
  exists m, 0 <= m /\ m * m = x * x + y * y /\
    x = m * cos (theta * PI / 180) /\ y = m * sin (theta * PI / 180).

(** A chord seen from above is a point. *)
Definition upright (d : vec) : Prop := vx d = 0 /\ vy d = 0.

Definition edge_AD (q : quad) : vec := vsub (qd q) (qa q).
Definition edge_BC (q : quad) : vec := vsub (qc q) (qb q).
Definition edge_AB (q : quad) : vec := vsub (qb q) (qa q).

(** Line through the points at a given fraction of each chord. *)
Definition axis_line (q : quad) (fi fo : R) : vec :=
  vsub (vadd (qb q) (vscale fo (edge_BC q))) (vadd (qa q) (vscale fi (edge_AD q))).

(** Area of a plane quadrilateral with vertices a, b, c, d in order: half the cross product of
    its diagonals. *)
Definition plane_area (q : quad) : R := / 2 * vnorm (vcross (vsub (qc q) (qa q)) (vsub (qd q) (qb q))).

(** The chords point straight back. *)
Definition straight (q : quad) : Prop :=
  0 <= vx (edge_AD q) /\ vy (edge_AD q) = 0 /\ vz (edge_AD q) = 0 /\
  0 <= vx (edge_BC q) /\ vy (edge_BC q) = 0 /\ vz (edge_BC q) = 0.

Definition within (lo hi : R) (o : option R) : Prop := exists x, o = Some x /\ lo <= x <= hi.
