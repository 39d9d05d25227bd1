(** Model of the geometry computed by [vlm_lattice] (aero/c_lattice.cpp:75-291) in floating-point
    arithmetic: the functions of [PanelModel] with every operation followed by a rounding.

    Simplifications: as in [FloatModel] (rounding as a parameter, no overflow, no reordering);
    the direction of the trailing legs is a parameter; symmetry flags 0 as passed by [gen_lattice] (vlm.py:354); area and aspect statistics
    (276-283) are left out.  The factors 0.125 to 0.75 are exact in binary. *)
From Coq Require Import Reals ZArith.
From Verif Require Import Vec PanelModel FloatModel.
Open Scope R_scope.

Section Float.
Variable rnd : R -> R.
Notation "x +f y" := (fadd rnd x y) (at level 50, left associativity).
Notation "x -f y" := (fsub rnd x y) (at level 50, left associativity).
Notation "x *f y" := (fmul rnd x y) (at level 40, left associativity).

(** 120-135 and 182-196, one coordinate. *)
Definition fcoord (pA pB pC pD s c : R) : R :=
  let k1 := pA in
  let k2 := pB -f pA in
  let k3 := pD -f pA in
  let k4 := pA -f pB +f pC -f pD in
  k1 +f k2 *f s +f k3 *f c +f k4 *f s *f c.
Definition fcorner (q : quad) (s c : R) : vec :=
  mkV (fcoord (vx (qa q)) (vx (qb q)) (vx (qc q)) (vx (qd q)) s c)
      (fcoord (vy (qa q)) (vy (qb q)) (vy (qc q)) (vy (qd q)) s c)
      (fcoord (vz (qa q)) (vz (qb q)) (vz (qc q)) (vz (qd q)) s c).

(** One row of the arrays; the normal is [None] where the code divides by zero. *)
Record flatp := mkFL {
  lP : vec; lQ : vec; lR : vec; lS : vec;
  lV1 : vec; lV2 : vec; lV3 : vec; lV4 : vec;
  lC : vec; lB : vec; lN : option vec; lA : R }.

(** 206-211 *)
Definition fside (a b : vec) : vec :=
  let f a b := 0.75 *f a +f 0.25 *f b in mkV (f (vx a) (vx b)) (f (vy a) (vy b)) (f (vz a) (vz b)).
(** 218-225 *)
Definition fcolloc (P Q R S : vec) : vec :=
  let co p q r s := 0.125 *f (p +f q) +f 0.375 *f (r +f s) in
  mkV (co (vx P) (vx Q) (vx R) (vx S)) (co (vy P) (vy Q) (vy R) (vy S)) (co (vz P) (vz Q) (vz R) (vz S)).
(** 228-230 *)
Definition fmiddle (a b : vec) : vec :=
  mkV (0.5 *f (vx a +f vx b)) (0.5 *f (vy a +f vy b)) (0.5 *f (vz a +f vz b)).
(** 233-243 *)
Definition fvec1 (P Q C : vec) : vec :=
  let f c p q := c -f 0.50 *f p -f 0.50 *f q in
  mkV (f (vx C) (vx P) (vx Q)) (f (vy C) (vy P) (vy Q)) (f (vz C) (vz P) (vz Q)).
Definition fvec2 (Q R C : vec) : vec :=
  let f c r q := c -f 0.75 *f r -f 0.25 *f q in
  mkV (f (vx C) (vx R) (vx Q)) (f (vy C) (vy R) (vy Q)) (f (vz C) (vz R) (vz Q)).
Definition fnormal_raw (P Q R C : vec) : vec := fcross rnd (fvec1 P Q C) (fvec2 Q R C).
(** 244-248 *)
Definition fnormal (n : vec) : option vec :=
  let norm := fnorm rnd n in
  match fdiv rnd (vx n) norm, fdiv rnd (vy n) norm, fdiv rnd (vz n) norm with
  | Some x, Some y, Some z => Some (mkV x y z)
  | _, _, _ => None
  end.
(** 251-270 *)
Definition fhalf4 (a b c d : vec) : vec :=
  let f a b c d := 0.5 *f (a -f b +f c -f d) in
  mkV (f (vx a) (vx b) (vx c) (vx d)) (f (vy a) (vy b) (vy c) (vy d)) (f (vz a) (vz b) (vz c) (vz d)).
Definition farea (P Q R S : vec) :=
  let span := fnorm rnd (fhalf4 Q P R S) in
  let chord := fnorm rnd (fhalf4 S P R Q) in
  span *f chord.

(** Body of the panel loop (164-288) given the corners. *)
Definition fpanel_of_corners (dir : vec) (P Q R S : vec) : flatp :=
  let V2 := fside P S in
  let V3 := fside Q R in
  let V1 := fvadd rnd V2 dir in
  let V4 := fvadd rnd V3 dir in
  let C := fcolloc P Q R S in
  mkFL P Q R S V1 V2 V3 V4 C (fmiddle V2 V3) (fnormal (fnormal_raw P Q R C)) (farea P Q R S).

(** Panel number [i] in chordwise and [j] in spanwise direction (83-84, 162-196). *)
Definition fmake_panel (dir : vec) (q : quad) (pan_s pan_c i j : Z) : flatp :=
  let ds := rnd (1 / IZR pan_s) in
  let dc := rnd (1 / IZR pan_c) in
  let s_min := ds *f IZR j in
  let s_max := ds *f IZR (j + 1) in
  let c_min := dc *f IZR i in
  let c_max := dc *f IZR (i + 1) in
  fpanel_of_corners dir (fcorner q s_min c_min) (fcorner q s_max c_min) (fcorner q s_max c_max) (fcorner q s_min c_max).
End Float.
