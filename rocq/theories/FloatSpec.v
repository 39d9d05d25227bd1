(** Specification for results in floating-point arithmetic (C113). *)
From Coq Require Import Reals List.
From Flocq Require Import Core.
From Verif Require Import Vec PanelModel VlmModel FloatModel.
Import ListNotations.
Open Scope R_scope.

(** A rounding with relative error at most [u]. *)
Definition rounding (u : R) (rnd : R -> R) : Prop := 0 <= u < 1 /\ forall x, Rabs (rnd x - x) <= u * Rabs x.

(** Rounding of the type double: 53 significant bits, to nearest, ties to even; the exponent is not
    limited. *)
Definition double (x : R) : R := round radix2 (FLX_exp 53) ZnearestE x.
Definition u53 : R := / 2 ^ 53.

(** [x] is [X] up to [k] roundings of a quantity of size [m]. *)
Definition close (u : R) (k : nat) (x X m : R) : Prop := Rabs (x - X) <= ((1 + u) ^ k - 1) * m.
(** The same if rounded values appear in a denominator. *)
Definition closeq (u : R) (k l : nat) (x X m : R) : Prop := Rabs (x - X) <= ((1 + u) ^ k / (1 - u) ^ l - 1) * m.

(** Sums over the panels of a quantity and of its absolute value. *)
Definition total {A} (f : A -> R) (l : list A) : R := rsum (map f l).
Definition size {A} (f : A -> R) (l : list A) : R := rsum (map (fun x => Rabs (f x)) l).

(** Total forces: the sums of the panel forces. *)
Definition forces_sum (u : R) (os : list fpanel) (F : vec) : Prop :=
  let n := List.length os in
  close u n (vx F) (total (fun o => vx (p_f o)) os) (size (fun o => vx (p_f o)) os) /\
  close u n (vy F) (total (fun o => vy (p_f o)) os) (size (fun o => vy (p_f o)) os) /\
  close u n (vz F) (total (fun o => vz (p_f o)) os) (size (fun o => vz (p_f o)) os).

(** Total moments: the sums of the moments of the panel forces about the reference point, each
    force acting at the middle of the bound vortex. *)
Definition moment (RP : vec) (po : panel * fpanel) : vec := vcross (vsub (pB (fst po)) RP) (p_f (snd po)).
Definition vabs (v : vec) : vec := mkV (Rabs (vx v)) (Rabs (vy v)) (Rabs (vz v)).
(** The cross product without cancellation. *)
Definition across (a b : vec) : vec :=
  let a := vabs a in let b := vabs b in
  mkV (vy a * vz b + vz a * vy b) (vz a * vx b + vx a * vz b) (vx a * vy b + vy a * vx b).
Definition moment_size (RP : vec) (po : panel * fpanel) : vec := across (vsub (pB (fst po)) RP) (p_f (snd po)).
Definition moments_sum (u : R) (RP : vec) (ps : list (panel * fpanel)) (M : vec) : Prop :=
  let k := (List.length ps + 3)%nat in
  close u k (vx M) (total (fun x => vx (moment RP x)) ps) (total (fun x => vx (moment_size RP x)) ps) /\
  close u k (vy M) (total (fun x => vy (moment RP x)) ps) (total (fun x => vy (moment_size RP x)) ps) /\
  close u k (vz M) (total (fun x => vz (moment RP x)) ps) (total (fun x => vz (moment_size RP x)) ps).

(** Drag, side force and lift: the total force in the axes given by [sa = sin alpha] etc. *)
Definition wind_axes (u sa ca sb cb : R) (F : vec) (co : coeffs) : Prop :=
  close u 4 (c_D co) (cb * ca * vx F - sb * vy F + cb * sa * vz F) (Rabs (cb * ca * vx F) + Rabs (sb * vy F) + Rabs (cb * sa * vz F)) /\
  close u 4 (c_C co) (sb * ca * vx F + cb * vy F + sb * sa * vz F) (Rabs (sb * ca * vx F) + Rabs (cb * vy F) + Rabs (sb * sa * vz F)) /\
  close u 4 (c_L co) (ca * vz F - sa * vx F) (Rabs (sa * vx F) + Rabs (ca * vz F)).

(** A coefficient: a load divided by the dynamic pressure, the area and a length (or 1); it is inf or
    nan only if one of these is zero. *)
Definition normalised (u : R) (s : flow) (r : refs) (c : option R) (load len : R) : Prop :=
  let d := dyn_pressure s * r_area r * len in
  match c with
  | Some x => d <> 0 /\ closeq u 1 5 x (load / d) (Rabs (load / d))
  | None => d = 0
  end.
Definition coefficients (u : R) (s : flow) (r : refs) (F M : vec) (co : coeffs) : Prop :=
  normalised u s r (c_Cx co) (vx F) 1 /\ normalised u s r (c_Cy co) (vy F) 1 /\ normalised u s r (c_Cz co) (vz F) 1 /\
  normalised u s r (c_CD co) (c_D co) 1 /\ normalised u s r (c_CC co) (c_C co) 1 /\ normalised u s r (c_CL co) (c_L co) 1 /\
  normalised u s r (c_Cl co) (vx M) (r_span r) /\ normalised u s r (c_Cm co) (vy M) (r_chord r) /\ normalised u s r (c_Cn co) (vz M) (r_span r).

(** Magnitudes of the vectors stored for a panel; pressure coefficient. *)
Definition magnitude_ok (u : R) (v : vec) (m : R) : Prop := close u 3 m (vnorm v) (vnorm v).
Definition pressure_ok (u : R) (s : flow) (i : panel) (o : fpanel) : Prop :=
  let d := dyn_pressure s * pA i in
  match p_cp o with
  | Some x => d <> 0 /\ closeq u 4 4 x (vdot (p_f o) (pN i) / d)
      ((Rabs (vx (p_f o) * vx (pN i)) + Rabs (vy (p_f o) * vy (pN i)) + Rabs (vz (p_f o) * vz (pN i))) / Rabs d)
  | None => d = 0
  end.

(** Kutta-Joukowski: the force on a panel is density times circulation times the cross product of
    the velocity (stored induced velocity, free stream, rotation about the centre of gravity)
    with the bound vortex.  [w]: the free stream in axes given by [sa] etc. *)
Definition stream (V sa ca sb cb : R) : vec := mkV (V * (ca * cb)) (- (V * sb)) (V * (sa * cb)).
Definition omega (s : flow) : vec := mkV (f_P s) (f_Q s) (f_R s).
Definition velocity (w : vec) (s : flow) (r : refs) (i : panel) (o : fpanel) : vec :=
  vsub (vadd (p_iw o) w) (vcross (omega s) (vsub (pB i) (r_CG r))).
Definition velocity_size (w : vec) (s : flow) (r : refs) (i : panel) (o : fpanel) : vec :=
  vadd (vadd (vabs (p_iw o)) (vabs w)) (across (omega s) (vsub (pB i) (r_CG r))).
Definition kutta_joukowski (u : R) (w : vec) (s : flow) (r : refs) (i : panel) (g : R) (o : fpanel) : Prop :=
  let L := vsub (pV3 i) (pV2 i) in
  let F := vscale (f_rho s * g) (vcross (velocity w s r i o) L) in
  let S := vscale (Rabs (f_rho s * g)) (across (velocity_size w s r i o) L) in
  close u 10 (vx (p_f o)) (vx F) (vx S) /\ close u 10 (vy (p_f o)) (vy F) (vy S) /\ close u 10 (vz (p_f o)) (vz F) (vz S).
