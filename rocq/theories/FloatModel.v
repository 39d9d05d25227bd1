(** Model of [vlm_results] and [vlm_coeffs] (aero/c_results.cpp:38-262) in floating-point arithmetic:
    the functions of [VlmModel] with every operation followed by a rounding.

    Simplifications: the rounding is a parameter (a real is rounded to a real, so there is no
    overflow, underflow or signed zero); [None] is inf or nan, as in [VlmModel]; the compiler does not
    reorder or fuse operations (no -ffast-math in setup.py); [sin] and [cos] of the C library are
    the parameters [fsin] and [fcos]; [PIc] is the constant PI (c_vlm.h:60).  [iw_mag] is computed from
    the final values only: the earlier ones are overwritten (129-131). *)
From Coq Require Import Reals List.
From Verif Require Import Vec PanelModel VlmModel.
Import ListNotations.
Open Scope R_scope.

Section Float.
Variable rnd : R -> R.
Variables fsin fcos : R -> R.
Variable PIc : R.

Definition fadd (x y : R) : R := rnd (x + y).
Definition fsub (x y : R) : R := rnd (x - y).
Definition fmul (x y : R) : R := rnd (x * y).
Definition fdiv (x y : R) : option R := if Req_EM_T y 0 then None else Some (rnd (x / y)).
Definition fsqrt (x : R) : R := rnd (sqrt x).

(** Vectors component by component; a*b + c*d + e*f is evaluated from the left. *)
Definition fvadd (u v : vec) : vec := mkV (fadd (vx u) (vx v)) (fadd (vy u) (vy v)) (fadd (vz u) (vz v)).
Definition fvsub (u v : vec) : vec := mkV (fsub (vx u) (vx v)) (fsub (vy u) (vy v)) (fsub (vz u) (vz v)).
Definition fdot (u v : vec) : R := fadd (fadd (fmul (vx u) (vx v)) (fmul (vy u) (vy v))) (fmul (vz u) (vz v)).
Definition fcross (u v : vec) : vec :=
  mkV (fsub (fmul (vy u) (vz v)) (fmul (vz u) (vy v))) (fsub (fmul (vz u) (vx v)) (fmul (vx u) (vz v)))
      (fsub (fmul (vx u) (vy v)) (fmul (vy u) (vx v))).
Definition fnorm (v : vec) : R := fsqrt (fdot v v).

(** [deg2rad] (c_vlm.cpp:57-60). *)
Definition fdeg2rad (deg : R) : R := fmul deg (rnd (PIc / 180)).

(** Velocity induced by one leg (93-116). *)
Definition fleg_velocity (eps : R) (p v1 v2 : vec) : option vec :=
  let r1 := fvsub p v1 in
  let r1_mag := fnorm r1 in
  let r2 := fvsub p v2 in
  let r2_mag := fnorm r2 in
  let r1r2_dot := fdot r1 r2 in
  let rcross := fcross r1 r2 in
  let* k := fdiv 1 (fmul 4 PIc) in
  let* a := fdiv 1 (fadd r1r2_dot (fmul (fmul r1_mag r2_mag) (fadd 1 eps))) in
  let* b := fdiv 1 r1_mag in
  let* c := fdiv 1 r2_mag in
  let v_c := fmul (fmul k a) (fadd b c) in
  Some (mkV (fmul v_c (vx rcross)) (fmul v_c (vy rcross)) (fmul v_c (vz rcross))).

(** Loop over the legs (86-122) and over the panels (80-132). *)
Fixpoint fleg_loop (eps : R) (p : vec) (l : list (vec * vec)) (dw : vec) : option vec :=
  match l with
  | [] => Some dw
  | (v1, v2) :: l' => let* v := fleg_velocity eps p v1 v2 in fleg_loop eps p l' (fvadd dw v)
  end.
Fixpoint finduced_loop (eps : R) (p : vec) (l : list (panel * R)) (iw : vec) : option vec :=
  match l with
  | [] => Some iw
  | (j, g) :: l' =>
    let* dw := fleg_loop eps p (legs j) vzero in
    finduced_loop eps p l' (fvadd iw (mkV (fmul (vx dw) g) (fmul (vy dw) g) (fmul (vz dw) g)))
  end.

(** 41-50 *)
Definition fvel_wind (s : flow) : vec :=
  let alpha := fdeg2rad (f_alpha s) in
  let beta := fdeg2rad (f_beta s) in
  let w d := fmul (- f_airspeed s) d in
  mkV (w (fmul (fcos alpha) (fcos beta))) (w (- fsin beta)) (w (fmul (fsin alpha) (fcos beta))).
(** 141-148 *)
Definition fvel_rot (s : flow) (r : refs) (p : vec) : vec :=
  let arm := fvsub p (r_CG r) in
  mkV (fsub (fmul (f_Q s) (vz arm)) (fmul (f_R s) (vy arm))) (fsub (fmul (f_R s) (vx arm)) (fmul (f_P s) (vz arm)))
      (fsub (fmul (f_P s) (vy arm)) (fmul (f_Q s) (vx arm))).

(** 195 and 227 *)
Definition fdyn_pressure (s : flow) : R := fmul (fmul 0.5 (f_rho s)) (fmul (f_airspeed s) (f_airspeed s)).

(** What is stored for a panel: induced velocity, force, their magnitudes, pressure coefficient. *)
Record fpanel := mkFP { p_iw : vec; p_iwmag : R; p_f : vec; p_fmag : R; p_cp : option R }.

(** Body of the panel loop (61-198): the stored values and the moment. *)
Definition fpanel_loads (eps : R) (lat : list panel) (gamma : list R) (s : flow) (r : refs) (i : panel) (g : R) :
    option (fpanel * vec) :=
  let P := pB i in
  let* iw := finduced_loop eps P (combine lat gamma) vzero in
  let L := fvsub (pV3 i) (pV2 i) in                                       (* 136-138 *)
  let vel := fvsub iw (fvadd (fvel_wind s) (fvel_rot s r P)) in           (* 151-153 *)
  let c := fcross vel L in
  let force x := fmul (fmul (f_rho s) x) g in                             (* 156-158 *)
  let f := mkV (force (vx c)) (force (vy c)) (force (vz c)) in
  let m := fcross (fvsub P (r_RP r)) f in                                 (* 174-181 *)
  let fpan_n := fdot f (pN i) in                                          (* 190-192 *)
  Some (mkFP iw (fnorm iw) f (fnorm f) (fdiv fpan_n (fmul (fdyn_pressure s) (pA i))), m).

(** 61-198; the totals start at zero (53-59). *)
Fixpoint fresults_loop (eps : R) (lat : list panel) (gamma : list R) (s : flow) (r : refs)
    (l : list (panel * R)) (ftot mtot : vec) : option (list fpanel * vec * vec) :=
  match l with
  | [] => Some ([], ftot, mtot)
  | (i, g) :: l' =>
    let* (o, m) := fpanel_loads eps lat gamma s r i g in
    let* (os, ft, mt) := fresults_loop eps lat gamma s r l' (fvadd ftot (p_f o)) (fvadd mtot m) in
    Some (o :: os, ft, mt)
  end.

(** [vlm_coeffs] (205-262). *)
Definition fvlm_coeffs (s : flow) (r : refs) (ftot mtot : vec) : coeffs :=
  let alpha := fdeg2rad (f_alpha s) in
  let beta := fdeg2rad (f_beta s) in
  let sin_a := fsin alpha in let cos_a := fcos alpha in
  let sin_b := fsin beta in let cos_b := fcos beta in
  let q := fdyn_pressure s in
  let q := if Req_EM_T q 0 then 1 else q in
  let row := fun x y z => fdot (mkV x y z) ftot in
  let D := row (fmul cos_b cos_a) (- sin_b) (fmul cos_b sin_a) in
  let C := row (fmul sin_b cos_a) cos_b (fmul sin_b sin_a) in
  let L := row (- sin_a) 0 cos_a in
  let qS := fmul q (r_area r) in
  mkCo D C L
    (fdiv (vx ftot) qS) (fdiv (vy ftot) qS) (fdiv (vz ftot) qS)
    (fdiv D qS) (fdiv C qS) (fdiv L qS)
    (fdiv (vx mtot) (fmul qS (r_span r))) (fdiv (vy mtot) (fmul qS (r_chord r))) (fdiv (vz mtot) (fmul qS (r_span r))).

Record fresults := mkFR { fo_panels : list fpanel; fo_F : vec; fo_M : vec; fo_co : coeffs }.
Definition fvlm_results (eps : R) (lat : list panel) (s : flow) (r : refs) (gamma : list R) : option fresults :=
  let* (os, ft, mt) := fresults_loop eps lat gamma s r (combine lat gamma) vzero vzero in
  Some (mkFR os ft mt (fvlm_coeffs s r ft mt)).
End Float.
