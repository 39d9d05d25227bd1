(** Model of the solver core: [vlm_downwash] (aero/c_downwash.cpp), [vlm_boundary]
    (aero/c_boundary.cpp), [vlm_results] and [vlm_coeffs] (aero/c_results.cpp), the linear system of
    [solver] (aero/vlm.py) and the free stream vector of objects/state.py; over the reals.

    Simplifications: exact real arithmetic instead of doubles.  A division by zero (which gives inf
    or nan in C) is [None]; for an induced velocity it makes the whole result [None].  Arrays are
    lists with one element per panel; the flat indices i*3+k, j*12+k*3 and i*num_pan+j address
    element [i], leg point [k] of element [j] and column [j] of row [i].  Magnitudes ([iw_mag],
    [fpan_mag]), logging and the condition number are left out.  [lattice->N] is the array after
    the rotations in [gen_lattice]. *)
From Coq Require Import Reals List.
From Verif Require Import Vec PanelModel.
Import ListNotations.
Open Scope R_scope.

(** [statestruct] (alpha and beta in degrees) and [refstruct] (CG: 'gcenter', RP: 'rcenter';
    c_vlm.cpp:765-885). *)
Record flow := mkFlow { f_airspeed : R; f_rho : R; f_alpha : R; f_beta : R; f_P : R; f_Q : R; f_R : R }.
Record refs := mkRefs { r_area : R; r_span : R; r_chord : R; r_CG : vec; r_RP : vec }.

(** a/b in C; [None]: inf or nan. *)
Definition cdiv (a b : R) : option R := if Req_EM_T b 0 then None else Some (a / b).

Notation "'let*' x := a 'in' b" := (match a with Some x => b | None => None end)
  (at level 200, x pattern, a at level 100, b at level 200).

Fixpoint all_some {A B} (f : A -> option B) (l : list A) : option (list B) :=
  match l with
  | [] => Some []
  | x :: l' => let* y := f x in let* r := all_some f l' in Some (y :: r)
  end.

(** Velocity at [p] induced by one leg of unit strength (c_downwash.cpp:59-86, repeated in
    c_results.cpp:93-120). *)
Definition leg_velocity (eps : R) (p v1 v2 : vec) : option vec :=
  let r1 := vsub p v1 in
  let r1_mag := vnorm r1 in
  let r2 := vsub p v2 in
  let r2_mag := vnorm r2 in
  let r1r2_dot := vdot r1 r2 in
  let rcross := vcross r1 r2 in
  let* a := cdiv 1 (r1r2_dot + r1_mag * r2_mag * (1 + eps)) in
  let* b := cdiv 1 r1_mag in
  let* c := cdiv 1 r2_mag in
  let v_c := (1 / (4 * PI)) * a * (b + c) in
  Some (vscale v_c rcross).

(** The three legs k = 0, 1, 2 of a horseshoe (c_downwash.cpp:50-57). *)
Definition legs (j : panel) : list (vec * vec) := [(pV1 j, pV2 j); (pV2 j, pV3 j); (pV3 j, pV4 j)].

(** Loop over the legs (50-93; c_results.cpp:86-127). *)
Fixpoint leg_loop (eps : R) (p : vec) (l : list (vec * vec)) (dw : vec) : option vec :=
  match l with
  | [] => Some dw
  | (v1, v2) :: l' =>
    let* v := leg_velocity eps p v1 v2 in
    leg_loop eps p l' (vadd dw v)
  end.
Definition horseshoe (eps : R) (p : vec) (j : panel) : option vec := leg_loop eps p (legs j) vzero.

(** [vlm_downwash] (27-96): rows of the matrix. *)
Definition downwash (eps : R) (lat : list panel) : option (list (list R)) :=
  all_some (fun i => all_some (fun j => let* dw := horseshoe eps (pC i) j in Some (vdot dw (pN i))) lat) lat.

(** Velocity of the aircraft (c_boundary.cpp:32-42, c_results.cpp:41-51) and velocity of the
    rotation about CG at point [p] (50-59; 138-148). *)
Definition vel_wind (s : flow) : vec :=
  let dir := freestream_direction (deg2rad (f_alpha s)) (deg2rad (f_beta s)) in
  mkV (- f_airspeed s * vx dir) (- f_airspeed s * vy dir) (- f_airspeed s * vz dir).
Definition vel_rot (s : flow) (r : refs) (p : vec) : vec :=
  let arm := vsub p (r_CG r) in
  mkV (f_Q s * vz arm - f_R s * vy arm) (f_R s * vx arm - f_P s * vz arm) (f_P s * vy arm - f_Q s * vx arm).

(** [vlm_boundary] (27-70). *)
Definition boundary (lat : list panel) (s : flow) (r : refs) : list R :=
  map (fun i => vdot (vadd (vel_wind s) (vel_rot s r (pC i))) (pN i)) lat.

(** [solver] (vlm.py:466-476): [dgesv] is external; its result is any vector of the right length
    that solves the system.  (For a singular matrix the returned info is ignored and nothing is
    known about the result.) *)
Definition dot (row g : list R) : R := rsum (map (fun p => fst p * snd p) (combine row g)).
Definition solves (m : list (list R)) (rhs g : list R) : Prop :=
  length g = length m /\ map (fun row => dot row g) m = rhs.

(** Induced velocity at [p] of the whole lattice with circulations (c_results.cpp:80-136). *)
Fixpoint induced_loop (eps : R) (p : vec) (l : list (panel * R)) (iw : vec) : option vec :=
  match l with
  | [] => Some iw
  | (j, g) :: l' =>
    let* dw := horseshoe eps p j in
    induced_loop eps p l' (mkV (vx iw + vx dw * g) (vy iw + vy dw * g) (vz iw + vz dw * g))
  end.

(** Panel results (c_results.cpp:70-205). *)
Record panel_result := mkPR { o_iw : vec; o_f : vec; o_cp : option R }.

Definition dyn_pressure (s : flow) : R := 0.5 * f_rho s * (f_airspeed s * f_airspeed s).

(** Body of the panel loop: result of the panel and its moment. *)
Definition panel_loads (eps : R) (lat : list panel) (gamma : list R) (s : flow) (r : refs) (i : panel) (g : R) :
    option (panel_result * vec) :=
  let P := pB i in
  let* iw := induced_loop eps P (combine lat gamma) vzero in
  let L := vsub (pV3 i) (pV2 i) in                                        (* 138-140 *)
  let w := vel_wind s in
  let o := vel_rot s r P in
  let vel := mkV (vx iw - (vx w + vx o)) (vy iw - (vy w + vy o)) (vz iw - (vz w + vz o)) in
  let f := mkV (f_rho s * (vy vel * vz L - vz vel * vy L) * g)
               (f_rho s * (vz vel * vx L - vx vel * vz L) * g)
               (f_rho s * (vx vel * vy L - vy vel * vx L) * g) in
  let arm := vsub P (r_RP r) in
  let m := mkV (vy arm * vz f - vz arm * vy f) (vz arm * vx f - vx arm * vz f) (vx arm * vy f - vy arm * vx f) in
  let fpan_n := vx f * vx (pN i) + vy f * vy (pN i) + vz f * vz (pN i) in
  let cp := cdiv fpan_n (dyn_pressure s * pA i) in
  Some (mkPR iw f cp, m).

Fixpoint results_loop (eps : R) (lat : list panel) (gamma : list R) (s : flow) (r : refs)
    (l : list (panel * R)) (ftot mtot : vec) : option (list panel_result * vec * vec) :=
  match l with
  | [] => Some ([], ftot, mtot)
  | (i, g) :: l' =>
    let* (o, m) := panel_loads eps lat gamma s r i g in
    let* (os, ft, mt) := results_loop eps lat gamma s r l' (vadd ftot (o_f o)) (vadd mtot m) in
    Some (o :: os, ft, mt)
  end.

(** [vlm_coeffs] (213-262). *)
Record coeffs := mkCo {
  c_D : R; c_C : R; c_L : R;                                            (* ftot_D, ftot_C, ftot_L *)
  c_Cx : option R; c_Cy : option R; c_Cz : option R;
  c_CD : option R; c_CC : option R; c_CL : option R;
  c_Cl : option R; c_Cm : option R; c_Cn : option R }.

Definition vlm_coeffs (s : flow) (r : refs) (ftot mtot : vec) : coeffs :=
  let alpha := deg2rad (f_alpha s) in
  let beta := deg2rad (f_beta s) in
  let sin_a := sin alpha in let cos_a := cos alpha in
  let sin_b := sin beta in let cos_b := cos beta in
  let q := dyn_pressure s in
  let q := if Req_EM_T q 0 then 1 else q in                             (* 231-235 *)
  let row := fun x y z => x * vx ftot + y * vy ftot + z * vz ftot in
  let D := row (cos_b * cos_a) (- sin_b) (cos_b * sin_a) in
  let C := row (sin_b * cos_a) cos_b (sin_b * sin_a) in
  let L := row (- sin_a) 0 cos_a in
  mkCo D C L
    (cdiv (vx ftot) (q * r_area r)) (cdiv (vy ftot) (q * r_area r)) (cdiv (vz ftot) (q * r_area r))
    (cdiv D (q * r_area r)) (cdiv C (q * r_area r)) (cdiv L (q * r_area r))
    (cdiv (vx mtot) (q * r_area r * r_span r)) (cdiv (vy mtot) (q * r_area r * r_chord r))
    (cdiv (vz mtot) (q * r_area r * r_span r)).

(** [vlm_results] (38-210), called by [calc_results] (vlm.py:488-526). *)
Record results := mkRes { o_panels : list panel_result; o_F : vec; o_M : vec; o_co : coeffs }.

Definition vlm_results (eps : R) (lat : list panel) (s : flow) (r : refs) (gamma : list R) : option results :=
  let* (os, ft, mt) := results_loop eps lat gamma s r (combine lat gamma) vzero vzero in
  Some (mkRes os ft mt (vlm_coeffs s r ft mt)).

(** [FlightState.free_stream_velocity_vector] (objects/state.py:138-153). *)
Definition free_stream_velocity_vector (s : flow) : vec :=
  let alpha := deg2rad (f_alpha s) in
  let beta := deg2rad (f_beta s) in
  vscale (f_airspeed s) (mkV (cos alpha * cos beta) (- sin beta) (sin alpha * cos beta)).

(** The normals of a lattice replaced by the rotated ones ([lattice.n], vlm.py:385-417). *)
Definition set_normal (p : panel) (n : vec) : panel :=
  mkPanel (pP p) (pQ p) (pR p) (pS p) (pV1 p) (pV2 p) (pV3 p) (pV4 p) (pC p) (pB p) n (pA p).
Definition set_normals (pans : list panel) (ns : list vec) : list panel :=
  map (fun x => set_normal (fst x) (snd x)) (combine pans ns).
