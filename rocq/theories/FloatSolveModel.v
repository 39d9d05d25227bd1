(** Model of [vlm_downwash] (aero/c_downwash.cpp:27-97) and [vlm_boundary] (aero/c_boundary.cpp:27-70)
    in floating-point arithmetic: the functions of [VlmModel] with every operation followed by a
    rounding.  Simplifications: as in [FloatModel]. *)
From Coq Require Import Reals List.
From Verif Require Import Vec PanelModel VlmModel FloatModel.
Import ListNotations.
Open Scope R_scope.

Section Float.
Variable rnd : R -> R.
Variables fsin fcos : R -> R.
Variable PIc : R.

(** c_downwash.cpp:30-96; the velocity of a leg (59-86) is computed as in [vlm_results]. *)
Definition fdownwash (eps : R) (lat : list panel) : option (list (list R)) :=
  all_some (fun i => all_some (fun j =>
    let* dw := fleg_loop rnd PIc eps (pC i) (legs j) vzero in Some (fdot rnd dw (pN i))) lat) lat.

(** c_boundary.cpp:32-68; velocities as in [vlm_results]. *)
Definition fboundary (lat : list panel) (s : flow) (r : refs) : list R :=
  map (fun i =>
    let vel := fvadd rnd (fvel_wind rnd fsin fcos PIc s) (fvel_rot rnd s r (pC i)) in
    fdot rnd vel (pN i)) lat.
End Float.
