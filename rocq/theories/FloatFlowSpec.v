(** Specification for the flow around the wing computed in floating-point arithmetic (C118). *)
From Coq Require Import Reals List.
From Verif Require Import Vec PanelModel VlmModel VlmSpec FloatModel FloatSpec FloatSolveSpec.
Import ListNotations.
Open Scope R_scope.

(** What the solver leaves of equation [n] of the system [m g = b] (exactly). *)
Definition residual (m : list (list R)) (b g : list R) (n : nat) (e : R) : Prop :=
  exists row x, nth_error m n = Some row /\ nth_error b n = Some x /\
    e = Rabs (rsum (map (fun p => fst p * snd p) (combine row g)) - x).

(** Sizes, without cancellation, of the velocity that circulations [g] induce at [p] and of the flow
    they send through panel [i]. *)
Definition shoe_size (eps : R) (p : vec) (j : panel) : vec := vsum (map (fun l => leg_size eps p (fst l) (snd l)) (legs j)).
Definition induced_size (eps : R) (lat : list panel) (g : list R) (p : vec) : vec :=
  vsum (map (fun x => vscale (Rabs (snd x)) (shoe_size eps p (fst x))) (combine lat g)).
Definition through_size (eps : R) (lat : list panel) (g : list R) (i : panel) : R :=
  rsum (map (fun x => entry_size eps i (fst x) * Rabs (snd x)) (combine lat g)).

(** The velocity of the air at [p] of a rotating aircraft in the free stream [w], without the wing. *)
Definition onset_in (w : vec) (s : flow) (r : refs) (p : vec) : vec := vsub w (vcross (omega s) (vsub p (r_CG r))).

(** The functions sin and cos of the C library, accurate to [u]. *)
Definition libm (u : R) (fsin fcos : R -> R) : Prop :=
  forall x, Rabs (fsin x - sin x) <= u * Rabs (sin x) /\ Rabs (fcos x - cos x) <= u * Rabs (cos x).
(** Error of the sine or cosine of an angle given in degrees. *)
Definition angle_error (u deg : R) : R := u + ((1 + u) ^ 3 - 1) * Rabs (rad deg).

(** A lattice for which flow at most [K] through all panels needs circulations of at most [K / c]
    ([1 / c] is the norm of the inverse of the downwash matrix). *)
Definition conditioned (eps : R) (lat : list panel) (c : R) : Prop :=
  0 < c /\ forall x K, length x = length lat ->
    (forall i, In i lat -> exists v, is_induced eps lat x (pC i) v /\ Rabs (vdot v (pN i)) <= K) ->
    forall y, In y x -> Rabs y <= K / c.
(** Flow through panel [i] that all the errors together can leave; [e]: residual. *)
Definition flow_error (u eps : R) (lat : list panel) (w : vec) (s : flow) (r : refs) (g : list R) (i : panel) (e : R) : R :=
  let ea := angle_error u (f_alpha s) in let eb := angle_error u (f_beta s) in
  e + velocity_error u eps 11 * through_size eps lat g i + ((1 + u) ^ 7 - 1) * onset_size w s r i +
  Rabs (f_airspeed s) * vdot (mkV (ea + eb + ea * eb) eb (ea + eb + ea * eb)) (vabs (pN i)).
