(** Property theorems: plain wings (C108-C109). *)
From Coq Require Import Reals List ZArith Lra.
From Verif Require Import Vec PanelModel GeomSpec VlmModel VlmSpec RowSpec RowMatrix RowProofs RowLattice.
From Verif Require AnalysisSpec.
Import ListNotations.
Open Scope R_scope.

(** C108: for a plane wing of one row of panels with a straight quarter-chord line, at zero angles and
    with small regularisation, the equations for the circulations have exactly one solution. *)
Theorem C108_unique x0 z0 y subs lat : plain_wing 10000 x0 z0 y subs -> Forall2 tilted (lattice (trail_dir 0 0) subs) lat ->
  exists e0, 0 < e0 /\ forall eps, 0 <= eps < e0 ->
    exists m, downwash eps lat = Some m /\ length m = length lat /\ AnalysisSpec.regular m /\ uniquely_solvable m.
Proof.
  intros W T. destruct (plain_solution x0 z0 y subs lat W T) as (e0 & E0 & H). exists e0. split; [exact E0|].
  intros eps E. destruct (H eps E) as (m & D & L & R & U & _). exists m. auto.
Qed.
Print Assumptions C108_unique.
(** ... and circulations rise with the right-hand side. *)
Theorem C108_monotone x0 z0 y subs lat : plain_wing 10000 x0 z0 y subs -> Forall2 tilted (lattice (trail_dir 0 0) subs) lat ->
  exists e0, 0 < e0 /\ forall eps m b g, 0 <= eps < e0 -> downwash eps lat = Some m -> solves m b g -> (forall x, In x b -> 0 <= x) ->
    (forall q, In q g -> 0 <= q) /\ ((exists x, In x b /\ 0 < x) -> forall q, In q g -> 0 < q).
Proof.
  intros W T. destruct (plain_solution x0 z0 y subs lat W T) as (e0 & E0 & H). exists e0. split; [exact E0|].
  intros eps m b g E D. destruct (H eps E) as (m' & D' & _ & _ & _ & P). assert (M : m' = m) by congruence. rewrite <- M. exact (P b g).
Qed.
Print Assumptions C108_monotone.

(** C109: lift of such a wing: density times speed times circulation times width for each panel. *)
Theorem C109_lift x0 z0 y subs lat s r eps g : plain_wing 10000 x0 z0 y subs -> Forall2 tilted (lattice (trail_dir 0 0) subs) lat ->
  straight s -> 0 < eps -> length g = length lat ->
  exists o, vlm_results eps lat s r g = Some o /\
    (forall n j q, nth_error lat n = Some j -> nth_error g n = Some q -> exists p, nth_error (o_panels o) n = Some p /\
       vy (o_f p) = 0 /\ vz (o_f p) = f_rho s * f_airspeed s * q * width j) /\
    c_L (o_co o) = f_rho s * f_airspeed s * circulation_area lat g.
Proof. exact (plain_lift x0 z0 y subs lat s r eps g). Qed.
Print Assumptions C109_lift.
(** ... which is positive on all panels if a part of the wing is turned down at the trailing edge. *)
Theorem C109_positive x0 z0 y subs lat : plain_wing 10000 x0 z0 y subs -> Forall2 tilted (lattice (trail_dir 0 0) subs) lat ->
  exists e0, 0 < e0 /\ forall eps s r m g, 0 < eps < e0 -> straight s -> 0 < f_airspeed s -> 0 < f_rho s -> 0 < r_area r ->
    (forall j, In j lat -> vx (pN j) <= 0) -> (exists j, In j lat /\ vx (pN j) < 0) ->
    downwash eps lat = Some m -> solves m (boundary lat s r) g ->
    exists o CL, vlm_results eps lat s r g = Some o /\ (forall p, In p (o_panels o) -> 0 < vz (o_f p)) /\ 0 < c_L (o_co o) /\ c_CL (o_co o) = Some CL /\ 0 < CL.
Proof. exact (plain_positive x0 z0 y subs lat). Qed.
Print Assumptions C109_positive.

(** A wing of two tapered halves with three and two strips, the first panel turned down. *)
Definition ex_wing : list (quad * (Z * Z)) := [(plain 0 0 (-5) 0 1 2, (3, 1)%Z); (plain 0 0 0 5 2 1, (2, 1)%Z)].
Definition ex_turn (ps : list panel) : list panel :=
  match ps with [] => [] | p :: r => set_normal p (mkV (-3 / 5) 0 (-4 / 5)) :: map (fun p => set_normal p (mkV 0 0 (-1))) r end.
Example C108_example :
  let lat := ex_turn (lattice (trail_dir 0 0) ex_wing) in
  plain_wing 10000 0 0 (-5) ex_wing /\ Forall2 tilted (lattice (trail_dir 0 0) ex_wing) lat /\ length lat = 5%nat /\
  (forall j, In j lat -> vx (pN j) <= 0) /\ (exists j, In j lat /\ vx (pN j) < 0).
Proof.
  cbv zeta. unfold ex_wing, lattice. cbn [flat_map fst snd]. unfold sub_panels. change (Z.to_nat (3 * 1)) with 3%nat. change (Z.to_nat (2 * 1)) with 2%nat.
  cbn [seq map app ex_turn length]. split; [|split; [|split; [reflexivity|split]]].
  - repeat (constructor; [lra|lra|lra|lra|reflexivity|]). constructor.
  - repeat (constructor; [do 6 (split; [reflexivity|]); cbn [set_normal pN vz]; lra|]). constructor.
  - intros j J. cbn [In] in J. repeat destruct J as [<-|J]; cbn [set_normal pN vx]; try lra.
  - eexists. split; [left; reflexivity|]. cbn [set_normal pN vx]. lra.
Qed.
