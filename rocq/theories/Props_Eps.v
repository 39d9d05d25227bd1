(** C121: how small the regularisation has to be for plain wings, and that the default is small enough for ordinary ones. *)
From Coq Require Import String Reals List ZArith Lra Lia.
From Verif Require Import PyBase PyVal SettingsModel Vec PanelModel VlmModel AnalysisModel RowSpec DragSpec EpsSpec RowLattice EpsProofs.
From Verif Require AnalysisSpec.
From Coq Require Import List.
Import ListNotations.
Open Scope R_scope.

(** The equations for the circulations have exactly one solution. *)
Theorem C121_unique x0 z0 y subs lat eps c cm w wm D : plain_wing 10000 x0 z0 y subs -> Forall2 tilted (lattice (trail_dir 0 0) subs) lat ->
  dimensions y c cm w wm D subs -> 0 < c -> 0 < w -> D + cm / 2 <= 10000 -> 0 <= eps -> small eps (length lat) c cm w wm D ->
  exists m, downwash eps lat = Some m /\ length m = length lat /\ AnalysisSpec.regular m /\ uniquely_solvable m.
Proof.
  intros W T Dm C0 W0 DL E Sm. destruct (small_matrix x0 z0 y subs lat eps c cm w wm D W T Dm C0 W0 DL E Sm) as (m & H & L & R & U & _). exists m. auto.
Qed.
Print Assumptions C121_unique.
(** Circulations rise with the right-hand side. *)
Theorem C121_monotone x0 z0 y subs lat eps c cm w wm D m b g : plain_wing 10000 x0 z0 y subs -> Forall2 tilted (lattice (trail_dir 0 0) subs) lat ->
  dimensions y c cm w wm D subs -> 0 < c -> 0 < w -> D + cm / 2 <= 10000 -> 0 <= eps -> small eps (length lat) c cm w wm D ->
  downwash eps lat = Some m -> solves m b g -> (forall x, In x b -> 0 <= x) ->
  (forall q, In q g -> 0 <= q) /\ ((exists x, In x b /\ 0 < x) -> forall q, In q g -> 0 < q).
Proof.
  intros W T Dm C0 W0 DL E Sm H. destruct (small_matrix x0 z0 y subs lat eps c cm w wm D W T Dm C0 W0 DL E Sm) as (m' & H' & _ & _ & _ & P).
  assert (M : m' = m) by congruence. rewrite <- M. exact (P b g).
Qed.
Print Assumptions C121_monotone.
(** A wing that is turned down at the trailing edge in some places and up nowhere has positive lift everywhere. *)
Theorem C121_positive x0 z0 y subs lat eps c cm w wm D s r m g : plain_wing 10000 x0 z0 y subs -> Forall2 tilted (lattice (trail_dir 0 0) subs) lat ->
  dimensions y c cm w wm D subs -> 0 < c -> 0 < w -> D + cm / 2 <= 10000 -> 0 < eps -> small eps (length lat) c cm w wm D ->
  straight s -> 0 < f_airspeed s -> 0 < f_rho s -> 0 < r_area r ->
  (forall j, In j lat -> vx (pN j) <= 0) -> (exists j, In j lat /\ vx (pN j) < 0) ->
  downwash eps lat = Some m -> solves m (boundary lat s r) g ->
  exists o CL, vlm_results eps lat s r g = Some o /\ (forall p, In p (o_panels o) -> 0 < vz (o_f p)) /\ 0 < c_L (o_co o) /\ c_CL (o_co o) = Some CL /\ 0 < CL.
Proof. exact (small_positive x0 z0 y subs lat eps c cm w wm D s r m g). Qed.
Print Assumptions C121_positive.
(** Settings without '_epsilon': up to 800 strips that are at most four times as long as wide and
    four times as wide as long, on a wing of at most 1000 widths of the narrowest strip. *)
Theorem C121_default d st x0 z0 y subs lat c cm w wm D : NoDup (map fst d) -> load d = (st, Ok tt) -> dget d "_epsilon"%string = None ->
  plain_wing 10000 x0 z0 y subs -> Forall2 tilted (lattice (trail_dir 0 0) subs) lat -> dimensions y c cm w wm D subs -> 0 < c -> 0 < w -> D + cm / 2 <= 10000 ->
  (length lat <= 800)%nat -> cm <= 4 * w -> wm <= 4 * c -> D <= 1000 * w ->
  exists eps m, get_epsilon st = Got (Some eps) /\ 0 < eps /\ downwash eps lat = Some m /\ length m = length lat /\ AnalysisSpec.regular m /\ uniquely_solvable m.
Proof.
  intros N H E W T Dm C0 W0 DL N8 A B Dw. destruct (default_matrix d st x0 z0 y subs lat c cm w wm D N H E W T Dm C0 W0 DL N8 A B Dw) as (eps & m & H1 & H2 & H3 & H4 & H5 & H6 & _).
  exists eps, m. auto 10.
Qed.
Print Assumptions C121_default.

(** A tapered wing of two halves with 20 strips each and default settings. *)
Definition eps_wing : list (quad * (Z * Z)) := [(plain 0 0 (-10) 0 1 (3/2), (20, 1)%Z); (plain 0 0 0 10 (3/2) 1, (20, 1)%Z)].
Definition eps_settings : dict pyval := [("aircraft", PStr "a.json"); ("state", PStr "s.json")]%string.
Example C121_example :
  plain_wing 10000 0 0 (-10) eps_wing /\ dimensions (-10) 1 (3/2) (1/2) (1/2) 20 eps_wing /\
  small (1 / 1000000) 40 1 (3/2) (1/2) (1/2) 20 /\ 20 + 3/2/2 <= 10000 /\ length (lattice (trail_dir 0 0) eps_wing) = 40%nat /\
  NoDup (map fst eps_settings) /\ (exists st, load eps_settings = (st, Ok tt)) /\ dget eps_settings "_epsilon"%string = None /\
  ~ small (1 / 2) 40 1 (3/2) (1/2) (1/2) 20.
Proof.
  split; [repeat (constructor; [lra|lra|lra|lra|reflexivity|]); constructor|].
  split; [intros q ns nc [H|[H|[]]]; injection H as <- <- <-; unfold across, plain; cbn [qa qb qc qd vx vy]; lra|].
  split; [apply default_small; try lra; lia|]. split; [lra|]. split; [reflexivity|].
  split; [cbn; repeat constructor; cbn; intuition discriminate|]. split; [eexists; vm_compute; reflexivity|]. split; [reflexivity|].
  unfold small. cbn [pow]. intros [H _]. replace (3 / 2 / (1 / 2)) with 3 in H by field. lra.
Qed.
