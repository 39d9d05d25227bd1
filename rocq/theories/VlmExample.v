(** A concrete lattice that meets the hypotheses of the solver theorems; finite results of regular
    lattices. *)
From Coq Require Import Reals List Lra Psatz Lia.
From Verif Require Import Vec PanelModel GeomSpec GeomProofs VlmModel VlmSpec VlmProofs VlmLaws VlmSymmetry.
Import ListNotations.
Open Scope R_scope.

Lemma leg_finite eps p a b : 0 < eps -> (exists v, leg_velocity eps p a b = Some v) <-> p <> a /\ p <> b.
Proof.
  intro E. split.
  - intros (v & H). exact (leg_off_ends _ _ _ _ _ H).
  - intros (A & B). eexists. apply leg_regular; assumption.
Qed.

Lemma regular_finite eps lat s r g : 0 < eps -> regular lat -> length g = length lat ->
  exists m o, downwash eps lat = Some m /\ length m = length lat /\ vlm_results eps lat s r g = Some o /\ length (o_panels o) = length lat.
Proof.
  intros E R L. eexists _, _. split.
  { apply downwash_ok. intros i j I J. apply horseshoe_regular; [exact E|]. apply (R i j I J). }
  split; [rewrite map_length; reflexivity|]. 
  assert (H : vlm_results eps lat s r g = Some (results_val eps lat s r g)).
  { apply vlm_results_ok. intros i x [j y] I J. apply horseshoe_regular; [exact E|].
    apply in_combine_l in I, J. apply (R i j I J). }
  split; [exact H|]. destruct (panel_results _ _ _ _ _ _ H L) as (K & _). exact K.
Qed.

(** The bound leg induces nothing at its own midpoint. *)
Lemma own_bound_leg eps a b : 0 < eps -> a <> b -> leg_velocity eps (midpoint a b) a b = Some vzero.
Proof.
  intros E N.
  assert (A : midpoint a b <> a).
  { intro H. apply N. pose proof (f_equal vx H) as X. pose proof (f_equal vy H) as Y. pose proof (f_equal vz H) as Z.
    unfold midpoint, along in *. vsimp. apply vec_eq; lra. }
  assert (B : midpoint a b <> b).
  { intro H. apply N. pose proof (f_equal vx H) as X. pose proof (f_equal vy H) as Y. pose proof (f_equal vz H) as Z.
    unfold midpoint, along in *. vsimp. apply vec_eq; lra. }
  destruct (proj2 (leg_finite eps (midpoint a b) a b E) (conj A B)) as (v & H).
  rewrite H. f_equal. apply (leg_on_line _ _ _ _ _ H). unfold midpoint, along. apply vec_eq; vsimp; field.
Qed.

(** ** One panel across the plane of symmetry *)
Definition pan1 : panel :=
  mkPanel (mkV (-1) (-1) 0) (mkV (-1) 1 0) (mkV 3 1 0) (mkV 3 (-1) 0)
    (mkV 10000 (-1) 0) (mkV 0 (-1) 0) (mkV 0 1 0) (mkV 10000 1 0) (mkV 2 0 0) (mkV 0 0 0) (mkV 0 0 1) 8.
Definition lat1 : list panel := [pan1].
Definition flow1 : flow := mkFlow 10 1 5 0 0 1 0.
Definition refs1 : refs := mkRefs 8 2 4 (mkV 1 0 0) (mkV 1 0 0).

Lemma lat1_symmetric : symmetric_lattice (fun i => i) lat1.
Proof.
  intros [|[|i]] p N; cbn in N; try discriminate. injection N as <-. split; [reflexivity|]. exists pan1. split; [reflexivity|].
  unfold image_of, mir, pan1. cbn [pC pB pA pV1 pV2 pV3 pV4 pN vx vy vz].
  split; [apply vec_eq; vsimp; ring|]. split; [apply vec_eq; vsimp; ring|]. split; [reflexivity|]. left.
  split; [apply vec_eq; vsimp; ring|]. split; [apply vec_eq; vsimp; ring|]. split; [apply vec_eq; vsimp; ring|].
  split; apply vec_eq; vsimp; ring.
Qed.

Lemma lat1_regular : regular lat1.
Proof.
  intros i j [<-|[]] [<-|[]]. unfold off_ends, pan1. cbn [pC pB pV1 pV2 pV3 pV4].
  repeat split; intro H; pose proof (f_equal vx H) as X; pose proof (f_equal vy H) as Y; vsimp; lra.
Qed.

Lemma leg_down eps p a b : 0 < eps -> p <> a -> p <> b -> vz (vcross (vsub p a) (vsub p b)) < 0 -> vz (leg_val eps p a b) < 0.
Proof.
  intros E A B C. unfold leg_val. cbv zeta. cbn [vscale vz].
  assert (A' : vsub p a <> vzero) by (intro H; apply A, vsub_eq, H).
  assert (B' : vsub p b <> vzero) by (intro H; apply B, vsub_eq, H).
  pose proof (leg_den_pos eps _ _ E A' B') as D. pose proof (vnorm_pos _ A'). pose proof (vnorm_pos _ B'). pose proof PI_RGT_0.
  assert (0 < 1 / (4 * PI)) by (apply Rdiv_lt_0_compat; lra).
  assert (0 < 1 / (vdot (vsub p a) (vsub p b) + vnorm (vsub p a) * vnorm (vsub p b) * (1 + eps))) by (apply Rdiv_lt_0_compat; lra).
  assert (0 < 1 / vnorm (vsub p a)) by (apply Rdiv_lt_0_compat; lra).
  assert (0 < 1 / vnorm (vsub p b)) by (apply Rdiv_lt_0_compat; lra).
  set (x := 1 / (4 * PI)) in *. set (y := 1 / (_ + _)) in *. set (z := 1 / vnorm (vsub p a)) in *. set (w := 1 / vnorm (vsub p b)) in *. clearbody x y z w.
  assert (0 < x * y * (z + w)) by (repeat apply Rmult_lt_0_compat; lra). cbn [vcross vz] in C |- *. nra.
Qed.

Lemma lat1_downwash eps : 0 < eps -> exists a, downwash eps lat1 = Some [[a]] /\ a < 0.
Proof.
  intro E. unfold downwash, lat1. cbn [all_some]. rewrite horseshoe_eq.
  assert (N : forall c d, vx c <> vx d \/ vy c <> vy d -> c <> d) by (intros c d H ->; destruct H as [H|H]; apply H; reflexivity).
  rewrite !leg_regular; try exact E; try (apply N; unfold pan1; vsimp; first [left; lra|right; lra]).
  eexists. split; [reflexivity|].
  set (u := leg_val _ _ (pV1 pan1) _). set (v := leg_val _ _ (pV2 pan1) _). set (t := leg_val _ _ (pV3 pan1) _).
  assert (vz u < 0) by (apply leg_down; try exact E; try (apply N; unfold pan1; vsimp; first [left; lra|right; lra]); unfold pan1; vsimp; lra).
  assert (vz v < 0) by (apply leg_down; try exact E; try (apply N; unfold pan1; vsimp; first [left; lra|right; lra]); unfold pan1; vsimp; lra).
  assert (vz t < 0) by (apply leg_down; try exact E; try (apply N; unfold pan1; vsimp; first [left; lra|right; lra]); unfold pan1; vsimp; lra).
  clearbody u v t. unfold vdot, pan1. vsimp. lra.
Qed.

Lemma one_unique a b : a <> 0 -> unique_solution [[a]] [b] /\ solves [[a]] [b] [b / a].
Proof.
  intro A. split.
  - intros g g' (L & H) (L' & H'). destruct g as [|x [|? ?]]; try discriminate. destruct g' as [|x' [|? ?]]; try discriminate.
    injection H as H. injection H' as H'. unfold dot in *. cbn in H, H'. f_equal. apply (Rmult_eq_reg_l a); [lra|exact A].
  - split; [reflexivity|]. cbn. f_equal. field. exact A.
Qed.

Lemma lat1_solved eps s r : 0 < eps -> exists m g o, downwash eps lat1 = Some m /\ unique_solution m (boundary lat1 s r) /\
  solves m (boundary lat1 s r) g /\ vlm_results eps lat1 s r g = Some o.
Proof.
  intro E. destruct (lat1_downwash eps E) as (a & D & A).
  assert (B : exists b, boundary lat1 s r = [b]) by (eexists; reflexivity). destruct B as (b & B).
  destruct (one_unique a b ltac:(lra)) as (U & S).
  destruct (regular_finite eps lat1 s r [b / a] E lat1_regular eq_refl) as (_ & o & _ & _ & H & _).
  exists [[a]], [b / a], o. rewrite B. auto.
Qed.

(** The circulation is not zero in the example. *)
Lemma lat1_loaded eps m g : 0 < eps -> downwash eps lat1 = Some m -> solves m (boundary lat1 flow1 refs1) g -> exists x, g = [x] /\ x <> 0.
Proof.
  intros E D S. destruct (lat1_downwash eps E) as (a & D' & A). rewrite D in D'. injection D' as ->.
  destruct S as (L & H). destruct g as [|x [|? ?]]; try discriminate. exists x. split; [reflexivity|]. intros ->.
  unfold boundary, lat1 in H. cbn [map] in H. injection H as H. rewrite vel_onset in H.
  unfold dot, onset, wind, rates, flow1, refs1, pan1, vdot in H. cbn in H. unfold rad in H.
  replace (0 * PI / 180) with 0 in H by field. rewrite cos_0, sin_0 in H.
  assert (0 < sin (5 * PI / 180)) by (pose proof PI_RGT_0; apply sin_gt_0; lra). lra.
Qed.
