(** Lattices of scaled aircraft. *)
From Coq Require Import Reals List ZArith Lra Psatz.
From Verif Require Import Vec PanelModel GeomSpec GeomProofs VlmModel VlmSpec VlmProofs VlmLaws VlmSymmetry VlmExample BiotSavart WakeSpec.
Import ListNotations.
Open Scope R_scope.

Lemma vscale_one_div k (v : vec) (n : R) : k <> 0 -> (n = 0 -> v = vzero) ->
  mkV (k * vx v / (k * n)) (k * vy v / (k * n)) (k * vz v / (k * n)) = mkV (vx v / n) (vy v / n) (vz v / n).
Proof.
  intros K Z. destruct (Req_EM_T n 0) as [E|E].
  - rewrite (Z E). apply vec_eq; vsimp; unfold Rdiv; ring.
  - apply vec_eq; vsimp; field; auto.
Qed.

Lemma panel_scale k dir P Q R S : 0 < k ->
  panel_of_corners (vscale k dir) (vscale k P) (vscale k Q) (vscale k R) (vscale k S) = scale k (panel_of_corners dir P Q R S).
Proof.
  intros K. assert (KK : 0 < k * k) by nra. unfold panel_of_corners, scale. cbn [pP pQ pR pS pV1 pV2 pV3 pV4 pC pB pN pA].
  f_equal; try (apply vec_eq; vsimp; ring).
  - match goal with |- mkV (vx ?n1 / _) _ _ = mkV (vx ?n2 / _) _ _ => assert (E : n1 = vscale (k * k) n2) by (apply vec_eq; unfold normal_raw, vec1, vec2; vsimp; ring); set (n := n2) in *; rewrite E end.
    rewrite vnorm_scale, Rabs_pos_eq by lra. cbn [vscale vx vy vz]. apply vscale_one_div; [lra|]. intro Z. apply vnorm_zero. exact Z.
  - assert (E1 : pan_span (vscale k P) (vscale k Q) (vscale k R) (vscale k S) = vscale k (pan_span P Q R S)) by (apply vec_eq; unfold pan_span; vsimp; ring).
    assert (E2 : pan_chord (vscale k P) (vscale k Q) (vscale k R) (vscale k S) = vscale k (pan_chord P Q R S)) by (apply vec_eq; unfold pan_chord; vsimp; ring).
    rewrite E1, E2, !vnorm_scale, Rabs_pos_eq by lra. ring.
Qed.
Lemma corner_scale k q s c : corner (scale_quad k q) s c = vscale k (corner q s c).
Proof. unfold corner, coord, scale_quad. apply vec_eq; vsimp; ring. Qed.
Lemma lattice_scale k dir subs : 0 < k -> lattice (vscale k dir) (scale_subs k subs) = map (scale k) (lattice dir subs).
Proof.
  intros K. unfold lattice, scale_subs. induction subs as [|[q [ps pc]] subs IH]; [reflexivity|]. cbn [map flat_map fst snd]. rewrite IH, map_app. f_equal.
  unfold sub_panels. rewrite map_map. apply map_ext. intros n. unfold make_panel. rewrite !corner_scale. apply panel_scale. exact K.
Qed.

(** ** A wing of one panel *)
Definition quad1 : quad := mkQuad (mkV (-1) (-1) 0) (mkV (-1) 1 0) (mkV 3 1 0) (mkV 3 (-1) 0).
Definition flat (L : R) : panel :=
  mkPanel (mkV (-1) (-1) 0) (mkV (-1) 1 0) (mkV 3 1 0) (mkV 3 (-1) 0)
    (mkV L (-1) 0) (mkV 0 (-1) 0) (mkV 0 1 0) (mkV L 1 0) (mkV 2 0 0) (mkV 0 0 0) (mkV 0 0 (-1)) 8.
Definition flow2 : flow := mkFlow 10 1 0 0 0 1 0.

Lemma norm_z z : vnorm (mkV 0 0 z) = Rabs z.
Proof. unfold vnorm. cbn [vx vy vz]. replace (0 * 0 + 0 * 0 + z * z) with (Rsqr z) by (unfold Rsqr; ring). apply sqrt_Rsqr_abs. Qed.
Lemma flat_lattice L : lattice (mkV L 0 0) [(quad1, (1, 1)%Z)] = [flat L].
Proof.
  unfold lattice, sub_panels. cbn [flat_map fst snd]. change (Z.to_nat (1 * 1)) with 1%nat. cbn [seq map app]. apply (f_equal (fun x => [x])).
  change (Z.of_nat 0 mod 1)%Z with 0%Z. change (Z.of_nat 0 / 1)%Z with 0%Z. unfold make_panel.
  assert (C : forall s c, corner quad1 s c = mkV (-1 + 4 * c) (-1 + 2 * s) 0) by (intros; unfold corner, coord, quad1; apply vec_eq; vsimp; ring).
  rewrite !C. replace (-1 + 4 * (1 / 1 * 0)) with (-1) by field. replace (-1 + 2 * (1 / 1 * 0)) with (-1) by field.
  replace (-1 + 4 * (1 / 1 * (0 + 1))) with 3 by field. replace (-1 + 2 * (1 / 1 * (0 + 1))) with 1 by field.
  unfold panel_of_corners, flat. f_equal; try (apply vec_eq; vsimp; lra).
  - match goal with |- mkV (vx ?n / _) _ _ = _ => assert (E : n = mkV 0 0 (-3)) by (apply vec_eq; unfold normal_raw, vec1, vec2; vsimp; lra); rewrite E end.
    rewrite norm_z, Rabs_left by lra. apply vec_eq; vsimp; field.
  - assert (E1 : pan_span (mkV (-1) (-1) 0) (mkV (-1) 1 0) (mkV 3 1 0) (mkV 3 (-1) 0) = vscale 2 (mkV 0 1 0)) by (apply vec_eq; unfold pan_span; vsimp; lra).
    assert (E2 : pan_chord (mkV (-1) (-1) 0) (mkV (-1) 1 0) (mkV 3 1 0) (mkV 3 (-1) 0) = vscale 4 (mkV 1 0 0)) by (apply vec_eq; unfold pan_chord; vsimp; lra).
    rewrite E1, E2, !vnorm_scale, !Rabs_pos_eq by lra. unfold vnorm. cbn [vx vy vz].
    replace (0 * 0 + 1 * 1 + 0 * 0) with 1 by ring. replace (1 * 1 + 0 * 0 + 0 * 0) with 1 by ring. rewrite sqrt_1. ring.
Qed.

(** The legs in the plane z = 0. *)
Definition trail (eps L : R) : R :=
  let n1 := sqrt ((2 - L) * (2 - L) + 1) in
  (1 / (4 * PI)) * (1 / (5 - 2 * L + n1 * sqrt 5 * (1 + eps))) * (1 / n1 + 1 / sqrt 5) * L.

Lemma ne_vec (c d : vec) : vx c <> vx d \/ vy c <> vy d -> c <> d.
Proof. intros H ->. destruct H as [H|H]; apply H; reflexivity. Qed.

Lemma flat_downwash eps : 0 < eps -> exists c, 0 < c /\ forall L : R, 0 < L -> downwash eps [flat L] = Some [[c + 2 * trail eps L]].
Proof.
  intros E. exists (- vz (leg_val eps (mkV 2 0 0) (mkV 0 (-1) 0) (mkV 0 1 0))). split.
  - enough (vz (leg_val eps (mkV 2 0 0) (mkV 0 (-1) 0) (mkV 0 1 0)) < 0) by lra.
    apply leg_down; [exact E| | |vsimp; lra]; apply ne_vec; left; vsimp; lra.
  - intros L' L0. unfold downwash. cbn [all_some]. rewrite horseshoe_eq.
    rewrite !leg_regular; try exact E; try (apply ne_vec; unfold flat; vsimp; first [left; lra|right; lra]).
    do 4 f_equal. unfold flat. cbn [pC pV1 pV2 pV3 pV4 pN].
    assert (S5 : sqrt (2 * 2 + 1 * 1 + 0 * 0) = sqrt 5) by (f_equal; ring).
    unfold vdot at 1. cbn [vx vy vz vadd].
    assert (T1 : vz (leg_val eps (mkV 2 0 0) (mkV L' (-1) 0) (mkV 0 (-1) 0)) = - trail eps L').
    { unfold leg_val, trail, vnorm, vdot. cbv zeta. vsimp.
      replace ((2 - L') * (2 - L') + (0 - -1) * (0 - -1) + (0 - 0) * (0 - 0)) with ((2 - L') * (2 - L') + 1) by ring.
      replace ((2 - 0) * (2 - 0) + (0 - -1) * (0 - -1) + (0 - 0) * (0 - 0)) with 5 by ring.
      replace ((2 - L') * (2 - 0) + (0 - -1) * (0 - -1) + (0 - 0) * (0 - 0)) with (5 - 2 * L') by ring. ring. }
    assert (T2 : vz (leg_val eps (mkV 2 0 0) (mkV 0 1 0) (mkV L' 1 0)) = - trail eps L').
    { unfold leg_val, trail, vnorm, vdot. cbv zeta. vsimp.
      replace ((2 - L') * (2 - L') + (0 - 1) * (0 - 1) + (0 - 0) * (0 - 0)) with ((2 - L') * (2 - L') + 1) by ring.
      replace ((2 - 0) * (2 - 0) + (0 - 1) * (0 - 1) + (0 - 0) * (0 - 0)) with 5 by ring.
      replace ((2 - 0) * (2 - L') + (0 - 1) * (0 - 1) + (0 - 0) * (0 - 0)) with (5 - 2 * L') by ring.
      rewrite (Rmult_comm (sqrt 5) (sqrt _)), (Rplus_comm (1 / sqrt 5)). ring. }
    rewrite T1, T2. ring.
Qed.

(** The legs at a point in the plane z = 0 and the loads. *)
Lemma leg_plane eps p a b : vz p = 0 -> vz a = 0 -> vz b = 0 -> vx (leg_val eps p a b) = 0 /\ vy (leg_val eps p a b) = 0.
Proof. intros P A B. unfold leg_val. cbv zeta. vsimp. rewrite P, A, B. split; ring. Qed.
Lemma flat_results eps L g : 0 < eps -> 0 < L ->
  exists o, vlm_results eps [flat L] flow2 refs1 [g] = Some o /\ c_CL (o_co o) = Some (g / 20).
Proof.
  intros E L0.
  assert (H : exists z, horseshoe eps (mkV 0 0 0) (flat L) = Some (mkV 0 0 z)).
  { rewrite horseshoe_eq. unfold flat. cbn [pV1 pV2 pV3 pV4].
    rewrite !leg_regular; try exact E; try (apply ne_vec; vsimp; first [left; lra|right; lra]).
    destruct (leg_plane eps (mkV 0 0 0) (mkV L (-1) 0) (mkV 0 (-1) 0) eq_refl eq_refl eq_refl) as [A1 A2].
    destruct (leg_plane eps (mkV 0 0 0) (mkV 0 (-1) 0) (mkV 0 1 0) eq_refl eq_refl eq_refl) as [B1 B2].
    destruct (leg_plane eps (mkV 0 0 0) (mkV 0 1 0) (mkV L 1 0) eq_refl eq_refl eq_refl) as [C1 C2].
    eexists. f_equal. apply vec_eq; cbn [vadd vx vy vz]; [rewrite A1, B1, C1; ring|rewrite A2, B2, C2; ring|reflexivity]. }
  destruct H as (z & H). unfold vlm_results. cbn [combine results_loop]. unfold panel_loads. cbn [combine induced_loop].
  change (pB (flat L)) with (mkV 0 0 0). rewrite H. eexists. split; [reflexivity|].
  unfold vlm_coeffs, deg2rad. cbn [o_co c_CL o_f flat flow2 refs1 pV3 pV2 f_alpha f_beta f_airspeed f_rho f_P f_Q f_R r_area r_CG].
  rewrite !Rmult_0_l. unfold vel_wind, freestream_direction, deg2rad. cbn [f_alpha f_beta f_airspeed flow2]. rewrite !Rmult_0_l, !sin_0, !cos_0.
  unfold dyn_pressure. cbn [f_rho f_airspeed flow2]. destruct (Req_EM_T _ 0) as [X|_]; [lra|].
  unfold cdiv. destruct (Req_EM_T _ 0) as [X|_]; [lra|]. f_equal. vsimp. unfold vel_rot. vsimp. cbn [f_P f_Q f_R flow2 r_CG refs1]. vsimp.
  replace (0.5 * 1 * (10 * 10) * 8) with 400 by lra. field.
Qed.
Lemma flat_boundary L : boundary [flat L] flow2 refs1 = [1].
Proof.
  unfold boundary. cbn [map]. f_equal. unfold vel_wind, freestream_direction, deg2rad, vel_rot, flat, flow2, refs1.
  cbn [f_alpha f_beta f_airspeed f_P f_Q f_R r_CG pC pN]. rewrite !Rmult_0_l, !sin_0, !cos_0. unfold vdot. vsimp. ring.
Qed.

Lemma solves_one a b g : a <> 0 -> solves [[a]] [b] g <-> g = [b / a].
Proof.
  intros A. unfold solves, dot. destruct g as [|x [|y g]]; cbn [length map combine rsum fst snd fold_right].
  - split; [intros [H _]|intros H]; discriminate H.
  - split.
    + intros [_ H]. injection H as H. f_equal. rewrite <- H. unfold rsum. cbn. field. exact A.
    + intros H. injection H as ->. split; [reflexivity|]. f_equal. unfold rsum. cbn. field. exact A.
  - split; [intros [H _]|intros H]; discriminate H.
Qed.

Lemma s5 : 2.236 < sqrt 5 < 2.2361.
Proof.
  split.
  - rewrite <- (sqrt_square 2.236) by lra. apply sqrt_lt_1; lra.
  - rewrite <- (sqrt_square 2.2361) by lra. apply sqrt_lt_1; lra.
Qed.
Lemma trail_short : 0 < trail (1 / 1000000) 2 < 1 / (4 * PI).
Proof.
  pose proof s5. pose proof PI_RGT_0. unfold trail. replace ((2 - 2) * (2 - 2) + 1) with 1 by ring. rewrite sqrt_1.
  set (s := sqrt 5) in *. assert (P : 0 < 1 / (4 * PI)) by (apply Rdiv_lt_0_compat; lra). set (f := 1 / (4 * PI)) in *.
  assert (S : 1 / 2.2361 < 1 / s < 1 / 2.236) by (split; unfold Rdiv; rewrite !Rmult_1_l; apply Rinv_lt_contravar; nra).
  set (d := 5 - 2 * 2 + 1 * s * (1 + 1 / 1000000)). assert (D : 3.2 < d) by (unfold d; lra).
  assert (I : 0 < 1 / d < 1 / 3.2) by (split; [apply Rdiv_lt_0_compat; lra|unfold Rdiv; rewrite !Rmult_1_l; apply Rinv_lt_contravar; nra]).
  set (y := 1 / d) in *. set (w := 1 / s) in *.
  assert (B : 0 < y * (1 / 1 + w) * 2 < 1) by (split; [nra|]; assert (1 / 1 + w < 1.45) by lra; assert (y * (1 / 1 + w) < 1 / 3.2 * 1.45) by nra; lra).
  replace (f * y * (1 / 1 + w) * 2) with (f * (y * (1 / 1 + w) * 2)) by ring. split; nra.
Qed.
Lemma trail_long : 1 / (4 * PI) < trail (1 / 1000000) 10000.
Proof.
  pose proof s5. pose proof PI_RGT_0. unfold trail. set (s := sqrt 5) in *.
  assert (N : 9998 < sqrt ((2 - 10000) * (2 - 10000) + 1) < 9998.1).
  { split.
    - rewrite <- (sqrt_square 9998) at 1 by lra. replace ((2 - 10000) * (2 - 10000)) with (9998 * 9998) by lra. apply sqrt_lt_1; lra.
    - rewrite <- (sqrt_square 9998.1) by lra. apply sqrt_lt_1; lra. }
  set (n := sqrt ((2 - 10000) * (2 - 10000) + 1)) in *. assert (P : 0 < 1 / (4 * PI)) by (apply Rdiv_lt_0_compat; lra). set (f := 1 / (4 * PI)) in *.
  assert (S : 1 / 2.2361 < 1 / s) by (unfold Rdiv; rewrite !Rmult_1_l; apply Rinv_lt_contravar; nra).
  assert (NI : 0 < 1 / n) by (apply Rdiv_lt_0_compat; lra).
  assert (M : 22355 < n * s < 22357).
  { assert (9998 * 2.236 < n * s) by (apply Rmult_le_0_lt_compat; lra). assert (n * s < 9998.1 * 2.2361) by (apply Rmult_le_0_lt_compat; lra). lra. }
  set (d := 5 - 2 * 10000 + n * s * (1 + 1 / 1000000)). assert (D : 2000 < d < 2400) by (unfold d; nra).
  assert (I : 1 / 2400 < 1 / d) by (unfold Rdiv; rewrite !Rmult_1_l; apply Rinv_lt_contravar; nra).
  set (y := 1 / d) in *. set (w := 1 / s) in *. set (v := 1 / n) in *.
  assert (B : 1 < y * (v + w) * 10000) by (assert (1 / 2.2361 < v + w) by lra; assert (1 / 2400 * (1 / 2.2361) < y * (v + w)) by nra; lra).
  replace (f * y * (v + w) * 10000) with (f * (y * (v + w) * 10000)) by ring. nra.
Qed.

(** ** Aircraft *)
Lemma short_legs k dir subs : 0 < k -> lattice dir (scale_subs k subs) = map (scale k) (lattice (vscale (/ k) dir) subs).
Proof.
  intros K. rewrite <- lattice_scale by exact K. f_equal. apply vec_eq; vsimp; field; lra.
Qed.
Lemma set_normals_scale k lat ns : set_normals (map (scale k) lat) ns = map (scale k) (set_normals lat ns).
Proof.
  unfold set_normals. revert ns. induction lat as [|p lat IH]; intros [|n ns]; cbn [map combine]; try reflexivity. f_equal. apply IH.
Qed.

Lemma map_inv_mult k (g : list R) : k <> 0 -> map (Rmult k) (map (Rmult (/ k)) g) = g.
Proof. intros K. rewrite map_map. rewrite <- (map_id g) at 2. apply map_ext. intros x. field. exact K. Qed.
Lemma map_mult_inv k (g : list R) : k <> 0 -> map (Rmult (/ k)) (map (Rmult k) g) = g.
Proof. intros K. rewrite map_map. rewrite <- (map_id g) at 2. apply map_ext. intros x. field. exact K. Qed.

Lemma solved_scaled eps k lat s r o : 0 < k -> dyn_pressure s <> 0 -> solved eps lat s r o ->
  exists o', solved eps (map (scale k) lat) (scaled_flow k s) (scaled_refs k r) o' /\ same_coeffs (o_co o) (o_co o') /\
    o_F o' = vscale (k * k) (o_F o) /\ o_M o' = vscale (k * k * k) (o_M o).
Proof.
  intros K DN (m & g & D & U & H). destruct (results_scale eps k lat s r g o K DN H) as (o' & H' & F & M & S & _).
  exists o'. split; [|split; [exact S|split; assumption]].
  exists (map (map (Rmult (/ k))) m), (map (Rmult k) g). split; [exact (downwash_scale eps k lat m K D)|]. split; [|exact H'].
  intros x. rewrite boundary_scale by lra. rewrite <- (map_inv_mult k x) at 1 by lra. rewrite <- solves_scaled by exact K. rewrite U. split.
  - intros E. rewrite <- E, map_inv_mult by lra. reflexivity.
  - intros ->. apply map_mult_inv. lra.
Qed.

Lemma aircraft_scaled eps k dir subs ns s r o : 0 < k -> dyn_pressure s <> 0 ->
  solved eps (set_normals (lattice (vscale (/ k) dir) subs) ns) s r o ->
  exists o', solved eps (set_normals (lattice dir (scale_subs k subs)) ns) (scaled_flow k s) (scaled_refs k r) o' /\ same_coeffs (o_co o) (o_co o') /\
    o_F o' = vscale (k * k) (o_F o) /\ o_M o' = vscale (k * k * k) (o_M o).
Proof.
  intros K DN H. rewrite short_legs, set_normals_scale by exact K. exact (solved_scaled eps k _ s r o K DN H).
Qed.
Lemma set_normals_id lat : set_normals lat (map pN lat) = lat.
Proof. unfold set_normals. induction lat as [|[] lat IH]; [reflexivity|]. cbn [map combine fst snd]. rewrite IH. reflexivity. Qed.

Lemma flat_solved L a : 0 < L -> downwash (1 / 1000000) [flat L] = Some [[a]] -> a <> 0 ->
  exists o, solved (1 / 1000000) [flat L] flow2 refs1 o /\ c_CL (o_co o) = Some (1 / a / 20).
Proof.
  intros L0 D A. destruct (flat_results (1 / 1000000) L (1 / a)) as (o & H & C); [lra|exact L0|].
  exists o. split; [|exact C]. exists [[a]], [1 / a]. split; [exact D|]. split; [|exact H].
  intros x. rewrite flat_boundary. apply solves_one. exact A.
Qed.

Lemma scaled_differs :
  exists eps k subs s r o o', 0 < eps /\ 0 < k /\ dyn_pressure s <> 0 /\
    solved eps (lattice (trail_dir (f_alpha s) (f_beta s)) subs) s r o /\
    solved eps (lattice (trail_dir (f_alpha s) (f_beta s)) (scale_subs k subs)) (scaled_flow k s) (scaled_refs k r) o' /\
    exists c c', c_CL (o_co o) = Some c /\ c_CL (o_co o') = Some c' /\ c' > c.
Proof.
  destruct (flat_downwash (1 / 1000000)) as (c & C & W); [lra|].
  pose proof trail_short as TS. pose proof trail_long as TL. pose proof PI_RGT_0 as PP.
  assert (P : 0 < 1 / (4 * PI)) by (apply Rdiv_lt_0_compat; lra).
  set (a := c + 2 * trail (1 / 1000000) 10000). set (a' := c + 2 * trail (1 / 1000000) 2).
  assert (A' : 0 < a') by (unfold a'; lra). assert (AA : a' < a) by (unfold a, a'; lra).
  destruct (flat_solved 10000 a) as (o & S & E); [lra|apply W; lra|lra|].
  destruct (flat_solved 2 a') as (o2 & S2 & E2); [lra|apply W; lra|lra|].
  assert (DN : dyn_pressure flow2 <> 0) by (unfold dyn_pressure, flow2; cbn; lra).
  destruct (solved_scaled (1 / 1000000) 5000 [flat 2] flow2 refs1 o2) as (o' & S' & (_ & _ & _ & _ & _ & CL & _) & _); [lra|exact DN|exact S2|].
  assert (T : trail_dir (f_alpha flow2) (f_beta flow2) = mkV 10000 0 0).
  { unfold trail_dir, freestream_direction, deg2rad, infty. cbn [f_alpha f_beta flow2]. rewrite !Rmult_0_l, !sin_0, !cos_0. apply vec_eq; vsimp; ring. }
  exists (1 / 1000000), 5000, [(quad1, (1, 1)%Z)], flow2, refs1, o, o'.
  split; [lra|]. split; [lra|]. split; [exact DN|]. split; [rewrite T, flat_lattice; exact S|]. split.
  - rewrite short_legs by lra. rewrite T. replace (vscale (/ 5000) (mkV 10000 0 0)) with (mkV 2 0 0) by (apply vec_eq; vsimp; lra).
    rewrite flat_lattice. exact S'.
  - exists (1 / a / 20), (1 / a' / 20). split; [exact E|]. split; [rewrite CL; exact E2|].
    assert (/ a < / a') by (apply Rinv_lt_contravar; nra). unfold Rdiv. lra.
Qed.
