(** The regularisation needed for plain wings, in terms of their dimensions. *)
From Coq Require Import String Reals List ZArith Arith Lia Lra Psatz.
From Verif Require Import Vec PanelModel GeomSpec GeomProofs VlmModel VlmSpec VlmProofs RowSpec RowMatrix RowProofs RowLattice DragSpec EpsSpec RowEps.
From Verif Require PyBase PyVal SettingsModel SettingsSpec SettingsProofs AnalysisModel AnalysisSpec.
From Coq Require Import List.
Import ListNotations.
Open Scope R_scope.

Lemma tilted_strip L x0 z0 j j' y1 y2 x c : tilted j j' -> strip L x0 z0 j y1 y2 x c -> strip L x0 z0 j' y1 y2 x c.
Proof.
  intros (T1 & T2 & T3 & T4 & T5 & T6 & T7) (A & B & C & D & E & F & G & H & _). unfold strip. rewrite T1, T2, T3, T4, T5, T6. tauto.
Qed.
(** The dimensions of every panel. *)
Lemma sub_dims L x0 z0 y1 y2 c1 c2 n c cm w wm j : y1 < y2 -> 0 < c1 < 2 * L -> 0 < c2 < 2 * L -> (0 < n)%Z -> c <= c1 <= cm -> c <= c2 <= cm -> w * IZR n <= y2 - y1 <= wm * IZR n ->
  In j (sub_panels (mkV L 0 0) (plain x0 z0 y1 y2 c1 c2) n 1) ->
  exists a b x t, strip L x0 z0 j a b x t /\ c / 2 <= x <= cm / 2 /\ w <= b - a <= wm /\ t = (a + b) / 2 /\ b <= y2.
Proof.
  intros Y C1 C2 N M1 M2 Wd J. unfold sub_panels in J. rewrite Z.mul_1_r in J. apply in_map_iff in J. destruct J as (k & <- & K). apply in_seq in K.
  assert (N' : 0 < IZR n) by (apply (IZR_lt 0); exact N). rewrite Z.mod_1_r, Z.div_1_r. unfold make_panel. rewrite <- INR_IZR_INZ.
  assert (KL : INR (Datatypes.S k) <= IZR n) by (rewrite INR_IZR_INZ; apply IZR_le; lia).
  pose proof (pos_INR k) as K0. rewrite S_INR in KL. pose proof (Rinv_0_lt_compat _ N') as NI.
  set (s := INR k / IZR n). set (t := (INR k + 1) / IZR n).
  assert (T : t = s + / IZR n) by (unfold t, s; field; lra).
  assert (S0 : 0 <= s) by (unfold s; apply Rmult_le_pos; lra).
  assert (T1 : t <= 1). { unfold t. apply (Rmult_le_reg_r (IZR n)); [exact N'|]. unfold Rdiv. rewrite Rmult_assoc, Rinv_l by lra. lra. }
  replace (1 / IZR n * INR k) with s by (unfold s; field; lra). replace (1 / IZR n * (INR k + 1)) with t by (unfold t; field; lra).
  replace (1 / 1 * 0) with 0 by field. replace (1 / 1 * (0 + 1)) with 1 by field.
  assert (Q : forall u, 0 <= u <= 1 -> (0 < (1 - u) * c1 + u * c2 < 2 * L) /\ c <= (1 - u) * c1 + u * c2 <= cm).
  { intros u U. assert (B : forall l h a b, l <= a <= h -> l <= b <= h -> l <= (1 - u) * a + u * b <= h) by (intros; split; nra).
    split; [|apply B; assumption]. pose proof (B (Rmin c1 c2) (Rmax c1 c2) c1 c2 (conj (Rmin_l _ _) (Rmax_l _ _)) (conj (Rmin_r _ _) (Rmax_r _ _))) as Z.
    assert (0 < Rmin c1 c2) by (apply Rmin_glb_lt; lra). assert (Rmax c1 c2 < 2 * L) by (apply Rmax_lub_lt; lra). lra. }
  pose proof (Q s ltac:(lra)) as (Qs & Bs). pose proof (Q t ltac:(lra)) as (Qt & Bt).
  eexists _, _, _, _. split; [exact (plain_panel L x0 z0 y1 y2 c1 c2 s t Y ltac:(lra) Qs Qt)|]. split; [lra|].
  assert (Wb : y1 + t * (y2 - y1) - (y1 + s * (y2 - y1)) = (y2 - y1) * / IZR n) by (rewrite T; ring).
  split; [rewrite Wb; split; apply (Rmult_le_reg_r (IZR n)); try exact N'; rewrite Rmult_assoc, Rinv_l; lra|].
  split; [field|]. assert (0 <= (1 - t) * (y2 - y1)) by (apply Rmult_le_pos; lra). lra.
Qed.
Lemma wing_dims L x0 z0 y y' c cm w wm D subs j : plain_wing L x0 z0 y' subs -> dimensions y c cm w wm D subs -> In j (lattice (mkV L 0 0) subs) ->
  exists a b x t, strip L x0 z0 j a b x t /\ c / 2 <= x <= cm / 2 /\ w <= b - a <= wm /\ t = (a + b) / 2 /\ b <= y + D.
Proof.
  intros W. induction W as [|y' y1 y2 c1 c2 n rest Y Y12 C1 C2 N W IH]; intros Dm J; [destruct J|].
  unfold lattice in *. cbn [flat_map fst snd] in J. apply in_app_or in J. destruct J as [J|J]; [|apply IH; [intros q a b Q; apply (Dm q a b); right; exact Q|exact J]].
  destruct (Dm _ _ _ (or_introl eq_refl)) as (A & B & Wd & Yd). unfold across, plain in A, B, Wd, Yd. cbn [qa qb qc qd vx vy] in A, B, Wd, Yd.
  destruct (sub_dims L x0 z0 y1 y2 c1 c2 n c cm w wm j Y12 C1 C2 N ltac:(lra) ltac:(lra) Wd J) as (a & b & x & t & H1 & H2 & H3 & H4 & H5).
  exists a, b, x, t. repeat (split; [assumption|]). lra.
Qed.

Lemma small_matrix x0 z0 y subs lat eps c cm w wm D : plain_wing 10000 x0 z0 y subs -> Forall2 tilted (lattice (trail_dir 0 0) subs) lat ->
  dimensions y c cm w wm D subs -> 0 < c -> 0 < w -> D + cm / 2 <= 10000 -> 0 <= eps -> small eps (length lat) c cm w wm D ->
  exists m, downwash eps lat = Some m /\ length m = length lat /\ well_behaved m.
Proof.
  intros W T Dm C0 W0 DL E (S1 & S2). rewrite trail_straight in T.
  pose proof (tilted_strips _ _ _ lat y (lattice (mkV 10000 0 0) subs) (plain_strips _ _ _ _ _ W) T) as S.
  assert (X : forall j', In j' lat -> exists a b x t, strip 10000 x0 z0 j' a b x t /\ c / 2 <= x <= cm / 2 /\ w <= b - a <= wm /\ t = (a + b) / 2 /\ b <= y + D).
  { intros j' J'. assert (Z : exists j, In j (lattice (mkV 10000 0 0) subs) /\ tilted j j').
    { clear - T J'. induction T as [|a b l l' H T IH]; [destruct J'|]. destruct J' as [<-|J']; [exists a; split; [left; reflexivity|exact H]|].
      destruct (IH J') as (j & J & Tj). exists j. split; [right; exact J|exact Tj]. }
    destruct Z as (j & J & Tj). destruct (wing_dims _ _ _ y y c cm w wm D subs j W Dm J) as (a & b & x & t & H1 & H2).
    exists a, b, x, t. split; [exact (tilted_strip _ _ _ _ _ _ _ _ _ Tj H1)|exact H2]. }
  assert (D0 : 0 <= D \/ lat = []).
  { destruct lat as [|j lat]; [right; reflexivity|left]. destruct (X j (or_introl eq_refl)) as (a & b & x & t & H1 & _ & H3 & _ & H5).
    destruct (strips_In _ _ _ _ _ S j (or_introl eq_refl)) as (a' & b' & x' & t' & H1' & Ya). destruct (strip_fun _ _ _ _ _ _ _ _ _ _ _ _ H1 H1') as (<- & <- & _). lra. }
  destruct D0 as [D0| ->].
  - apply (eps_matrix 10000 x0 z0 y lat eps (c / 2) (cm / 2) (w / 2) w wm D S E).
    + repeat split; lra.
    + lra.
    + intros j a b x t J Hj. destruct (X j J) as (a' & b' & x' & t' & H1 & H2 & H3 & H4 & H5). destruct (strip_fun _ _ _ _ _ _ _ _ _ _ _ _ Hj H1) as (<- & <- & <- & <-).
      split; [exact H2|]. split; [exact H3|]. lra.
    + replace (cm / 2 / (w / 2)) with (cm / w) by (field; lra). lra.
    + replace (cm / 2 / (w / 2)) with (cm / w) by (field; lra). replace (wm / (c / 2)) with (2 * wm / c) by (field; lra). lra.
  - exists []. split; [reflexivity|]. split; [reflexivity|].
    destruct (strips_solution 10000 x0 z0 y [] (strips_nil _ _ _ y)) as (e0 & E0 & H). destruct (H 0 ltac:(lra)) as (m & Hm & _ & B).
    assert (m = []) by (cbn in Hm; congruence). subst m. exact B.
Qed.

Lemma small_positive x0 z0 y subs lat eps c cm w wm D s r m g : plain_wing 10000 x0 z0 y subs -> Forall2 tilted (lattice (trail_dir 0 0) subs) lat ->
  dimensions y c cm w wm D subs -> 0 < c -> 0 < w -> D + cm / 2 <= 10000 -> 0 < eps -> small eps (length lat) c cm w wm D ->
  straight s -> 0 < f_airspeed s -> 0 < f_rho s -> 0 < r_area r ->
  (forall j, In j lat -> vx (pN j) <= 0) -> (exists j, In j lat /\ vx (pN j) < 0) ->
  downwash eps lat = Some m -> solves m (boundary lat s r) g ->
  exists o CL, vlm_results eps lat s r g = Some o /\ (forall p, In p (o_panels o) -> 0 < vz (o_f p)) /\ 0 < c_L (o_co o) /\ c_CL (o_co o) = Some CL /\ 0 < CL.
Proof.
  intros W T Dm C0 W0 DL E Sm F V Rho Ar N N0 D' Sg.
  destruct (small_matrix x0 z0 y subs lat eps c cm w wm D W T Dm C0 W0 DL ltac:(lra) Sm) as (m' & H & Lm & B). assert (m' = m) by congruence. subst m'.
  exact (behaved_positive x0 z0 y subs lat eps s r m g W T Lm B E F V Rho Ar N N0 Sg).
Qed.

(** The default value. *)
Lemma default_small n c cm w wm D : 0 < c -> 0 < w -> 0 <= cm -> 0 <= wm -> (n <= 800)%nat -> cm <= 4 * w -> wm <= 4 * c -> D <= 1000 * w -> small (1 / 1000000) n c cm w wm D.
Proof.
  intros C W Cm Wm N A B Dw. unfold small. cbn [pow]. rewrite !Rmult_1_r.
  assert (A' : 0 <= cm / w <= 4).
  { split; [apply Rmult_le_pos; [lra|left; apply Rinv_0_lt_compat; lra]|]. apply (Rmult_le_reg_r w); [lra|]. unfold Rdiv. rewrite Rmult_assoc, Rinv_l; lra. }
  assert (B' : 0 <= 2 * wm / c <= 8).
  { split; [apply Rmult_le_pos; [lra|left; apply Rinv_0_lt_compat; lra]|]. apply (Rmult_le_reg_r c); [lra|]. unfold Rdiv. rewrite Rmult_assoc, Rinv_l; lra. }
  set (a := cm / w) in *. clearbody a. set (b := 2 * wm / c) in *. clearbody b.
  assert (A2 : 0 <= a * a <= 16) by nra. assert (B2 : 0 <= b * b <= 64) by nra. assert (A3 : 0 <= a * a * a <= 64) by nra.
  split.
  - destruct (Rle_dec D 0) as [D0|D0].
    + assert (0 <= (1 + a * a) * - D) by (apply Rmult_le_pos; lra). lra.
    + assert ((1 + a * a) * D <= 17 * (1000 * w)) by (apply Rmult_le_compat; lra). lra.
  - assert (N' : INR n <= 800) by (rewrite INR_IZR_INZ; apply (IZR_le _ 800); lia). pose proof (pos_INR n) as N0.
    assert (INR n * (16 * (1 + a * a) * a + 2 * (1 + b * b)) <= 800 * (16 * (4 + 64) + 2 * 65)) by (apply Rmult_le_compat; lra). lra.
Qed.
Lemma default_epsilon d s : NoDup (map fst d) -> SettingsModel.load d = (s, PyBase.Ok tt) -> PyBase.dget d "_epsilon"%string = None -> AnalysisModel.get_epsilon s = AnalysisModel.Got (Some (1 / 1000000)).
Proof.
  intros N H E. unfold SettingsModel.load in H. destruct (SettingsModel.update SettingsModel.new_settings d) as [[s' d'] r] eqn:U. injection H as -> ->.
  destruct (SettingsProofs.update_spec _ _ _ _ _ N U) as (_ & K & _). specialize (K "_epsilon"%string ltac:(discriminate)). unfold SettingsProofs.merged in K. rewrite E in K.
  unfold AnalysisModel.get_epsilon, AnalysisModel.get_float. rewrite K. vm_compute PyBase.dget. cbv iota beta. unfold AnalysisModel.num_of. cbn [option_map].
  f_equal.
Qed.
Lemma default_matrix d st x0 z0 y subs lat c cm w wm D : NoDup (map fst d) -> SettingsModel.load d = (st, PyBase.Ok tt) -> PyBase.dget d "_epsilon"%string = None ->
  plain_wing 10000 x0 z0 y subs -> Forall2 tilted (lattice (trail_dir 0 0) subs) lat -> dimensions y c cm w wm D subs -> 0 < c -> 0 < w -> D + cm / 2 <= 10000 ->
  (length lat <= 800)%nat -> cm <= 4 * w -> wm <= 4 * c -> D <= 1000 * w ->
  exists eps m, AnalysisModel.get_epsilon st = AnalysisModel.Got (Some eps) /\ 0 < eps /\ downwash eps lat = Some m /\ length m = length lat /\ well_behaved m.
Proof.
  intros N H E W T Dm C0 W0 DL N8 A B Dw. exists (1 / 1000000).
  assert (X : exists m, downwash (1 / 1000000) lat = Some m /\ length m = length lat /\ well_behaved m).
  { destruct subs as [|[q [ns nc]] subs].
    - rewrite trail_straight in T. unfold lattice in T. cbn [flat_map] in T. inversion T. subst lat.
      apply (small_matrix x0 z0 y [] [] (1 / 1000000) 1 1 1 1 0 W ltac:(rewrite trail_straight; constructor) ltac:(intros ? ? ? []) ltac:(lra) ltac:(lra) ltac:(lra) ltac:(lra)).
      apply default_small; try lra. lia.
    - pose proof (Dm q ns nc (or_introl eq_refl)) as (A1 & _ & A3 & _).
      assert (Ns : 0 < IZR ns) by (inversion W; subst; apply (IZR_lt 0); assumption).
      assert (Wm : w <= wm) by (apply (Rmult_le_reg_r (IZR ns)); lra).
      apply (small_matrix x0 z0 y _ lat (1 / 1000000) c cm w wm D W T Dm C0 W0 DL ltac:(lra)). apply default_small; try assumption; lra. }
  destruct X as (m & X). exists m. split; [exact (default_epsilon d st N H E)|]. split; [lra|exact X].
Qed.
