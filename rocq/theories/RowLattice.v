(** Plain wings: lattice, solution and lift. *)
From Coq Require Import Reals List ZArith Arith Lia Lra Psatz.
From Verif Require Import Vec PanelModel GeomSpec GeomProofs VlmModel VlmSpec VlmProofs VlmLaws BiotSavart WakeScale RowSpec RowMatrix RowProofs.
From Verif Require AnalysisSpec.
Import ListNotations.
Open Scope R_scope.

Section Plain.
Variables L x0 z0 : R.

Lemma plain_corner y1 y2 c1 c2 s c : corner (plain x0 z0 y1 y2 c1 c2) s c = mkV (x0 + ((1 - s) * c1 + s * c2) * (c - / 4)) (y1 + s * (y2 - y1)) z0.
Proof. unfold corner, coord, plain. apply vec_eq; vsimp; field. Qed.

Lemma plain_panel y1 y2 c1 c2 s t : y1 < y2 -> s < t -> 0 < (1 - s) * c1 + s * c2 < 2 * L -> 0 < (1 - t) * c1 + t * c2 < 2 * L ->
  let q := plain x0 z0 y1 y2 c1 c2 in
  strip L x0 z0 (panel_of_corners (mkV L 0 0) (corner q s 0) (corner q t 0) (corner q t 1) (corner q s 1))
    (y1 + s * (y2 - y1)) (y1 + t * (y2 - y1)) (((1 - s) * c1 + s * c2 + ((1 - t) * c1 + t * c2)) / 4) (y1 + (s + t) / 2 * (y2 - y1)).
Proof.
  intros Y ST C1 C2 q. unfold q. rewrite !plain_corner. set (k1 := (1 - s) * c1 + s * c2) in *. set (k2 := (1 - t) * c1 + t * c2) in *.
  assert (Y' : 0 < (t - s) * (y2 - y1)) by (apply Rmult_lt_0_compat; lra).
  set (ya := y1 + s * (y2 - y1)). set (yb := y1 + t * (y2 - y1)). set (yc := y1 + (s + t) / 2 * (y2 - y1)).
  assert (YB : yb - ya = (t - s) * (y2 - y1)) by (unfold ya, yb; ring). assert (YC : yc = (ya + yb) / 2) by (unfold ya, yb, yc; field).
  clearbody ya yb yc k1 k2. unfold strip. split; [lra|]. split; [lra|].
  unfold panel_of_corners. cbn [pV1 pV2 pV3 pV4 pC pB pN].
  split; [apply vec_eq; vsimp; lra|]. split; [apply vec_eq; vsimp; lra|]. split; [apply vec_eq; vsimp; lra|]. split; [apply vec_eq; vsimp; lra|].
  split; [apply vec_eq; vsimp; lra|]. split; [exists ((ya + yb) / 2); split; [lra|apply vec_eq; vsimp; lra]|].
  cbn [vz]. match goal with |- vz ?n / _ < 0 => set (nn := n) end.
  assert (N : vz nn < 0).
  { unfold nn, normal_raw, vec1, vec2. vsimp. clear nn. assert (0 < (k1 + k2) * (yb - ya)) by (apply Rmult_lt_0_compat; lra). nra. }
  assert (P : 0 < vnorm nn) by (apply vnorm_pos; intro Z; rewrite Z in N; cbn [vz vzero] in N; lra).
  unfold Rdiv. pose proof (Rinv_0_lt_compat _ P). nra.
Qed.

Lemma strips_cons' y j y1 y2 x c rest : strip L x0 z0 j y1 y2 x c -> y <= y1 -> strips L x0 z0 y2 rest -> strips L x0 z0 y (j :: rest).
Proof. intros (A & B & C & D & E & F & G & (b & H & I) & J) Y S. exact (strips_cons L x0 z0 y y1 y2 x c b j rest Y A B C D E F G H I J S). Qed.
Lemma strips_weaken y y' lat : y <= y' -> strips L x0 z0 y' lat -> strips L x0 z0 y lat.
Proof.
  intros Y S. destruct lat as [|j lat]; [constructor|]. destruct (strips_inv _ _ _ _ _ _ S) as (y1 & y2 & x & c & J & Y1 & S').
  apply (strips_cons' y j y1 y2 x c lat J); [lra|exact S'].
Qed.

Lemma plain_sub y1 y2 c1 c2 n rest : y1 < y2 -> 0 < c1 < 2 * L -> 0 < c2 < 2 * L -> (0 < n)%Z -> strips L x0 z0 y2 rest ->
  strips L x0 z0 y1 (sub_panels (mkV L 0 0) (plain x0 z0 y1 y2 c1 c2) n 1 ++ rest).
Proof.
  intros Y C1 C2 N S. unfold sub_panels. rewrite Z.mul_1_r.
  assert (N' : 0 < IZR n) by (apply (IZR_lt 0); exact N).
  assert (K : forall cnt k, (k + cnt = Z.to_nat n)%nat ->
    strips L x0 z0 (y1 + INR k / IZR n * (y2 - y1)) (map (fun k => make_panel (mkV L 0 0) (plain x0 z0 y1 y2 c1 c2) n 1 (Z.of_nat k mod 1) (Z.of_nat k / 1)) (seq k cnt) ++ rest)).
  { induction cnt as [|cnt IH]; intros k E.
    - cbn [seq map app]. eapply strips_weaken; [|exact S].
      assert (KN : INR k = IZR n) by (rewrite INR_IZR_INZ; f_equal; lia). rewrite KN. right. field. lra.
    - cbn [seq map app]. specialize (IH (Datatypes.S k) ltac:(lia)). rewrite Z.mod_1_r, Z.div_1_r. unfold make_panel. rewrite <- INR_IZR_INZ.
      set (s := INR k / IZR n) in *. set (t := INR (Datatypes.S k) / IZR n) in *.
      assert (KL : INR (Datatypes.S k) <= IZR n) by (rewrite INR_IZR_INZ; apply IZR_le; lia).
      pose proof (pos_INR k) as K0. rewrite S_INR in KL. pose proof (Rinv_0_lt_compat _ N') as NI.
      assert (T : t = s + / IZR n) by (unfold t, s; rewrite S_INR; field; lra).
      assert (S0 : 0 <= s) by (unfold s; apply Rmult_le_pos; lra).
      assert (T1 : t <= 1). { unfold t. rewrite S_INR. apply (Rmult_le_reg_r (IZR n)); [exact N'|]. unfold Rdiv. rewrite Rmult_assoc, Rinv_l by lra. lra. }
      replace (1 / IZR n * INR k) with s by (unfold s; field; lra). replace (1 / IZR n * (INR k + 1)) with t by (unfold t; rewrite S_INR; field; lra).
      replace (1 / 1 * 0) with 0 by field. replace (1 / 1 * (0 + 1)) with 1 by field.
      assert (Q : forall u, 0 <= u <= 1 -> 0 < (1 - u) * c1 + u * c2 < 2 * L).
      { intros u U. split.
        - destruct (Rle_dec u (1/2)) as [H|H]; nra.
        - destruct (Rle_dec u (1/2)) as [H|H]; nra. }
      eapply strips_cons'; [apply plain_panel; [exact Y|lra|apply Q; lra|apply Q; lra]|right; reflexivity|exact IH]. }
  specialize (K (Z.to_nat n) 0%nat eq_refl). replace (y1 + INR 0 / IZR n * (y2 - y1)) with y1 in K; [exact K|]. cbn [INR]. field. lra.
Qed.
Lemma plain_strips y subs : plain_wing L x0 z0 y subs -> strips L x0 z0 y (lattice (mkV L 0 0) subs).
Proof.
  intros H. induction H as [y|y y1 y2 c1 c2 n rest Y Y12 C1 C2 N H IH]; [constructor|].
  unfold lattice in *. cbn [flat_map fst snd]. eapply strips_weaken; [exact Y|]. apply plain_sub; assumption.
Qed.
Lemma tilted_strips lat' : forall y lat, strips L x0 z0 y lat -> Forall2 tilted lat lat' -> strips L x0 z0 y lat'.
Proof.
  induction lat' as [|j' lat' IH]; intros y lat S T; inversion T as [|j ? rest ? J R]; subst; [constructor|].
  destruct (strips_inv _ _ _ _ _ _ S) as (y1 & y2 & x & c & (A & B & C & D & E & F & G & (b & H & I) & _) & Y & S').
  destruct J as (T1 & T2 & T3 & T4 & T5 & T6 & T7).
  eapply strips_cons; [exact Y|exact A|exact B|rewrite T1; exact C|rewrite T2; exact D|rewrite T3; exact E|rewrite T4; exact F|rewrite T5; exact G|exact H|rewrite T6; exact I|exact T7|].
  exact (IH y2 rest S' R).
Qed.
End Plain.

Lemma trail_straight : trail_dir 0 0 = mkV 10000 0 0.
Proof. rewrite trail_dir_eq. unfold freestream_direction, deg2rad. rewrite !Rmult_0_l, sin_0, cos_0. apply vec_eq; vsimp; ring. Qed.

Definition well_behaved (m : list (list R)) : Prop :=
  AnalysisSpec.regular m /\ uniquely_solvable m /\
  forall b g, solves m b g -> (forall x, In x b -> 0 <= x) ->
    (forall y, In y g -> 0 <= y) /\ ((exists x, In x b /\ 0 < x) -> forall y, In y g -> 0 < y).

Lemma strips_solution L x0 z0 y lat : strips L x0 z0 y lat ->
  exists e0, 0 < e0 /\ forall eps, 0 <= eps < e0 -> exists m, downwash eps lat = Some m /\ length m = length lat /\ well_behaved m.
Proof.
  intros S. destruct (dominant L x0 z0 y lat S) as (e0 & E0 & H). exists e0. split; [exact E0|]. intros eps E. destruct (H eps E) as (M & N). clear H.
  eexists. split; [exact (the_matrix L x0 z0 y lat S eps (proj1 E))|]. split; [apply matrix_length|]. split; [apply matrix_regular; exact M|]. split; [apply matrix_uniquely; exact M|].
  intros b g G B. split; [exact (matrix_nonneg _ _ b g M G B)|exact (matrix_pos _ _ b g M N G B)].
Qed.
Lemma plain_solution x0 z0 y subs lat : plain_wing 10000 x0 z0 y subs -> Forall2 tilted (lattice (trail_dir 0 0) subs) lat ->
  exists e0, 0 < e0 /\ forall eps, 0 <= eps < e0 -> exists m, downwash eps lat = Some m /\ length m = length lat /\ well_behaved m.
Proof.
  intros W T. rewrite trail_straight in T. apply (strips_solution 10000 x0 z0 y). apply (tilted_strips _ _ _ lat y (lattice (mkV 10000 0 0) subs)); [|exact T]. apply plain_strips. exact W.
Qed.

(** ** Lift in straight flow *)
Lemma leg_in_plane eps p a b v : leg_velocity eps p a b = Some v -> vz p = vz a -> vz p = vz b -> vx v = 0 /\ vy v = 0.
Proof.
  unfold leg_velocity, cdiv. intros H A B. destruct (Req_EM_T _ 0); [discriminate|]. destruct (Req_EM_T _ 0); [discriminate|]. destruct (Req_EM_T _ 0); [discriminate|].
  apply some_inj in H. subst v. vsimp. rewrite <- A, <- B. split; ring.
Qed.
Lemma shoe_in_plane L x0 z0 eps p j y1 y2 x c : strip L x0 z0 j y1 y2 x c -> vz p = z0 -> vx (hs eps p j) = 0 /\ vy (hs eps p j) = 0.
Proof.
  intros (_ & _ & E1 & E2 & E3 & E4 & _) P. unfold hs. rewrite horseshoe_eq, E1, E2, E3, E4.
  destruct (leg_velocity eps p (mkV (x0 + L) y1 z0) (mkV x0 y1 z0)) as [u|] eqn:A; [|split; reflexivity].
  destruct (leg_velocity eps p (mkV x0 y1 z0) (mkV x0 y2 z0)) as [v|] eqn:B; [|split; reflexivity].
  destruct (leg_velocity eps p (mkV x0 y2 z0) (mkV (x0 + L) y2 z0)) as [w|] eqn:C; [|split; reflexivity].
  apply leg_in_plane in A; [|exact P|exact P]. apply leg_in_plane in B; [|exact P|exact P]. apply leg_in_plane in C; [|exact P|exact P].
  cbn [vadd vx vy]. lra.
Qed.
Lemma induced_in_plane L x0 z0 eps p : vz p = z0 -> forall l, (forall x, In x l -> exists y1 y2 t c, strip L x0 z0 (fst x) y1 y2 t c) ->
  vx (induced eps p l) = 0 /\ vy (induced eps p l) = 0.
Proof.
  intros P. unfold induced. induction l as [|[j g] l IH]; intros H; [split; reflexivity|]. cbn [map vsum fold_right].
  destruct (H (j, g) (or_introl eq_refl)) as (y1 & y2 & t & c & J). destruct (shoe_in_plane L x0 z0 eps p j y1 y2 t c J P) as [A B].
  destruct (IH ltac:(intros; apply H; right; assumption)) as [C D]. unfold vsum in *. cbn [fst snd] in *. cbn [fold_right vadd vscale vx vy]. rewrite A, B, C, D. split; ring.
Qed.
Lemma straight_onset s cg p : straight s -> onset s cg p = mkV (f_airspeed s) 0 0.
Proof.
  intros (A & B & P & Q & R). unfold onset, wind, rates, rad. rewrite A, B, P, Q, R. replace (0 * PI / 180) with 0 by field. rewrite sin_0, cos_0. apply vec_eq; vsimp; ring.
Qed.

Section Lift.
Variables (L x0 z0 y : R) (lat : list panel) (s : flow) (r : refs) (eps : R) (g : list R).
Hypothesis S : strips L x0 z0 y lat.
Hypothesis F : straight s.
Hypothesis G : length g = length lat.
Let strip_of j (J : In j lat) := strips_In L x0 z0 y lat S j J.

Lemma lat_off i j : In i lat -> In j lat -> off_ends (pB i) j.
Proof.
  intros I J. apply In_nth_error in I, J. destruct I as (k & K). destruct J as (l & Ll).
  destruct (strip_of i (nth_error_In _ _ K)) as (y1 & y2 & x & c & Hi & _). destruct (strip_of j (nth_error_In _ _ Ll)) as (a & b & x' & c' & Hj & _).
  assert (O : k = l \/ y2 <= a \/ b <= y1).
  { assert (Ord : forall k l i j y1 y2 x c a b x' c', nth_error lat k = Some i -> nth_error lat l = Some j -> (k < l)%nat ->
      strip L x0 z0 i y1 y2 x c -> strip L x0 z0 j a b x' c' -> y2 <= a).
    { clear - S. intros k l i j y1 y2 x c a b x' c' Kk Kl Lt Hi Hj. destruct (nth_error_split _ _ Kl) as (pre & post & E & Lp).
      pose proof S as S'. rewrite E in S'. destruct (strips_split _ _ _ _ _ _ _ S' _ _ _ _ Hj) as (_ & _ & H).
      assert (P : In i pre). { rewrite E in Kk. rewrite nth_error_app1 in Kk by lia. exact (nth_error_In _ _ Kk). }
      destruct (H _ P) as (a' & b' & x'' & c'' & Q & B). destruct (strip_fun _ _ _ _ _ _ _ _ _ _ _ _ Hi Q) as (_ & -> & _). exact B. }
    destruct (lt_eq_lt_dec k l) as [[Lt|E]|Lt]; [right; left|left; exact E|right; right].
    - exact (Ord k l i j _ _ _ _ _ _ _ _ K Ll Lt Hi Hj).
    - exact (Ord l k j i _ _ _ _ _ _ _ _ Ll K Lt Hj Hi). }
  pose proof Hi as (Yi & _ & _ & _ & _ & _ & _ & (bi & Bi & Pi) & _). pose proof Hj as (Yj & _ & E1 & E2 & E3 & E4 & _). pose proof Hj as (_ & Xj & _).
  assert (N : bi <> a /\ bi <> b).
  { destruct O as [E|[O|O]]; [|lra|lra]. assert (Eij : i = j) by congruence. rewrite <- Eij in Hj.
    destruct (strip_fun _ _ _ _ _ _ _ _ _ _ _ _ Hi Hj) as (-> & -> & _). lra. }
  unfold off_ends. rewrite Pi, E1, E2, E3, E4. repeat split; intro Z; injection Z as ?; try lra; intuition.
Qed.
Lemma has_results : 0 < eps -> vlm_results eps lat s r g = Some (results_val eps lat s r g).
Proof.
  intros E. apply vlm_results_ok. intros i q x I X. apply horseshoe_regular; [exact E|]. destruct x as [j h]. apply lat_off; [exact (in_combine_l _ _ _ _ I)|exact (in_combine_l _ _ _ _ X)].
Qed.
Lemma force_z i q : In (i, q) (combine lat g) -> vy (kj_force eps lat g s r i q) = 0 /\ vz (kj_force eps lat g s r i q) = f_rho s * f_airspeed s * q * width i.
Proof.
  intros I. pose proof (in_combine_l _ _ _ _ I) as Il. destruct (strip_of i Il) as (y1 & y2 & x & c & Hi & _). destruct Hi as (_ & _ & _ & E2 & E3 & _ & _ & (b & _ & Pb) & _).
  destruct (induced_in_plane L x0 z0 eps (pB i) ltac:(rewrite Pb; reflexivity) (combine lat g)) as [A B].
  { intros [j h] X. destruct (strip_of j (in_combine_l _ _ _ _ X)) as (a & b' & t & c' & Hj & _). exists a, b', t, c'. exact Hj. }
  unfold kj_force, local_vel. rewrite straight_onset by exact F. unfold width. rewrite E2, E3. set (w := induced _ _ _) in *. clearbody w. vsimp. rewrite A, ?B. split; ring.
Qed.
Lemma total_lift : c_L (o_co (results_val eps lat s r g)) = f_rho s * f_airspeed s * circulation_area lat g.
Proof.
  unfold results_val. cbn [o_co]. unfold vlm_coeffs. cbn [c_L]. destruct F as (Al & _). rewrite Al. unfold deg2rad. rewrite Rmult_0_l, sin_0, cos_0.
  match goal with |- _ * vx ?v + _ + _ = _ => set (V := v) end.
  replace (- 0 * vx V + 0 * vy V + 1 * vz V) with (vz V) by ring. unfold V, circulation_area.
  assert (K : forall l, (forall x, In x l -> In x (combine lat g)) -> vz (vsum (map (fun x => kj_force eps lat g s r (fst x) (snd x)) l)) = f_rho s * f_airspeed s * rsum (map (fun x => snd x * width (fst x)) l)).
  { induction l as [|[i q] l IH]; intros H; [cbn; ring|]. unfold vsum, rsum in *. cbn [map fold_right vadd vz fst snd].
    rewrite IH by (intros; apply H; right; assumption). rewrite (proj2 (force_z i q (H _ (or_introl eq_refl)))). ring. }
  rewrite <- (K (combine lat g) (fun x X => X)). reflexivity.
Qed.
End Lift.

Lemma plain_lift x0 z0 y subs lat s r eps g : plain_wing 10000 x0 z0 y subs -> Forall2 tilted (lattice (trail_dir 0 0) subs) lat ->
  straight s -> 0 < eps -> length g = length lat ->
  exists o, vlm_results eps lat s r g = Some o /\
    (forall n j q, nth_error lat n = Some j -> nth_error g n = Some q -> exists p, nth_error (o_panels o) n = Some p /\
       vy (o_f p) = 0 /\ vz (o_f p) = f_rho s * f_airspeed s * q * width j) /\
    c_L (o_co o) = f_rho s * f_airspeed s * circulation_area lat g.
Proof.
  intros W T F E G. rewrite trail_straight in T. pose proof (tilted_strips _ _ _ lat y (lattice (mkV 10000 0 0) subs) (plain_strips _ _ _ _ _ W) T) as S.
  exists (results_val eps lat s r g). split; [exact (has_results _ _ _ _ _ s r eps g S E)|]. split.
  - intros n j q J Q. pose proof (nth_combine _ _ _ _ _ J Q) as C. exists (fst (loads_val eps lat g s r j q)). split; [unfold results_val; cbn [o_panels]; rewrite nth_error_map, C; reflexivity|].
    exact (force_z _ _ _ _ _ s r eps g S F j q (nth_error_In _ _ C)).
  - exact (total_lift _ _ _ _ _ s r eps g S F).
Qed.

Lemma width_pos L x0 z0 y lat j : strips L x0 z0 y lat -> In j lat -> 0 < width j.
Proof. intros S J. destruct (strips_In _ _ _ _ _ S j J) as (a & b & x & c & (Y & _ & _ & E2 & E3 & _) & _). unfold width. rewrite E2, E3. cbn [vy]. lra. Qed.
Lemma straight_boundary s r lat : straight s -> boundary lat s r = map (fun j => - f_airspeed s * vx (pN j)) lat.
Proof.
  intros F. unfold boundary. apply map_ext. intros j. rewrite vel_onset, straight_onset by exact F. unfold vdot. vsimp. ring.
Qed.
Lemma circulation_pos : forall (lat : list panel) g, lat <> [] -> length g = length lat -> (forall j, In j lat -> 0 < width j) -> (forall q, In q g -> 0 < q) -> 0 < circulation_area lat g.
Proof.
  assert (K : forall lat g, (forall j, In j lat -> 0 < width j) -> (forall q, In q g -> 0 < q) -> 0 <= circulation_area lat g).
  { unfold circulation_area, rsum. induction lat as [|j lat IH]; intros [|q g] W P; cbn [combine map fold_right]; try lra. cbn [fst snd].
    pose proof (IH g ltac:(intros; apply W; right; assumption) ltac:(intros; apply P; right; assumption)).
    pose proof (W j (or_introl eq_refl)). pose proof (P q (or_introl eq_refl)). nra. }
  intros [|j lat] [|q g] N Lg W P; try discriminate; [congruence|]. unfold circulation_area. cbn [combine map fst snd]. rewrite rsum_cons.
  pose proof (K lat g ltac:(intros; apply W; right; assumption) ltac:(intros; apply P; right; assumption)) as Z. unfold circulation_area in Z.
  pose proof (W j (or_introl eq_refl)). pose proof (P q (or_introl eq_refl)). nra.
Qed.

(** Positive lift, once the matrix is well behaved. *)
Lemma behaved_positive x0 z0 y subs lat eps s r m g : plain_wing 10000 x0 z0 y subs -> Forall2 tilted (lattice (trail_dir 0 0) subs) lat -> length m = length lat -> well_behaved m ->
  0 < eps -> straight s -> 0 < f_airspeed s -> 0 < f_rho s -> 0 < r_area r ->
  (forall j, In j lat -> vx (pN j) <= 0) -> (exists j, In j lat /\ vx (pN j) < 0) -> solves m (boundary lat s r) g ->
  exists o CL, vlm_results eps lat s r g = Some o /\ (forall p, In p (o_panels o) -> 0 < vz (o_f p)) /\ 0 < c_L (o_co o) /\ c_CL (o_co o) = Some CL /\ 0 < CL.
Proof.
  intros W T Lm (_ & _ & P) E F V Rho Ar N (j0 & J0 & N0) Sg.
  rewrite straight_boundary in Sg by exact F.
  assert (G0 : forall q, In q g -> 0 < q).
  { apply (proj2 (P _ g Sg ltac:(intros x X; apply in_map_iff in X; destruct X as (j & <- & J); pose proof (N j J); nra))).
    exists (- f_airspeed s * vx (pN j0)). split; [apply in_map_iff; exists j0; split; [reflexivity|exact J0]|]. nra. }
  assert (Lg : length g = length lat) by (rewrite <- Lm; exact (proj1 Sg)).
  destruct (plain_lift x0 z0 y subs lat s r eps g W T F E Lg) as (o & O & Pz & CLo).
  rewrite trail_straight in T. pose proof (tilted_strips _ _ _ lat y (lattice (mkV 10000 0 0) subs) (plain_strips _ _ _ _ _ W) T) as S.
  assert (LL : 0 < c_L (o_co o)).
  { rewrite CLo. apply Rmult_lt_0_compat; [apply Rmult_lt_0_compat; assumption|]. apply circulation_pos; [intro Z; rewrite Z in J0; exact J0|exact Lg|intros j J; exact (width_pos _ _ _ _ _ j S J)|exact G0]. }
  assert (Q : 0 < dyn_pressure s) by (unfold dyn_pressure; apply Rmult_lt_0_compat; [lra|nra]).
  exists o, (c_L (o_co o) / (dyn_pressure s * r_area r)). split; [exact O|]. split.
  - intros p Pp. destruct (panel_results eps lat s r g o O Lg) as (Lo & _). apply In_nth_error in Pp. destruct Pp as (n & Pn).
    assert (Ln : (n < length lat)%nat) by (rewrite <- Lo; apply nth_error_Some; congruence).
    destruct (nth_error lat n) as [j|] eqn:Ej; [|apply nth_error_None in Ej; lia]. destruct (nth_error g n) as [q|] eqn:Eq; [|apply nth_error_None in Eq; lia].
    destruct (Pz n j q Ej Eq) as (p' & Pp' & _ & Z). assert (p' = p) by congruence. subst p'. rewrite Z.
    pose proof (G0 q (nth_error_In _ _ Eq)). pose proof (width_pos _ _ _ _ _ j S (nth_error_In _ _ Ej)).
    repeat apply Rmult_lt_0_compat; assumption.
  - split; [exact LL|]. split; [|apply Rdiv_lt_0_compat; [exact LL|nra]].
    pose proof O as O'. apply vlm_results_inv in O'. destruct O' as (-> & _). unfold results_val in *. cbn [o_co] in *. unfold vlm_coeffs in *. cbn [c_L c_CL] in *.
    destruct (Req_EM_T (dyn_pressure s) 0) as [Z|_]; [lra|]. rewrite cdiv_some by nra. reflexivity.
Qed.
Lemma plain_positive x0 z0 y subs lat : plain_wing 10000 x0 z0 y subs -> Forall2 tilted (lattice (trail_dir 0 0) subs) lat ->
  exists e0, 0 < e0 /\ forall eps s r m g, 0 < eps < e0 -> straight s -> 0 < f_airspeed s -> 0 < f_rho s -> 0 < r_area r ->
    (forall j, In j lat -> vx (pN j) <= 0) -> (exists j, In j lat /\ vx (pN j) < 0) ->
    downwash eps lat = Some m -> solves m (boundary lat s r) g ->
    exists o CL, vlm_results eps lat s r g = Some o /\ (forall p, In p (o_panels o) -> 0 < vz (o_f p)) /\ 0 < c_L (o_co o) /\ c_CL (o_co o) = Some CL /\ 0 < CL.
Proof.
  intros W T. destruct (plain_solution x0 z0 y subs lat W T) as (e0 & E0 & H). exists e0. split; [exact E0|].
  intros eps s r m g E F V Rho Ar N N0 D Sg. destruct (H eps ltac:(lra)) as (m' & D' & Lm & B). assert (m' = m) by congruence. subst m'.
  exact (behaved_positive x0 z0 y subs lat eps s r m g W T Lm B (proj1 E) F V Rho Ar N N0 Sg).
Qed.
