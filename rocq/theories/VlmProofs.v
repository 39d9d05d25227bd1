(** Proofs about the solver core: induced velocities, loads, coefficients. *)
From Coq Require Import Reals List Lra Psatz Lia.
From Verif Require Import Vec PanelModel GeomSpec GeomProofs VlmModel VlmSpec.
Import ListNotations.
Open Scope R_scope.

(** ** One leg *)

Lemma cdiv_some a b : b <> 0 -> cdiv a b = Some (a / b).
Proof. intro H. unfold cdiv. destruct (Req_EM_T b 0); [contradiction|reflexivity]. Qed.
Lemma cdiv_zero a : cdiv a 0 = None.
Proof. unfold cdiv. destruct (Req_EM_T 0 0); [reflexivity|contradiction]. Qed.

Lemma vsub_eq p a : vsub p a = vzero -> p = a.
Proof.
  intro H. pose proof (f_equal vx H) as X. pose proof (f_equal vy H) as Y. pose proof (f_equal vz H) as Z.
  vsimp. apply vec_eq; lra.
Qed.
Lemma vsub_self a : vsub a a = vzero.
Proof. apply vec_eq; vsimp; ring. Qed.

Lemma leg_den_pos eps u v : 0 < eps -> u <> vzero -> v <> vzero -> 0 < vdot u v + vnorm u * vnorm v * (1 + eps).
Proof.
  intros E U V. apply vnorm_pos in U, V. pose proof (cauchy_abs u v) as C.
  assert (- (vnorm u * vnorm v) <= vdot u v) by (unfold Rabs in C; destruct (Rcase_abs (vdot u v)); lra).
  assert (0 < vnorm u * vnorm v) by (apply Rmult_lt_0_compat; assumption). nra.
Qed.

Definition leg_val (eps : R) (p a b : vec) : vec :=
  let r1 := vsub p a in let r2 := vsub p b in
  vscale ((1 / (4 * PI)) * (1 / (vdot r1 r2 + vnorm r1 * vnorm r2 * (1 + eps))) * (1 / vnorm r1 + 1 / vnorm r2)) (vcross r1 r2).

Lemma leg_regular eps p a b : 0 < eps -> p <> a -> p <> b -> leg_velocity eps p a b = Some (leg_val eps p a b).
Proof.
  intros E A B.
  assert (A' : vsub p a <> vzero) by (intro H; apply A, vsub_eq, H).
  assert (B' : vsub p b <> vzero) by (intro H; apply B, vsub_eq, H).
  unfold leg_velocity. pose proof (leg_den_pos eps _ _ E A' B').
  pose proof (vnorm_pos _ A'). pose proof (vnorm_pos _ B').
  rewrite !cdiv_some by lra. reflexivity.
Qed.

Lemma leg_singular eps p a b : p = a \/ p = b -> leg_velocity eps p a b = None.
Proof.
  assert (Z : vnorm vzero = 0) by (apply vnorm_zero; reflexivity).
  intros [->| ->]; unfold leg_velocity; rewrite vsub_self, Z, cdiv_zero.
  - destruct (cdiv _ _); reflexivity.
  - destruct (cdiv _ _); [|reflexivity]. destruct (cdiv _ _); reflexivity.
Qed.

Lemma leg_off_ends eps p a b v : leg_velocity eps p a b = Some v -> p <> a /\ p <> b.
Proof.
  intro H. split; intro E; rewrite (leg_singular eps p a b) in H by auto; discriminate.
Qed.

Lemma leg_on_line eps p a b v : leg_velocity eps p a b = Some v -> vcross (vsub p a) (vsub p b) = vzero -> v = vzero.
Proof.
  unfold leg_velocity. intros H C. rewrite C in H.
  destruct (cdiv _ _); [|discriminate]. destruct (cdiv _ _); [|discriminate]. destruct (cdiv _ _); [|discriminate].
  injection H as <-. apply vec_eq; vsimp; ring.
Qed.

Lemma leg_perp eps p a b v : leg_velocity eps p a b = Some v -> vdot v (vsub p a) = 0 /\ vdot v (vsub p b) = 0.
Proof.
  unfold leg_velocity. intro H.
  destruct (cdiv _ _); [|discriminate]. destruct (cdiv _ _); [|discriminate]. destruct (cdiv _ _); [|discriminate].
  injection H as <-. rewrite !vdot_scale_l, vcross_perp_l, vcross_perp_r. lra.
Qed.

Lemma leg_move eps d p a b : leg_velocity eps (vadd p d) (vadd a d) (vadd b d) = leg_velocity eps p a b.
Proof.
  unfold leg_velocity.
  replace (vsub (vadd p d) (vadd a d)) with (vsub p a) by (apply vec_eq; vsimp; ring).
  replace (vsub (vadd p d) (vadd b d)) with (vsub p b) by (apply vec_eq; vsimp; ring). reflexivity.
Qed.

Lemma vdot_comm u v : vdot u v = vdot v u.
Proof. unfold vdot. ring. Qed.

Lemma leg_rev eps p a b : leg_velocity eps p b a = option_map (vscale (-1)) (leg_velocity eps p a b).
Proof.
  unfold leg_velocity. rewrite (vdot_comm (vsub p b)), (Rmult_comm (vnorm (vsub p b))).
  destruct (cdiv _ _); [|reflexivity].
  destruct (cdiv 1 (vnorm (vsub p a))); destruct (cdiv 1 (vnorm (vsub p b))); try reflexivity.
  cbn [option_map]. f_equal. apply vec_eq; vsimp; ring.
Qed.

Lemma vnorm_mir v : vnorm (mir v) = vnorm v.
Proof. unfold vnorm, mir. vsimp. f_equal. ring. Qed.
Lemma vdot_mir u v : vdot (mir u) (mir v) = vdot u v.
Proof. unfold vdot, mir. vsimp. ring. Qed.
Lemma mir_sub u v : vsub (mir u) (mir v) = mir (vsub u v).
Proof. unfold mir. apply vec_eq; vsimp; ring. Qed.
Lemma mir_add u v : vadd (mir u) (mir v) = mir (vadd u v).
Proof. unfold mir. apply vec_eq; vsimp; ring. Qed.
Lemma mir_mir v : mir (mir v) = v.
Proof. unfold mir. apply vec_eq; vsimp; ring. Qed.
Lemma mir_cross u v : vcross (mir u) (mir v) = vscale (-1) (mir (vcross u v)).
Proof. unfold mir. apply vec_eq; vsimp; ring. Qed.
Lemma mir_scale k v : mir (vscale k v) = vscale k (mir v).
Proof. unfold mir. apply vec_eq; vsimp; ring. Qed.

Lemma leg_mir eps p a b :
  leg_velocity eps (mir p) (mir a) (mir b) = option_map (fun v => vscale (-1) (mir v)) (leg_velocity eps p a b).
Proof.
  unfold leg_velocity. rewrite !mir_sub, !vnorm_mir, vdot_mir, mir_cross.
  destruct (cdiv _ _); [|reflexivity]. destruct (cdiv _ _); [|reflexivity]. destruct (cdiv _ _); [|reflexivity].
  cbn [option_map]. f_equal. unfold mir. apply vec_eq; vsimp; ring.
Qed.

Lemma vdot_scale2 k u v : vdot (vscale k u) (vscale k v) = k * k * vdot u v.
Proof. unfold vdot. vsimp. ring. Qed.

Lemma cdiv_scale c k a b : k <> 0 -> cdiv (c * a) (k * b) = option_map (fun x => c / k * x) (cdiv a b).
Proof.
  intro K. unfold cdiv. destruct (Req_EM_T b 0) as [->|B].
  - destruct (Req_EM_T (k * 0) 0) as [_|H]; [reflexivity|]. exfalso. apply H. ring.
  - destruct (Req_EM_T (k * b) 0) as [H|H].
    + apply Rmult_integral in H. destruct H; contradiction.
    + cbn [option_map]. f_equal. field. auto.
Qed.

Lemma leg_scale eps k p a b : 0 < k ->
  leg_velocity eps (vscale k p) (vscale k a) (vscale k b) = option_map (vscale (/ k)) (leg_velocity eps p a b).
Proof.
  intro K. unfold leg_velocity.
  assert (S : forall u v, vsub (vscale k u) (vscale k v) = vscale k (vsub u v)) by (intros; apply vec_eq; vsimp; ring).
  rewrite !S, !vnorm_scale, vdot_scale2, !(Rabs_right k) by lra.
  set (u := vsub p a). set (v := vsub p b).
  replace (k * k * vdot u v + k * vnorm u * (k * vnorm v) * (1 + eps))
    with (k * k * (vdot u v + vnorm u * vnorm v * (1 + eps))) by ring.
  assert (KK : k * k <> 0) by nra.
  replace 1 with (1 * 1) at 1 by ring. rewrite cdiv_scale by exact KK.
  replace (cdiv 1 (k * vnorm u)) with (cdiv (1 * 1) (k * vnorm u)) by (f_equal; ring).
  replace (cdiv 1 (k * vnorm v)) with (cdiv (1 * 1) (k * vnorm v)) by (f_equal; ring).
  rewrite !cdiv_scale by lra.
  destruct (cdiv _ _); [|reflexivity]. cbn [option_map]. destruct (cdiv _ _); [|reflexivity]. cbn [option_map].
  destruct (cdiv _ _); [|reflexivity]. cbn [option_map]. f_equal.
  clearbody u v. pose proof PI_neq0. apply vec_eq; vsimp; field; split; auto; lra.
Qed.

(** ** A horseshoe *)

Lemma horseshoe_eq eps p j : horseshoe eps p j =
  let* a := leg_velocity eps p (pV1 j) (pV2 j) in
  let* b := leg_velocity eps p (pV2 j) (pV3 j) in
  let* c := leg_velocity eps p (pV3 j) (pV4 j) in
  Some (vadd (vadd a b) c).
Proof.
  unfold horseshoe, legs. cbn [leg_loop].
  destruct (leg_velocity _ _ _ _); [|reflexivity]. destruct (leg_velocity _ _ _ _); [|reflexivity].
  destruct (leg_velocity _ _ _ _); [|reflexivity]. rewrite vadd_zero_l. reflexivity.
Qed.

Lemma horseshoe_off_ends eps p j v : horseshoe eps p j = Some v -> off_ends p j.
Proof.
  rewrite horseshoe_eq. destruct (leg_velocity eps p (pV1 j) (pV2 j)) eqn:A; [|discriminate].
  destruct (leg_velocity eps p (pV2 j) (pV3 j)) eqn:B; [|discriminate].
  destruct (leg_velocity eps p (pV3 j) (pV4 j)) eqn:C; [|discriminate].
  apply leg_off_ends in A, B, C. intros _. unfold off_ends. tauto.
Qed.

Lemma horseshoe_regular eps p j : 0 < eps -> off_ends p j -> exists v, horseshoe eps p j = Some v.
Proof.
  intros E (A & B & C & D). rewrite horseshoe_eq, !leg_regular by assumption. eauto.
Qed.

Lemma horseshoe_move eps d p j : horseshoe eps (vadd p d) (move d j) = horseshoe eps p j.
Proof. rewrite !horseshoe_eq. cbn [move pV1 pV2 pV3 pV4]. rewrite !leg_move. reflexivity. Qed.

Lemma horseshoe_scale eps k p j : 0 < k ->
  horseshoe eps (vscale k p) (scale k j) = option_map (vscale (/ k)) (horseshoe eps p j).
Proof.
  intro K. rewrite !horseshoe_eq. cbn [scale pV1 pV2 pV3 pV4]. rewrite !leg_scale by exact K.
  destruct (leg_velocity _ _ _ _); [|reflexivity]. destruct (leg_velocity _ _ _ _); [|reflexivity].
  destruct (leg_velocity _ _ _ _); [|reflexivity]. cbn [option_map]. f_equal. apply vec_eq; vsimp; ring.
Qed.

(** Mirror image with orientation sign. *)
Definition image (sgn : R) (p p' : panel) : Prop :=
  pC p' = mir (pC p) /\ pB p' = mir (pB p) /\ pA p' = pA p /\ pN p' = vscale sgn (mir (pN p)) /\
  ((sgn = 1 /\ pV1 p' = mir (pV4 p) /\ pV2 p' = mir (pV3 p) /\ pV3 p' = mir (pV2 p) /\ pV4 p' = mir (pV1 p)) \/
   (sgn = -1 /\ pV1 p' = mir (pV1 p) /\ pV2 p' = mir (pV2 p) /\ pV3 p' = mir (pV3 p) /\ pV4 p' = mir (pV4 p))).

Lemma image_of_image p p' : image_of p p' -> exists sgn, image sgn p p'.
Proof.
  intros (A & B & C & [(D & E & F & G & H)|(D & E & F & G & H)]).
  - exists 1. repeat (split; [assumption|]). split.
    + rewrite H. apply vec_eq; vsimp; ring.
    + left. auto.
  - exists (-1). repeat (split; [assumption|]). right. auto.
Qed.

Lemma image_sq sgn p p' : image sgn p p' -> sgn * sgn = 1.
Proof. intros (_ & _ & _ & _ & [(-> & _)|(-> & _)]); ring. Qed.

Lemma horseshoe_image eps sgn p j j' : image sgn j j' ->
  horseshoe eps (mir p) j' = option_map (fun v => vscale sgn (mir v)) (horseshoe eps p j).
Proof.
  intros (_ & _ & _ & _ & [(-> & A & B & C & D)|(-> & A & B & C & D)]); rewrite !horseshoe_eq, A, B, C, D, !leg_mir.
  - rewrite (leg_rev eps p (pV3 j) (pV4 j)), (leg_rev eps p (pV2 j) (pV3 j)), (leg_rev eps p (pV1 j) (pV2 j)).
    destruct (leg_velocity eps p (pV1 j) (pV2 j)); destruct (leg_velocity eps p (pV2 j) (pV3 j));
      destruct (leg_velocity eps p (pV3 j) (pV4 j)); try reflexivity.
    cbn [option_map]. f_equal. unfold mir. apply vec_eq; vsimp; ring.
  - destruct (leg_velocity eps p (pV1 j) (pV2 j)); [|reflexivity]. destruct (leg_velocity eps p (pV2 j) (pV3 j)); [|reflexivity].
    destruct (leg_velocity eps p (pV3 j) (pV4 j)); [|reflexivity].
    cbn [option_map]. f_equal. unfold mir. apply vec_eq; vsimp; ring.
Qed.

(** ** Lists of finite values *)

Lemma all_some_spec {A B} (f : A -> option B) l r : all_some f l = Some r <-> Forall2 (fun x y => f x = Some y) l r.
Proof.
  revert r. induction l as [|x l IH]; intro r; cbn [all_some].
  - split; [intros [= <-]; constructor|]. intro H. inversion H. reflexivity.
  - split.
    + destruct (f x) eqn:E; [|discriminate]. destruct (all_some f l) as [r'|]; [|discriminate].
      intros [= <-]. constructor; [exact E|]. apply IH. reflexivity.
    + intro H. inversion H as [|? y ? r' E H']; subst. rewrite E. apply IH in H'. rewrite H'. reflexivity.
Qed.

Lemma all_some_map {A B} (f : A -> option B) (g : A -> B) l : (forall x, In x l -> f x = Some (g x)) -> all_some f l = Some (map g l).
Proof.
  intro H. apply all_some_spec. induction l as [|x l IH]; simpl; constructor.
  - apply H. left. reflexivity.
  - apply IH. intros y I. apply H. right. exact I.
Qed.

Lemma all_some_In {A B} (f : A -> option B) l r x : all_some f l = Some r -> In x l -> exists y, f x = Some y /\ In y r.
Proof.
  intro H. apply all_some_spec in H. induction H as [|a b l r E H IH]; intros []; subst.
  - eexists. split; [exact E|left; reflexivity].
  - destruct IH as (y & Y & I); [assumption|]. eexists. split; [exact Y|right; exact I].
Qed.

(** ** The matrix *)

Definition hs (eps : R) (p : vec) (j : panel) : vec := match horseshoe eps p j with Some v => v | None => vzero end.

Lemma downwash_inv eps lat m : downwash eps lat = Some m ->
  m = map (fun i => map (fun j => vdot (hs eps (pC i) j) (pN i)) lat) lat /\
  forall i j, In i lat -> In j lat -> horseshoe eps (pC i) j = Some (hs eps (pC i) j).
Proof.
  intro H.
  assert (R : forall i j, In i lat -> In j lat -> horseshoe eps (pC i) j = Some (hs eps (pC i) j)).
  { intros i j I J. unfold downwash in H. destruct (all_some_In _ _ _ i H I) as (row & E & _).
    destruct (all_some_In _ _ _ j E J) as (x & X & _). unfold hs. destruct (horseshoe eps (pC i) j); [reflexivity|discriminate]. }
  split; [|exact R].
  enough (E : downwash eps lat = Some (map (fun i => map (fun j => vdot (hs eps (pC i) j) (pN i)) lat) lat)) by congruence.
  unfold downwash. apply all_some_map. intros i I. apply all_some_map. intros j J. rewrite (R i j I J). reflexivity.
Qed.

Lemma downwash_ok eps lat : (forall i j, In i lat -> In j lat -> exists v, horseshoe eps (pC i) j = Some v) ->
  downwash eps lat = Some (map (fun i => map (fun j => vdot (hs eps (pC i) j) (pN i)) lat) lat).
Proof.
  intro H. unfold downwash. apply all_some_map. intros i I. apply all_some_map. intros j J.
  unfold hs. destruct (H i j I J) as (v & ->). reflexivity.
Qed.

Lemma rsum_cons x l : rsum (x :: l) = x + rsum l. Proof. reflexivity. Qed.

Lemma dot_map {A} (f : A -> R) l g : dot (map f l) g = rsum (map (fun x => f (fst x) * snd x) (combine l g)).
Proof.
  unfold dot. f_equal. revert g. induction l as [|x l IH]; intros [|y g]; simpl; try reflexivity. f_equal. apply IH.
Qed.

(** Solutions, written out. *)
Definition tangent (eps : R) (lat : list panel) (s : flow) (r : refs) (g : list R) (i : panel) : Prop :=
  rsum (map (fun x => vdot (hs eps (pC i) (fst x)) (pN i) * snd x) (combine lat g)) =
  vdot (vadd (vel_wind s) (vel_rot s r (pC i))) (pN i).

Lemma map_eq_iff {A B} (f h : A -> B) l : map f l = map h l <-> forall x, In x l -> f x = h x.
Proof.
  split.
  - induction l as [|x l IH]; intros H y []; simpl in H; injection H as H1 H2; subst; auto.
  - intro H. apply map_ext_in. exact H.
Qed.

Lemma solves_iff eps lat s r g m : downwash eps lat = Some m ->
  solves m (boundary lat s r) g <-> length g = length lat /\ forall i, In i lat -> tangent eps lat s r g i.
Proof.
  intro D. destruct (downwash_inv _ _ _ D) as (-> & _). unfold solves, boundary. rewrite map_length.
  rewrite map_map, map_eq_iff. unfold tangent.
  split; intros (L & H); (split; [exact L|]); intros i I; specialize (H i I); rewrite dot_map in *; exact H.
Qed.

(** ** Induced velocity *)

Definition induced (eps : R) (p : vec) (l : list (panel * R)) : vec :=
  vsum (map (fun x => vscale (snd x) (hs eps p (fst x))) l).

Lemma induced_inv eps p l : forall iw w, induced_loop eps p l iw = Some w ->
  w = vadd iw (induced eps p l) /\ forall x, In x l -> horseshoe eps p (fst x) = Some (hs eps p (fst x)).
Proof.
  induction l as [|[j g] l IH]; intros iw w H; cbn [induced_loop] in H.
  - injection H as <-. split; [|intros x []]. unfold induced. simpl. rewrite vadd_zero_r. reflexivity.
  - destruct (horseshoe eps p j) as [dw|] eqn:E; [|discriminate]. apply IH in H. destruct H as (-> & R).
    assert (S : hs eps p j = dw) by (unfold hs; rewrite E; reflexivity).
    split.
    + unfold induced. cbn [map vsum fold_right fst snd]. rewrite S. fold (vsum (map (fun x => vscale (snd x) (hs eps p (fst x))) l)).
      apply vec_eq; vsimp; ring.
    + intros x [<-|I]; [cbn [fst]; rewrite S; exact E|apply R; exact I].
Qed.

Lemma induced_ok eps p l : (forall x, In x l -> exists v, horseshoe eps p (fst x) = Some v) -> forall iw,
  induced_loop eps p l iw = Some (vadd iw (induced eps p l)).
Proof.
  induction l as [|[j g] l IH]; intros H iw; cbn [induced_loop].
  - f_equal. unfold induced. simpl. rewrite vadd_zero_r. reflexivity.
  - destruct (H (j, g) (or_introl eq_refl)) as (dw & E). cbn [fst] in E. rewrite E, IH by (intros x I; apply H; right; exact I).
    assert (S : hs eps p j = dw) by (unfold hs; rewrite E; reflexivity).
    f_equal. unfold induced at 2. cbn [map vsum fold_right fst snd]. rewrite S.
    fold (vsum (map (fun x => vscale (snd x) (hs eps p (fst x))) l)). fold (induced eps p l). apply vec_eq; vsimp; ring.
Qed.

(** ** Loads *)

Lemma deg2rad_rad d : deg2rad d = rad d.
Proof. unfold deg2rad, rad. field. Qed.

Lemma vel_onset s r p : vadd (vel_wind s) (vel_rot s r p) = vscale (-1) (onset s (r_CG r) p).
Proof.
  unfold vel_wind, vel_rot, onset, wind, rates, freestream_direction. rewrite !deg2rad_rad. apply vec_eq; vsimp; ring.
Qed.

(** Local air velocity at the bound leg of [i]. *)
Definition local_vel (eps : R) (lat : list panel) (gamma : list R) (s : flow) (r : refs) (i : panel) : vec :=
  vadd (induced eps (pB i) (combine lat gamma)) (onset s (r_CG r) (pB i)).
Definition kj_force (eps : R) (lat : list panel) (gamma : list R) (s : flow) (r : refs) (i : panel) (g : R) : vec :=
  vscale (f_rho s * g) (vcross (local_vel eps lat gamma s r i) (vsub (pV3 i) (pV2 i))).

Definition loads_val eps lat gamma s r i g : panel_result * vec :=
  let f := kj_force eps lat gamma s r i g in
  (mkPR (induced eps (pB i) (combine lat gamma)) f (cdiv (vdot f (pN i)) (dyn_pressure s * pA i)), vcross (vsub (pB i) (r_RP r)) f).

Lemma panel_loads_ok eps lat gamma s r i g :
  (forall x, In x (combine lat gamma) -> exists v, horseshoe eps (pB i) (fst x) = Some v) ->
  panel_loads eps lat gamma s r i g = Some (loads_val eps lat gamma s r i g).
Proof.
  intro H. unfold panel_loads. rewrite induced_ok by exact H. rewrite vadd_zero_l. unfold loads_val.
  set (iw := induced _ _ _).
  assert (V : mkV (vx iw - (vx (vel_wind s) + vx (vel_rot s r (pB i)))) (vy iw - (vy (vel_wind s) + vy (vel_rot s r (pB i))))
                  (vz iw - (vz (vel_wind s) + vz (vel_rot s r (pB i)))) = local_vel eps lat gamma s r i).
  { unfold local_vel. fold iw. pose proof (vel_onset s r (pB i)) as E.
    pose proof (f_equal vx E) as X. pose proof (f_equal vy E) as Y. pose proof (f_equal vz E) as Z.
    apply vec_eq; vsimp; lra. }
  rewrite V. set (L := vsub (pV3 i) (pV2 i)). set (w := local_vel eps lat gamma s r i) in *.
  assert (F : mkV (f_rho s * (vy w * vz L - vz w * vy L) * g) (f_rho s * (vz w * vx L - vx w * vz L) * g)
                  (f_rho s * (vx w * vy L - vy w * vx L) * g) = kj_force eps lat gamma s r i g).
  { unfold kj_force. fold w L. apply vec_eq; vsimp; ring. }
  rewrite F. reflexivity.
Qed.

Lemma panel_loads_inv eps lat gamma s r i g o : panel_loads eps lat gamma s r i g = Some o ->
  o = loads_val eps lat gamma s r i g /\ forall x, In x (combine lat gamma) -> horseshoe eps (pB i) (fst x) = Some (hs eps (pB i) (fst x)).
Proof.
  intro H. assert (R : forall x, In x (combine lat gamma) -> horseshoe eps (pB i) (fst x) = Some (hs eps (pB i) (fst x))).
  { unfold panel_loads in H. destruct (induced_loop _ _ _ _) as [iw|] eqn:E; [|discriminate]. apply induced_inv in E. tauto. }
  split; [|exact R]. rewrite panel_loads_ok in H by (intros x I; eauto). congruence.
Qed.

Lemma results_loop_ok eps lat gamma s r : forall l ft mt,
  (forall i g, In (i, g) l -> forall x, In x (combine lat gamma) -> exists v, horseshoe eps (pB i) (fst x) = Some v) ->
  results_loop eps lat gamma s r l ft mt =
  Some (map (fun x => fst (loads_val eps lat gamma s r (fst x) (snd x))) l,
        vadd ft (vsum (map (fun x => kj_force eps lat gamma s r (fst x) (snd x)) l)),
        vadd mt (vsum (map (fun x => vcross (vsub (pB (fst x)) (r_RP r)) (kj_force eps lat gamma s r (fst x) (snd x))) l))).
Proof.
  induction l as [|[i g] l IH]; intros ft mt H; cbn [results_loop].
  - simpl. rewrite !vadd_zero_r. reflexivity.
  - rewrite panel_loads_ok by (intros x I; exact (H i g (or_introl eq_refl) x I)).
    unfold loads_val at 1. rewrite IH by (intros i' g' I'; apply (H i' g'); right; exact I').
    cbn [map vsum fold_right fst snd o_f]. rewrite !vadd_assoc. reflexivity.
Qed.

Lemma results_loop_inv eps lat gamma s r : forall l ft mt o,
  results_loop eps lat gamma s r l ft mt = Some o ->
  forall i g, In (i, g) l -> forall x, In x (combine lat gamma) -> horseshoe eps (pB i) (fst x) = Some (hs eps (pB i) (fst x)).
Proof.
  induction l as [|[i g] l IH]; intros ft mt o H; cbn [results_loop] in H; [intros i g []|].
  destruct (panel_loads eps lat gamma s r i g) as [[o1 m1]|] eqn:E; [|discriminate].
  destruct (results_loop _ _ _ _ _ _ _ _) as [[[os f'] m']|] eqn:E2; [|discriminate].
  apply panel_loads_inv in E. destruct E as (_ & E). intros i' g' [I|I].
  - injection I as <- <-. exact E.
  - exact (IH _ _ _ E2 i' g' I).
Qed.

Definition results_val eps lat s r gamma : results :=
  let l := combine lat gamma in
  let F := vsum (map (fun x => kj_force eps lat gamma s r (fst x) (snd x)) l) in
  let M := vsum (map (fun x => vcross (vsub (pB (fst x)) (r_RP r)) (kj_force eps lat gamma s r (fst x) (snd x))) l) in
  mkRes (map (fun x => fst (loads_val eps lat gamma s r (fst x) (snd x))) l) F M (vlm_coeffs s r F M).

Definition finite_at (eps : R) (lat : list panel) (gamma : list R) : Prop :=
  forall i g x, In (i, g) (combine lat gamma) -> In x (combine lat gamma) -> exists v, horseshoe eps (pB i) (fst x) = Some v.

Lemma vlm_results_ok eps lat s r gamma : finite_at eps lat gamma ->
  vlm_results eps lat s r gamma = Some (results_val eps lat s r gamma).
Proof.
  intro H. unfold vlm_results. rewrite results_loop_ok; [|intros i g I x X; exact (H i g x I X)].
  rewrite !vadd_zero_l. reflexivity.
Qed.

Lemma vlm_results_inv eps lat s r gamma o : vlm_results eps lat s r gamma = Some o ->
  o = results_val eps lat s r gamma /\ finite_at eps lat gamma.
Proof.
  intro H. assert (F : finite_at eps lat gamma).
  { unfold vlm_results in H. destruct (results_loop _ _ _ _ _ _ _ _) as [o'|] eqn:E; [|discriminate].
    intros i g x I X. eexists. exact (results_loop_inv _ _ _ _ _ _ _ _ _ E i g I x X). }
  split; [|exact F]. rewrite vlm_results_ok in H by exact F. congruence.
Qed.
