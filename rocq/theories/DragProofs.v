(** Induced drag of plain wings with strips of equal widths. *)
From Coq Require Import Reals List ZArith Arith Lia Lra Psatz.
From Verif Require Import Vec PanelModel GeomSpec GeomProofs VlmModel VlmSpec VlmProofs VlmLaws BiotSavart WakeScale RowSpec RowMatrix RowProofs RowLattice DragSpec.
Import ListNotations.
Open Scope R_scope.

(** ** Sums *)
Lemma rsum_ext {A} (f g : A -> R) l : (forall x, In x l -> f x = g x) -> rsum (map f l) = rsum (map g l).
Proof. intros H. f_equal. apply map_ext_in. exact H. Qed.
Lemma rsum_le' {A} (f g : A -> R) l : (forall x, In x l -> f x <= g x) -> rsum (map f l) <= rsum (map g l).
Proof.
  induction l as [|x l IH]; intros H; [cbn; lra|]. cbn [map]. rewrite !rsum_cons. pose proof (H x (or_introl eq_refl)).
  pose proof (IH (fun y Y => H y (or_intror Y))). lra.
Qed.
Lemma rsum_scal {A} k (f : A -> R) l : rsum (map (fun x => k * f x) l) = k * rsum (map f l).
Proof. induction l as [|x l IH]; [cbn; ring|]. cbn [map]. rewrite !rsum_cons, IH. ring. Qed.
Lemma rsum_add {A} (f g : A -> R) l : rsum (map (fun x => f x + g x) l) = rsum (map f l) + rsum (map g l).
Proof. induction l as [|x l IH]; [cbn; ring|]. cbn [map]. rewrite !rsum_cons, IH. ring. Qed.
Lemma rsum_zero {A} (f : A -> R) l : (forall x, In x l -> f x = 0) -> rsum (map f l) = 0.
Proof. intros H. rewrite (rsum_ext f (fun _ => 0) l H). clear. induction l as [|x l IH]; [reflexivity|]. cbn [map]. rewrite rsum_cons, IH. ring. Qed.
Lemma rsum_swap {A B} (f : A -> B -> R) l m : rsum (map (fun x => rsum (map (f x) m)) l) = rsum (map (fun y => rsum (map (fun x => f x y) l)) m).
Proof.
  induction l as [|x l IH]; [cbn [map]; rewrite rsum_zero; reflexivity|]. cbn [map]. rewrite rsum_cons, IH, <- rsum_add. reflexivity.
Qed.
Lemma rsum_pos {A} (f : A -> R) l : (forall x, In x l -> 0 <= f x) -> (exists x, In x l /\ 0 < f x) -> 0 < rsum (map f l).
Proof.
  assert (N : forall l, (forall x, In x l -> 0 <= f x) -> 0 <= rsum (map f l)).
  { clear. intros l H. rewrite <- (rsum_zero (fun _ => 0) l (fun _ _ => eq_refl)). apply rsum_le'. exact H. }
  induction l as [|x l IH]; intros H (y & Y & P); [destruct Y|]. cbn [map]. rewrite rsum_cons. destruct Y as [->|Y].
  - pose proof (N l (fun z Z => H z (or_intror Z))). lra.
  - pose proof (H x (or_introl eq_refl)). pose proof (IH (fun z Z => H z (or_intror Z)) (ex_intro _ y (conj Y P))). lra.
Qed.

(** ** Quadratic forms: symmetric, not positive off the diagonal *)
Lemma form_bound {A} (a : A -> A -> R) (v : A -> R) l :
  (forall x y, In x l -> In y l -> a x y = a y x) -> (forall x y, In x l -> In y l -> x = y \/ a x y <= 0) ->
  rsum (map (fun x => v x * v x * rsum (map (a x) l)) l) <= rsum (map (fun x => v x * rsum (map (fun y => v y * a x y) l)) l).
Proof.
  intros Sy N.
  assert (B : rsum (map (fun x => rsum (map (fun y => / 2 * (v x * v x * a x y) + / 2 * (v y * v y * a x y)) l)) l)
     <= rsum (map (fun x => v x * rsum (map (fun y => v y * a x y) l)) l)).
  { apply rsum_le'. intros x X. rewrite <- rsum_scal. apply rsum_le'. intros y Y. destruct (N x y X Y) as [<-|H]; [lra|].
    pose proof (Rle_0_sqr (v x - v y)) as Q. unfold Rsqr in Q. assert (T : 0 <= (v x - v y) * (v x - v y) * - a x y) by (apply Rmult_le_pos; lra). lra. }
  refine (Rle_trans _ _ _ _ B). right.
  rewrite (rsum_ext (fun x => rsum (map (fun y => / 2 * (v x * v x * a x y) + / 2 * (v y * v y * a x y)) l))
     (fun x => / 2 * (v x * v x * rsum (map (a x) l)) + rsum (map (fun y => / 2 * (v y * v y * a x y)) l))).
  2: { intros x _. rewrite rsum_add. f_equal. rewrite rsum_scal, rsum_scal. reflexivity. }
  rewrite rsum_add, rsum_scal, rsum_swap.
  rewrite (rsum_ext (fun y => rsum (map (fun x => / 2 * (v y * v y * a x y)) l)) (fun y => / 2 * (v y * v y * rsum (map (a y) l)))).
  2: { intros y Y. rewrite rsum_scal, rsum_scal. do 2 f_equal. apply rsum_ext. intros x X. apply Sy; assumption. }
  rewrite rsum_scal. lra.
Qed.

(** ** Velocity beside the end of a trailing vortex *)
Section Beside.
Variables L eps : R.
Hypothesis HL : 0 < L.
Hypothesis HE : 0 <= eps.

Definition GG (d : R) : R := L / (d * hyp L d + eps * (d * hyp L d * (hyp L d * hyp L d) / (d * hyp L d + hyp L d * hyp L d))).
Lemma GG_den d : 0 < d -> 0 < d * hyp L d /\ 0 < hyp L d * hyp L d /\ 0 <= eps * (d * hyp L d * (hyp L d * hyp L d) / (d * hyp L d + hyp L d * hyp L d)).
Proof.
  intros D. pose proof (hyp_pos L d ltac:(lra)) as H. assert (P : 0 < d * hyp L d) by (apply Rmult_lt_0_compat; assumption).
  assert (S : 0 < hyp L d * hyp L d) by (apply Rmult_lt_0_compat; assumption). split; [exact P|]. split; [exact S|].
  apply Rmult_le_pos; [exact HE|]. left. apply Rdiv_lt_0_compat; [apply Rmult_lt_0_compat; assumption|lra].
Qed.
Lemma GG_pos d : 0 < d -> 0 < GG d.
Proof. intros D. destruct (GG_den d D) as (A & B & C). apply Rdiv_lt_0_compat; lra. Qed.
Lemma GG_dec d e : 0 < d -> d < e -> GG e < GG d.
Proof.
  intros D E. destruct (GG_den d D) as (A & B & C). destruct (GG_den e ltac:(lra)) as (A' & B' & C').
  assert (S : hyp L d * hyp L d < hyp L e * hyp L e) by (rewrite !hyp_sq; nra).
  assert (P : d * hyp L d < e * hyp L e).
  { apply Rmult_gt_0_lt_compat; [apply hyp_pos; lra|lra|exact E|]. apply sqrt_lt_1; nra. }
  unfold GG. set (s := hyp L d * hyp L d) in *. set (s' := hyp L e * hyp L e) in *. set (p := d * hyp L d) in *. set (p' := e * hyp L e) in *.
  clearbody s s' p p'.
  assert (Q : p * s / (p + s) <= p' * s' / (p' + s')).
  { apply (Rmult_le_reg_r ((p + s) * (p' + s'))); [apply Rmult_lt_0_compat; lra|].
    replace (p * s / (p + s) * ((p + s) * (p' + s'))) with (p * s * (p' + s')) by (field; lra).
    replace (p' * s' / (p' + s') * ((p + s) * (p' + s'))) with (p' * s' * (p + s)) by (field; lra).
    assert (0 <= p * p' * (s' - s)) by (repeat apply Rmult_le_pos; lra). assert (0 <= s * s' * (p' - p)) by (repeat apply Rmult_le_pos; lra). nra. }
  apply Rmult_lt_compat_l; [exact HL|]. apply Rinv_lt_contravar; [apply Rmult_lt_0_compat; lra|]. nra.
Qed.
Lemma GG_le d e : 0 < d -> d <= e -> GG e <= GG d.
Proof. intros D [E| ->]; [left; apply GG_dec; assumption|right; reflexivity]. Qed.

(** With the sign of the distance. *)
Definition KK (d : R) : R := if Rlt_dec 0 d then GG d else - GG (- d).
Lemma KK_pos d : 0 < d -> KK d = GG d.
Proof. intros D. unfold KK. destruct (Rlt_dec 0 d); [reflexivity|lra]. Qed.
Lemma KK_neg d : d < 0 -> KK d = - GG (- d).
Proof. intros D. unfold KK. destruct (Rlt_dec 0 d); [lra|reflexivity]. Qed.
Lemma KK_odd d : d <> 0 -> KK (- d) = - KK d.
Proof.
  intros D. destruct (Rlt_dec 0 d) as [H|H].
  - rewrite (KK_pos d H), (KK_neg (- d)) by lra. rewrite Ropp_involutive. reflexivity.
  - rewrite (KK_neg d), (KK_pos (- d)) by lra. ring.
Qed.

Lemma leg_beside x0 z0 b y : b <> y ->
  leg_velocity eps (mkV x0 b z0) (mkV x0 y z0) (mkV (x0 + L) y z0) = Some (mkV 0 0 (/ (4 * PI) * KK (b - y))) /\
  leg_velocity eps (mkV x0 b z0) (mkV (x0 + L) y z0) (mkV x0 y z0) = Some (mkV 0 0 (- (/ (4 * PI) * KK (b - y)))).
Proof.
  intros N.
  assert (O : off_line (mkV x0 b z0) (mkV x0 y z0) (mkV (x0 + L) y z0)).
  { unfold off_line. intro E. apply (f_equal vz) in E. vsimp. cbn [vz vzero] in E. assert (Z : L * (b - y) = 0) by lra. apply Rmult_integral in Z. lra. }
  assert (O' : off_line (mkV x0 b z0) (mkV (x0 + L) y z0) (mkV x0 y z0)).
  { intro F. apply O. rewrite vcross_anti, F. apply vec_eq; vsimp; ring. }
  assert (V : leg_val eps (mkV x0 b z0) (mkV x0 y z0) (mkV (x0 + L) y z0) = mkV 0 0 (/ (4 * PI) * KK (b - y))).
  { unfold leg_val. cbv zeta.
    assert (N1 : vnorm (vsub (mkV x0 b z0) (mkV x0 y z0)) = Rabs (b - y)).
    { unfold vnorm. vsimp. replace ((x0 - x0) * (x0 - x0) + (b - y) * (b - y) + (z0 - z0) * (z0 - z0)) with (Rsqr (b - y)) by (unfold Rsqr; ring). apply sqrt_Rsqr_abs. }
    assert (N2 : vnorm (vsub (mkV x0 b z0) (mkV (x0 + L) y z0)) = hyp L (b - y)) by (unfold vnorm, hyp; vsimp; f_equal; ring).
    assert (X : vcross (vsub (mkV x0 b z0) (mkV x0 y z0)) (vsub (mkV x0 b z0) (mkV (x0 + L) y z0)) = mkV 0 0 (L * (b - y))) by (apply vec_eq; vsimp; ring).
    assert (Dt : vdot (vsub (mkV x0 b z0) (mkV x0 y z0)) (vsub (mkV x0 b z0) (mkV (x0 + L) y z0)) = (b - y) * (b - y)) by (unfold vdot; vsimp; ring).
    rewrite N1, N2, X, Dt. set (d := b - y). assert (D : d <> 0) by (unfold d; lra).
    assert (HD : hyp L (- d) = hyp L d) by (unfold hyp; f_equal; ring).
    pose proof (hyp_pos L d ltac:(lra)) as H. pose proof PI_RGT_0 as Pi. clearbody d. clear X Dt N1 N2 O O' N.
    unfold vscale. cbn [vx vy vz]. f_equal; [ring|ring|].
    destruct (Rlt_dec 0 d) as [P|P].
    - rewrite (Rabs_pos_eq d) by lra. rewrite KK_pos by exact P. unfold GG. set (r := hyp L d) in *. clearbody r.
      destruct (Req_dec r 0) as [Z|_]; [lra|].
      assert (0 < d * r * (d + r * (1 + eps))) by (repeat apply Rmult_lt_0_compat; nra).
      assert (0 <= r * eps) by (apply Rmult_le_pos; lra).
      field. repeat split; try lra; try nra.
    - rewrite (Rabs_left d) by lra. rewrite KK_neg by lra. unfold GG. rewrite HD. set (r := hyp L d) in *. clearbody r.
      assert (E : exists e, 0 < e /\ d = - e) by (exists (- d); split; lra). destruct E as (e & Pe & ->). rewrite Ropp_involutive.
      assert (0 < e * r * (e + r * (1 + eps))) by (repeat apply Rmult_lt_0_compat; nra).
      assert (0 <= r * eps) by (apply Rmult_le_pos; lra).
      field. repeat split; try lra; try nra. }
  split.
  - rewrite (leg_exact eps _ _ _ HE O), V. reflexivity.
  - rewrite (leg_exact eps _ _ _ HE O'), leg_val_rev, V. f_equal. apply vec_eq; vsimp; ring.
Qed.
Lemma leg_in_line p a b v : leg_velocity eps p a b = Some v -> vx p = vx a -> vx p = vx b -> vz v = 0.
Proof.
  unfold leg_velocity, cdiv. intros H A B. destruct (Req_EM_T _ 0); [discriminate|]. destruct (Req_EM_T _ 0); [discriminate|]. destruct (Req_EM_T _ 0); [discriminate|].
  apply some_inj in H. subst v. vsimp. rewrite <- A, <- B. ring.
Qed.
End Beside.

Lemma map_fst_combine {A B} : forall (l : list A) (l' : list B), length l' = length l -> map fst (combine l l') = l.
Proof. induction l as [|x l IH]; intros [|z l'] H; try discriminate; [reflexivity|]. cbn [combine map fst]. f_equal. apply IH. cbn [length] in H. lia. Qed.

(** ** Drag of a row of strips *)
Section Drag.
Variables (L x0 z0 y : R) (lat : list panel) (s : flow) (r : refs) (eps h : R) (g : list R).
Hypothesis HL : 0 < L.
Hypothesis S : strips L x0 z0 y lat.
Hypothesis F : straight s.
Hypothesis G : length g = length lat.
Hypothesis E : 0 < eps.
Hypothesis EV : forall j, In j lat -> width j = h /\ vy (pB j) = (vy (pV2 j) + vy (pV3 j)) / 2.

Let mid (j : panel) : R := vy (pB j).
(** Downwash of panel [j] at panel [i], times 4 pi. *)
Definition down (i j : panel) : R := KK L eps (mid i - mid j + h / 2) - KK L eps (mid i - mid j - h / 2).

Lemma mid_strip j : In j lat -> exists y1 y2 x c, strip L x0 z0 j y1 y2 x c /\ y <= y1 /\ y1 = mid j - h / 2 /\ y2 = mid j + h / 2 /\ pB j = mkV x0 (mid j) z0.
Proof.
  intros J. destruct (strips_In L x0 z0 y lat S j J) as (y1 & y2 & x & c & H & Y). exists y1, y2, x, c. split; [exact H|]. split; [exact Y|].
  destruct (EV j J) as [W M]. destruct H as (_ & _ & _ & E2 & E3 & _ & _ & (b & _ & B) & _). unfold width in W. unfold mid. rewrite E2, E3 in W, M. cbn [vy] in W, M.
  split; [lra|]. split; [lra|]. rewrite B. reflexivity.
Qed.
Lemma h_pos j : In j lat -> 0 < h.
Proof. intros J. destruct (EV j J) as [<- _]. exact (width_pos _ _ _ _ _ j S J). Qed.

(** Different panels are at least [h] apart. *)
Lemma apart_order : forall x z, In x (combine lat g) -> In z (combine lat g) -> x = z \/ mid (fst x) + h <= mid (fst z) \/ mid (fst z) + h <= mid (fst x).
Proof.
  assert (K : forall l y0 (k : list R), strips L x0 z0 y0 l -> (forall j, In j l -> In j lat) ->
     forall x z, In x (combine l k) -> In z (combine l k) -> x = z \/ mid (fst x) + h <= mid (fst z) \/ mid (fst z) + h <= mid (fst x)).
  { induction l as [|j l IH]; intros y0 k Sl Il x z X Z; [destruct X|]. destruct k as [|q k]; [destruct X|].
    destruct (strips_inv _ _ _ _ _ _ Sl) as (y1 & y2 & t & c & J & _ & S').
    assert (Q : forall z', In z' (combine l k) -> mid j + h <= mid (fst z')).
    { intros [m u] Z'. pose proof (in_combine_l _ _ _ _ Z') as M. cbn [fst].
      destruct (strips_In _ _ _ _ _ S' m M) as (a & b & t' & c' & Hm & A).
      destruct (mid_strip j (Il j (or_introl eq_refl))) as (a1 & a2 & t1 & c1 & H1 & _ & _ & B2 & _).
      destruct (mid_strip m (Il m (or_intror M))) as (d1 & d2 & t2 & c2 & H2 & _ & D1 & _ & _).
      destruct (strip_fun _ _ _ _ _ _ _ _ _ _ _ _ H1 J) as (_ & P & _). destruct (strip_fun _ _ _ _ _ _ _ _ _ _ _ _ H2 Hm) as (P' & _). lra. }
    cbn [combine In] in X, Z. destruct X as [<-|X]; destruct Z as [<-|Z].
    - left. reflexivity.
    - right. left. exact (Q z Z).
    - right. right. exact (Q x X).
    - exact (IH y2 k S' (fun m M => Il m (or_intror M)) x z X Z). }
  exact (K lat y g S (fun j J => J)).
Qed.

Lemma shoe_down i j : In i lat -> In j lat -> mid i - mid j + h / 2 <> 0 -> mid i - mid j - h / 2 <> 0 -> vz (hs eps (pB i) j) = - / (4 * PI) * down i j.
Proof.
  intros I J N1 N2. destruct (mid_strip i I) as (_ & _ & _ & _ & _ & _ & _ & _ & Bi). destruct (mid_strip j J) as (y1 & y2 & x & c & Hj & _ & Y1 & Y2 & _).
  destruct Hj as (_ & _ & E1 & E2 & E3 & E4 & _). unfold hs. rewrite horseshoe_eq.
  destruct (leg_velocity eps (pB i) (pV2 j) (pV3 j)) as [v|] eqn:Ev.
  - pose proof (leg_in_line eps _ _ _ v Ev) as Z. rewrite E2, E3, Bi in Z. specialize (Z eq_refl eq_refl).
    rewrite E1, E2, E3, E4, Bi. rewrite (proj2 (leg_beside L eps HL (Rlt_le _ _ E) x0 z0 (mid i) y1 ltac:(lra))), (proj1 (leg_beside L eps HL (Rlt_le _ _ E) x0 z0 (mid i) y2 ltac:(lra))).
    cbn [vz vadd]. unfold down. replace (mid i - y1) with (mid i - mid j + h / 2) by lra. replace (mid i - y2) with (mid i - mid j - h / 2) by lra. rewrite Z. ring.
  - exfalso. pose proof (lat_off L x0 z0 y lat S i j I J) as (O1 & O2 & O3 & O4). rewrite leg_regular in Ev by assumption. discriminate.
Qed.
Lemma mids x z : In x (combine lat g) -> In z (combine lat g) -> mid (fst x) - mid (fst z) + h / 2 <> 0 /\ mid (fst x) - mid (fst z) - h / 2 <> 0.
Proof.
  intros X Z. pose proof X as X'. destruct x as [j q]. apply in_combine_l in X'. pose proof (h_pos j X'). destruct (apart_order _ _ X Z) as [<-|[O|O]]; cbn [fst] in *; split; lra.
Qed.
Lemma down_sym x z : In x (combine lat g) -> In z (combine lat g) -> down (fst x) (fst z) = down (fst z) (fst x).
Proof.
  intros X Z. destruct (mids x z X Z) as [N1 N2]. unfold down.
  replace (mid (fst z) - mid (fst x) + h / 2) with (- (mid (fst x) - mid (fst z) - h / 2)) by ring.
  replace (mid (fst z) - mid (fst x) - h / 2) with (- (mid (fst x) - mid (fst z) + h / 2)) by ring.
  rewrite !KK_odd by assumption. ring.
Qed.
Lemma down_neg i j : 0 < h -> mid i + h <= mid j \/ mid j + h <= mid i -> down i j < 0.
Proof.
  intros H [O|O]; unfold down.
  - rewrite !KK_neg by lra. pose proof (GG_dec L eps HL (Rlt_le _ _ E) (- (mid i - mid j + h / 2)) (- (mid i - mid j - h / 2)) ltac:(lra) ltac:(lra)). lra.
  - rewrite !KK_pos by lra. pose proof (GG_dec L eps HL (Rlt_le _ _ E) (mid i - mid j - h / 2) (mid i - mid j + h / 2) ltac:(lra) ltac:(lra)). lra.
Qed.

(** The downwash of panels of equal circulation. *)
Lemma down_right i : In i lat -> forall post y', mid i + h / 2 <= y' -> strips L x0 z0 y' post -> (forall j, In j post -> In j lat) ->
  - GG L eps (y' - mid i) < rsum (map (down i) post).
Proof.
  intros I. pose proof (h_pos i I) as H. induction post as [|j post IH]; intros y' Y Sp Ip.
  - pose proof (GG_pos L eps HL (Rlt_le _ _ E) (y' - mid i) ltac:(lra)). cbn. lra.
  - destruct (strips_inv _ _ _ _ _ _ Sp) as (a & b & t & c & J & A & S'). destruct (mid_strip j (Ip j (or_introl eq_refl))) as (a' & b' & t' & c' & J' & _ & Ma & Mb & _).
    destruct (strip_fun _ _ _ _ _ _ _ _ _ _ _ _ J J') as (Ea & Eb & _). cbn [map]. rewrite rsum_cons.
    pose proof (IH b ltac:(lra) S' (fun m M => Ip m (or_intror M))) as Q. unfold down at 1. rewrite !KK_neg by lra.
    replace (- (mid i - mid j + h / 2)) with (a - mid i) by lra. replace (- (mid i - mid j - h / 2)) with (b - mid i) by lra.
    pose proof (GG_le L eps HL (Rlt_le _ _ E) (y' - mid i) (a - mid i) ltac:(lra) ltac:(lra)). lra.
Qed.
Lemma down_left i post : In i lat -> forall pre y', strips L x0 z0 y' (pre ++ i :: post) -> (forall j, In j (pre ++ i :: post) -> In j lat) ->
  GG L eps (mid i - y') - GG L eps (h / 2) <= rsum (map (down i) pre).
Proof.
  intros I. pose proof (h_pos i I) as H. destruct (mid_strip i I) as (ai & bi & ti & ci & Hi & _ & Mi & Mi' & _).
  induction pre as [|j pre IH]; intros y' Sp Ip; destruct (strips_split _ _ _ _ _ _ _ Sp _ _ _ _ Hi) as (Yy & _).
  - pose proof (GG_le L eps HL (Rlt_le _ _ E) (h / 2) (mid i - y') ltac:(lra) ltac:(lra)). cbn. lra.
  - cbn [app] in Sp, Ip. destruct (strips_inv _ _ _ _ _ _ Sp) as (a & b & t & c & J & A & S'). destruct (mid_strip j (Ip j (or_introl eq_refl))) as (a' & b' & t' & c' & J' & _ & Ma & Mb & _).
    destruct (strip_fun _ _ _ _ _ _ _ _ _ _ _ _ J J') as (Ea & Eb & _). cbn [map]. rewrite rsum_cons.
    pose proof (IH b S' (fun m M => Ip m (or_intror M))) as Q. destruct (strips_split _ _ _ _ _ _ _ S' _ _ _ _ Hi) as (Yb & _).
    unfold down at 1. rewrite !KK_pos by lra.
    replace (mid i - mid j + h / 2) with (mid i - a) by lra. replace (mid i - mid j - h / 2) with (mid i - b) by lra.
    pose proof (GG_le L eps HL (Rlt_le _ _ E) (mid i - a) (mid i - y') ltac:(lra) ltac:(lra)). lra.
Qed.
Lemma down_row i : In i lat -> 0 < rsum (map (down i) lat).
Proof.
  intros I. pose proof (h_pos i I) as H. destruct (in_split _ _ I) as (pre & post & El). pose proof S as S'. rewrite El in S'.
  destruct (mid_strip i I) as (ai & bi & ti & ci & Hi & _ & Mi & Mi' & _). destruct (strips_split _ _ _ _ _ _ _ S' _ _ _ _ Hi) as (Yy & Sp & _).
  assert (Sub : forall j, In j (pre ++ i :: post) -> In j lat) by (intros j J; rewrite El; exact J).
  pose proof (down_left i post I pre y S' Sub) as A.
  pose proof (down_right i I post bi ltac:(lra) Sp (fun j J => Sub j (in_or_app pre (i :: post) j (or_intror (or_intror J))))) as B.
  rewrite El, map_app, rsum_app. cbn [map]. rewrite rsum_cons. unfold down at 2. rewrite KK_pos, KK_neg by lra.
  replace (mid i - mid i + h / 2) with (h / 2) by ring. replace (- (mid i - mid i - h / 2)) with (h / 2) by lra. replace (bi - mid i) with (h / 2) in B by lra.
  pose proof (GG_pos L eps HL (Rlt_le _ _ E) (mid i - y) ltac:(lra)). lra.
Qed.

(** Force against the flow. *)
Lemma force_x i q : In (i, q) (combine lat g) ->
  vx (kj_force eps lat g s r i q) = f_rho s * h / (4 * PI) * (q * rsum (map (fun z => snd z * down i (fst z)) (combine lat g))).
Proof.
  intros I. pose proof (in_combine_l _ _ _ _ I) as Il. destruct (mid_strip i Il) as (y1 & y2 & x & c & Hi & _ & Y1 & Y2 & Bi). destruct Hi as (_ & _ & _ & E2 & E3 & _).
  assert (W : vz (induced eps (pB i) (combine lat g)) = - / (4 * PI) * rsum (map (fun z => snd z * down i (fst z)) (combine lat g))).
  { unfold induced. rewrite vsum_z, map_map, <- rsum_scal. apply rsum_ext. intros [j u] Z. cbn [fst snd vscale vz].
    destruct (mids (i, q) (j, u) I Z) as [N1 N2]. rewrite (shoe_down i j Il (in_combine_l _ _ _ _ Z) N1 N2). ring. }
  unfold kj_force, local_vel. rewrite straight_onset by exact F. rewrite E2, E3. set (w := induced _ _ _) in *. vsimp. rewrite W.
  pose proof PI_RGT_0. replace (y2 - y1) with h by lra. field. lra.
Qed.
Lemma total_drag : c_D (o_co (results_val eps lat s r g)) = f_rho s * h / (4 * PI) * rsum (map (fun x => snd x * rsum (map (fun z => snd z * down (fst x) (fst z)) (combine lat g))) (combine lat g)).
Proof.
  unfold results_val. cbn [o_co]. unfold vlm_coeffs. cbn [c_D]. destruct F as (Al & Be & _). rewrite Al, Be. unfold deg2rad. rewrite Rmult_0_l, sin_0, cos_0.
  match goal with |- _ * vx ?v + _ + _ = _ => set (V := v) end.
  replace (1 * 1 * vx V + - 0 * vy V + 1 * 0 * vz V) with (vx V) by ring. unfold V. rewrite vsum_x, map_map, <- rsum_scal. apply rsum_ext. intros [i q] X. exact (force_x i q X).
Qed.
Lemma drag_nonneg : 0 < f_rho s -> loaded g -> 0 < c_D (o_co (results_val eps lat s r g)).
Proof.
  intros Rho (q & Q & Q0). assert (X : exists i, In (i, q) (combine lat g)).
  { destruct (In_nth_error _ _ Q) as (n & N). destruct (nth_error lat n) as [i|] eqn:Ei.
    - exists i. exact (nth_error_In _ _ (nth_combine _ _ _ _ _ Ei N)).
    - apply nth_error_None in Ei. assert (n < length g)%nat by (apply nth_error_Some; congruence). lia. }
  destruct X as (i & X). pose proof (in_combine_l _ _ _ _ X) as I. rewrite total_drag. pose proof PI_RGT_0. pose proof (h_pos i I).
  apply Rmult_lt_0_compat; [apply Rdiv_lt_0_compat; [apply Rmult_lt_0_compat; assumption|lra]|].
  refine (Rlt_le_trans _ _ _ _ (form_bound (fun x z => down (fst x) (fst z)) snd (combine lat g) down_sym _)).
  - assert (Rows : forall x, In x (combine lat g) -> 0 < rsum (map (fun z : panel * R => down (fst x) (fst z)) (combine lat g))).
    { intros [j u] J. cbn [fst]. rewrite <- (map_map fst (down j)). rewrite map_fst_combine by lia. exact (down_row j (in_combine_l _ _ _ _ J)). }
    apply rsum_pos.
    + intros x Hx. apply Rmult_le_pos; [apply Rle_0_sqr|left; exact (Rows x Hx)].
    + exists (i, q). split; [exact X|]. apply Rmult_lt_0_compat; [|exact (Rows _ X)]. cbn [snd]. exact (Rsqr_pos_lt q Q0).
  - intros x z Hx Hz. destruct (apart_order x z Hx Hz) as [O|O]; [left; exact O|right]. left. apply down_neg; assumption.
Qed.
Lemma drag_zero : ~ loaded g -> c_D (o_co (results_val eps lat s r g)) = 0.
Proof.
  intros N. rewrite total_drag, rsum_zero; [ring|]. intros [i q] X. cbn [snd]. destruct (Req_dec q 0) as [->|Q]; [ring|]. exfalso. apply N. exists q. split; [exact (in_combine_r _ _ _ _ X)|exact Q].
Qed.
End Drag.

(** ** Plain wings *)
Lemma plain_In w x0 z0 y subs : plain_wing w x0 z0 y subs -> forall q n m, In (q, (n, m)) subs ->
  exists y1 y2 c1 c2, q = plain x0 z0 y1 y2 c1 c2 /\ (0 < n)%Z /\ m = 1%Z.
Proof.
  intros H. induction H as [y|y y1 y2 c1 c2 n rest Y Y12 C1 C2 N H IH]; intros q k m I; [destruct I|].
  destruct I as [I|I]; [|exact (IH q k m I)]. injection I as <- <- <-. exists y1, y2, c1, c2. auto.
Qed.
Lemma plain_even w x0 z0 y subs h dir : plain_wing w x0 z0 y subs -> even h subs -> forall j, In j (lattice dir subs) ->
  width j = h /\ vy (pB j) = (vy (pV2 j) + vy (pV3 j)) / 2.
Proof.
  intros W Ev j J. unfold lattice in J. apply in_flat_map in J. destruct J as ((q & n & m) & I & J). cbn [fst snd] in J.
  destruct (plain_In _ _ _ _ _ W q n m I) as (y1 & y2 & c1 & c2 & Q & N & ->). pose proof (Ev q n 1%Z I) as A.
  unfold sub_panels in J. apply in_map_iff in J. destruct J as (k & <- & _). unfold make_panel. rewrite Z.div_1_r. set (K := IZR (Z.of_nat k)). clearbody K.
  assert (N' : 0 < IZR n) by (apply (IZR_lt 0); exact N). rewrite Q in *. rewrite !plain_corner. unfold width, panel_of_corners. cbn [pV2 pV3 pB vy].
  unfold across, plain in A. cbn [qa qb vy] in A. split; [|lra].
  replace (y2 - y1) with (IZR n * h) by lra.
  replace (1 / IZR n * (K + 1) * (IZR n * h)) with ((K + 1) * h) by (field; lra). replace (1 / IZR n * K * (IZR n * h)) with (K * h) by (field; lra). lra.
Qed.

Lemma plain_drag x0 z0 y subs lat s r eps h g : plain_wing 10000 x0 z0 y subs -> Forall2 tilted (lattice (trail_dir 0 0) subs) lat -> even h subs ->
  straight s -> 0 < eps -> 0 < f_rho s -> length g = length lat ->
  exists o, vlm_results eps lat s r g = Some o /\ (loaded g -> 0 < c_D (o_co o)) /\ (~ loaded g -> c_D (o_co o) = 0) /\
    (0 < f_airspeed s -> 0 < r_area r -> exists CD, c_CD (o_co o) = Some CD /\ (loaded g -> 0 < CD) /\ (~ loaded g -> CD = 0)).
Proof.
  intros W T Ev Fs E Rho Lg. rewrite trail_straight in T.
  pose proof (tilted_strips _ _ _ lat y (lattice (mkV 10000 0 0) subs) (plain_strips _ _ _ _ _ W) T) as S.
  assert (EV : forall j, In j lat -> width j = h /\ vy (pB j) = (vy (pV2 j) + vy (pV3 j)) / 2).
  { intros j' J'. assert (X : exists j, In j (lattice (mkV 10000 0 0) subs) /\ tilted j j').
    { clear - T J'. induction T as [|a b l l' H T IH]; [destruct J'|]. destruct J' as [<-|J']; [exists a; split; [left; reflexivity|exact H]|].
      destruct (IH J') as (j & J & Tj). exists j. split; [right; exact J|exact Tj]. }
    destruct X as (j & J & (_ & T2 & T3 & _ & _ & T6 & _)). unfold width. rewrite T2, T3, T6. exact (plain_even _ _ _ _ _ h _ W Ev j J). }
  exists (results_val eps lat s r g). split; [exact (has_results _ _ _ _ _ s r eps g S E)|].
  pose proof (drag_nonneg 10000 x0 z0 y lat s r eps h g ltac:(lra) S Fs Lg E EV Rho) as P.
  pose proof (drag_zero 10000 x0 z0 y lat s r eps h g ltac:(lra) S Fs E EV) as Z. split; [exact P|]. split; [exact Z|].
  intros V Ar. exists (c_D (o_co (results_val eps lat s r g)) / (dyn_pressure s * r_area r)).
  assert (Q : 0 < dyn_pressure s) by (unfold dyn_pressure; apply Rmult_lt_0_compat; [lra|nra]).
  assert (QA : 0 < dyn_pressure s * r_area r) by (apply Rmult_lt_0_compat; assumption). split; [|split].
  - unfold results_val in *. cbn [o_co] in *. unfold vlm_coeffs in *. cbn [c_D c_CD] in *. destruct (Req_EM_T (dyn_pressure s) 0) as [Z0|_]; [lra|]. rewrite cdiv_some by nra. reflexivity.
  - intros Ld. apply Rdiv_lt_0_compat; [exact (P Ld)|exact QA].
  - intros Ld. rewrite (Z Ld). unfold Rdiv. ring.
Qed.

(** Circulations that solve the equations of a wing that is not parallel to the flow everywhere. *)
Lemma unloaded_still m b g : solves m b g -> ~ loaded g -> forall x, In x b -> x = 0.
Proof.
  intros (_ & H) N x X. rewrite <- H in X. apply in_map_iff in X. destruct X as (row & <- & _). unfold dot.
  assert (Z : forall q, In q g -> q = 0) by (intros q Q; destruct (Req_dec q 0) as [E|E]; [exact E|exfalso; apply N; exists q; split; assumption]). clear - Z.
  revert g Z. induction row as [|a row IH]; intros [|q g] Z; try reflexivity. cbn [combine map fst snd]. rewrite rsum_cons, (Z q (or_introl eq_refl)), IH by (intros; apply Z; right; assumption). ring.
Qed.
Lemma solved_drag x0 z0 y subs lat s r eps h m g : plain_wing 10000 x0 z0 y subs -> Forall2 tilted (lattice (trail_dir 0 0) subs) lat -> even h subs ->
  straight s -> 0 < eps -> 0 < f_rho s -> 0 < f_airspeed s -> 0 < r_area r -> (exists j, In j lat /\ vx (pN j) <> 0) ->
  downwash eps lat = Some m -> solves m (boundary lat s r) g ->
  exists o CD, vlm_results eps lat s r g = Some o /\ 0 < c_D (o_co o) /\ c_CD (o_co o) = Some CD /\ 0 < CD.
Proof.
  intros W T Ev Fs E Rho V Ar (j & J & N) Dm Sg.
  assert (Lg : length g = length lat).
  { destruct Sg as (Lg & _). rewrite Lg. destruct (downwash_inv _ _ _ Dm) as (-> & _). apply map_length. }
  assert (Ld : loaded g).
  { destruct (Exists_dec (fun q => q <> 0) g) as [X|X].
    - intros q. destruct (Req_EM_T q 0) as [Z|Z]; [right; intro K; exact (K Z)|left; exact Z].
    - apply Exists_exists in X. exact X.
    - exfalso. assert (Nl : ~ loaded g) by (intros (q & Q & Q0); apply X, Exists_exists; exists q; split; assumption).
      pose proof (unloaded_still _ _ _ Sg Nl (- f_airspeed s * vx (pN j))) as Z. rewrite straight_boundary in Z by exact Fs.
      specialize (Z (in_map (fun j => - f_airspeed s * vx (pN j)) _ _ J)). apply Rmult_integral in Z. destruct Z; [lra|exact (N H)]. }
  destruct (plain_drag x0 z0 y subs lat s r eps h g W T Ev Fs E Rho Lg) as (o & O & P & _ & C). destruct (C V Ar) as (CD & CDo & PC & _).
  exists o, CD. split; [exact O|]. split; [exact (P Ld)|]. split; [exact CDo|exact (PC Ld)].
Qed.
