(** Finite trailing legs against vortices that extend to infinity. *)
From Coq Require Import Reals List ZArith Lra Psatz.
From Verif Require Import Vec PanelModel GeomSpec GeomProofs VlmModel VlmSpec VlmProofs BiotSavart WakeSpec.
Import ListNotations.
Open Scope R_scope.

Section Ray.
Variables p a d : vec.
Hypothesis D : vnorm d = 1.
Hypothesis O : vcross (vsub p a) d <> vzero.
Let r := vsub p a.
Let x := ahead p a d.
Let h := aside p a d.
Let n1 := vnorm r.

Lemma dd : vdot d d = 1.
Proof. rewrite <- vnorm_sq, D. ring. Qed.
Lemma h_pos : 0 < h.
Proof. apply vnorm_pos, O. Qed.
Lemma h_sq : h * h = n1 * n1 - x * x.
Proof. unfold h, aside. rewrite vnorm_sq, lagrange, dd. unfold n1, x, ahead, r. rewrite vnorm_sq. ring. Qed.
Lemma n1_pos : 0 < n1.
Proof.
  apply vnorm_pos. intro E. apply O. fold r. rewrite E. apply vec_eq; vsimp; ring.
Qed.

Definition far : vec := vscale (/ (4 * PI) * / (h * h) * (1 + x / n1)) (vcross d r).

Variable L : R.
Hypothesis L0 : 0 < L.
Let b := vadd a (vscale L d).
Let n2 := vnorm (vsub p b).
Lemma n2_sq : n2 * n2 = (L - x) * (L - x) + h * h.
Proof.
  unfold n2. rewrite vnorm_sq, h_sq. unfold n1. rewrite vnorm_sq. unfold x, ahead, b, r.
  assert (E : vdot (vsub p (vadd a (vscale L d))) (vsub p (vadd a (vscale L d))) =
    vdot (vsub p a) (vsub p a) - 2 * L * vdot (vsub p a) d + L * L * vdot d d) by (unfold vdot; vsimp; ring).
  rewrite E, dd. ring.
Qed.
Lemma n2_pos : 0 < n2.
Proof.
  pose proof h_pos as H. pose proof n2_sq as N. pose proof (vnorm_nonneg (vsub p b)) as P. fold n2 in P.
  assert (0 < h * h) by nra. pose proof (sq_nonneg (L - x)). destruct P as [P|P]; [exact P|]. rewrite <- P in N. lra.
Qed.
Lemma ray_cross : vcross r (vsub p b) = vscale L (vcross d r).
Proof. unfold b, r. apply vec_eq; vsimp; ring. Qed.
Lemma ray_off : off_line p a b.
Proof.
  unfold off_line. fold r. rewrite ray_cross. intro E. apply O. fold r.
  assert (Z : forall k, L * k = 0 -> k = 0) by (intros k K; apply Rmult_integral in K; lra).
  pose proof (f_equal vx E) as X. pose proof (f_equal vy E) as Y. pose proof (f_equal vz E) as W. cbn [vx vy vz vscale vzero] in X, Y, W.
  apply Z in X, Y, W. vsimp. apply vec_eq; vsimp; lra.
Qed.
Lemma ray_dot : vdot r (vsub p b) = n1 * n1 - L * x.
Proof. unfold n1. rewrite vnorm_sq. unfold x, ahead, r, b, vdot. vsimp. ring. Qed.

Definition near_part : vec := vscale (/ (4 * PI) * / (h * h) * ((L - x) / n2 + x / n1)) (vcross d r).

Lemma ray_velocity : leg_velocity 0 p a b = Some near_part.
Proof.
  pose proof n1_pos as P1. pose proof n2_pos as P2. pose proof h_pos as PH. pose proof PI_RGT_0 as PP.
  destruct (off_line_facts p a b ray_off) as (_ & _ & DL & _). fold r n2 in DL. fold n1 in DL. rewrite ray_dot in DL.
  unfold leg_velocity. fold r. fold n2. fold n1. rewrite ray_dot, ray_cross.
  rewrite !cdiv_some by lra. f_equal. unfold near_part.
  assert (K : (n1 + n2) * L * (h * h) = (n1 * n2 + n1 * n1 - L * x) * ((L - x) * n1 + x * n2)).
  { pose proof n2_sq as N. pose proof h_sq as H. rewrite H in *.
    replace ((n1 * n2 + n1 * n1 - L * x) * ((L - x) * n1 + x * n2))
      with (n1 * n1 * n2 * L + x * n1 * (n2 * n2) + n1 * n1 * n1 * (L - x) - L * x * (L - x) * n1 - L * x * x * n2) by ring.
    rewrite N. ring. }
  assert (Q : / (h * h) * ((L - x) / n2 + x / n1) = (n1 + n2) / (n1 * n2 * (n1 * n2 + n1 * n1 - L * x)) * L).
  { assert (HH : h * h <> 0) by nra. assert (n1 * n2 + n1 * n1 - L * x <> 0) by lra.
    apply (Rmult_eq_reg_r (h * h * n1 * n2 * (n1 * n2 + n1 * n1 - L * x))).
    - transitivity ((n1 * n2 + n1 * n1 - L * x) * ((L - x) * n1 + x * n2)); [field; repeat split; lra|]. rewrite <- K. field. repeat split; lra.
    - repeat apply Rmult_integral_contrapositive_currified; lra. }
  rewrite (Rmult_assoc (/ (4 * PI)) (/ (h * h))), Q. assert (n1 * n2 + n1 * n1 - L * x <> 0) by lra.
  assert (n1 * n1 - L * x + n1 * n2 * (1 + 0) <> 0) by lra.
  apply vec_eq; vsimp; field; repeat split; lra.
Qed.

Lemma ray_error : x < L -> vnorm (vsub near_part far) <= cut_off L p a d.
Proof.
  intros XL. pose proof n1_pos as P1. pose proof n2_pos as P2. pose proof h_pos as PH. pose proof PI_RGT_0 as PP. pose proof n2_sq as N.
  set (y := L - x) in *. assert (Y : 0 < y) by (unfold y; lra).
  assert (E : vsub near_part far = vscale (/ (4 * PI) * / (h * h) * (y / n2 - 1)) (vcross d r)).
  { unfold near_part, far. fold y. apply vec_eq; vsimp; field; repeat split; lra. }
  assert (C : vnorm (vcross d r) = h) by (unfold h, aside; fold r; rewrite vcross_anti, vnorm_scale, Rabs_left by lra; ring).
  rewrite E, vnorm_scale, C. unfold cut_off. fold x y h.
  assert (n2y : y < n2) by nra.
  assert (B1 : y / n2 - 1 <= 0).
  { apply (Rmult_le_reg_r n2); [exact P2|]. unfold Rdiv. rewrite Rmult_minus_distr_r, Rmult_assoc, Rinv_l by lra. lra. }
  assert (K0 : 0 < / (4 * PI) * / (h * h)).
  { apply Rmult_lt_0_compat; apply Rinv_0_lt_compat; nra. }
  rewrite Rabs_left1 by nra.
  assert (F : 1 - y / n2 <= h * h / (2 * (y * y))).
  { assert (G : 1 - y / n2 = h * h / (n2 * (n2 + y))).
    { replace (h * h) with (n2 * n2 - y * y) by lra. field. split; lra. }
    rewrite G. apply Rmult_le_compat_l; [nra|]. apply Rinv_le_contravar; nra. }
  replace (h / (8 * PI * (y * y))) with (/ (4 * PI) * / (h * h) * (h * h / (2 * (y * y))) * h) by (field; repeat split; lra).
  apply Rmult_le_compat_r; [lra|]. rewrite Ropp_mult_distr_r. apply Rmult_le_compat_l; lra.
Qed.
End Ray.

Lemma ray_semi_infinite p a d : vnorm d = 1 -> vcross (vsub p a) d <> vzero -> semi_infinite p a d (far p a d).
Proof.
  intros D O e E. pose proof (h_pos p a d O) as H. pose proof PI_RGT_0 as PP. set (x := ahead p a d). set (h := aside p a d) in *.
  set (y0 := 1 + h / (8 * PI * e)). assert (P8 : 0 < 8 * PI * e) by nra. assert (Hy : 0 < h / (8 * PI * e)) by (apply Rdiv_lt_0_compat; lra).
  exists (Rabs x + y0). intros L LL. pose proof (Rle_abs x) as AX. pose proof (Rabs_pos x) as AP. assert (L0 : 0 < L) by (unfold y0 in LL; lra).
  assert (XL : y0 <= L - x) by lra.
  exists (near_part p a d L). split.
  - destruct (exact_leg p a (vadd a (vscale L d)) (ray_off p a d O L L0)) as (u & U & B).
    rewrite (ray_velocity p a d D O L L0) in U. injection U as <-. exact B.
  - eapply Rle_lt_trans; [apply (ray_error p a d D O L); fold x; unfold y0 in XL; lra|]. unfold cut_off. fold x h.
    set (y := L - x) in *. assert (Y0 : 1 <= y0) by (unfold y0; lra). assert (EY : h / (8 * PI * e) < y0) by (unfold y0; lra).
    clearbody y0 y x h. assert (Y1 : y0 <= y * y) by nra.
    apply (Rmult_lt_reg_r (8 * PI * (y * y))); [nra|]. unfold Rdiv. rewrite Rmult_assoc, Rinv_l by nra.
    assert (EH : h = h / (8 * PI * e) * (8 * PI * e)) by (field; split; lra).
    assert (h / (8 * PI * e) * (8 * PI * e) < y * y * (8 * PI * e)) by (apply Rmult_lt_compat_r; lra). lra.
Qed.

(** The vortex to infinity, and the leg of length [L]. *)
Lemma finite_leg p a d : vnorm d = 1 -> vcross (vsub p a) d <> vzero ->
  exists v, semi_infinite p a d v /\
  forall L, 0 < L -> ahead p a d < L -> exists u, leg_velocity 0 p a (vadd a (vscale L d)) = Some u /\ vnorm (vsub u v) <= cut_off L p a d.
Proof.
  intros D O. exists (far p a d). split; [exact (ray_semi_infinite p a d D O)|]. intros L L0 XL.
  exists (near_part p a d L). split; [exact (ray_velocity p a d D O L L0)|exact (ray_error p a d D O L XL)].
Qed.

(** ** Norms *)
Lemma vnorm_triangle u v : vnorm (vadd u v) <= vnorm u + vnorm v.
Proof.
  pose proof (vnorm_nonneg u) as A. pose proof (vnorm_nonneg v) as B. pose proof (vnorm_nonneg (vadd u v)) as C.
  pose proof (cauchy_abs u v) as K. pose proof (Rle_abs (vdot u v)) as K'.
  pose proof (vnorm_sq u) as U. pose proof (vnorm_sq v) as V. pose proof (vnorm_sq (vadd u v)) as W.
  assert (E : vdot (vadd u v) (vadd u v) = vdot u u + vdot v v + 2 * vdot u v) by (unfold vdot; vsimp; ring). nra.
Qed.
Lemma vnorm_opp v : vnorm (vscale (-1) v) = vnorm v.
Proof. rewrite vnorm_scale, Rabs_left by lra. ring. Qed.

(** A regularised leg of finite length. *)
Lemma regularised_leg p a d : vnorm d = 1 -> vcross (vsub p a) d <> vzero ->
  exists v, semi_infinite p a d v /\
  forall eps L, 0 <= eps -> 0 < L -> ahead p a d < L -> exists u, leg_velocity eps p a (vadd a (vscale L d)) = Some u /\
    vnorm (vsub u v) <= cut_off L p a d + (1 - damping eps p a (vadd a (vscale L d))) * (vnorm v + cut_off L p a d).
Proof.
  intros D O. exists (far p a d). split; [exact (ray_semi_infinite p a d D O)|]. intros eps L E L0 XL.
  pose proof (ray_velocity p a d D O L L0) as U0. pose proof (ray_error p a d D O L XL) as B. pose proof (ray_off p a d O L L0) as OL.
  set (b := vadd a (vscale L d)) in *. set (u0 := near_part p a d L) in *. set (v := far p a d) in *.
  destruct (damping_range eps p a b E OL) as ((D0 & D1) & _).
  assert (U : leg_velocity eps p a b = Some (vscale (damping eps p a b) u0)).
  { destruct (off_line_facts p a b OL) as (A1 & A2 & DL & _). pose proof (vnorm_pos _ A1). pose proof (vnorm_pos _ A2).
    destruct (leg_velocity eps p a b) as [u|] eqn:EU.
    - destruct (leg_biot_savart eps p a b u E OL EU) as (w & BS & ->).
      destruct (leg_biot_savart 0 p a b u0 (Rle_refl 0) OL U0) as (w' & BS' & EW).
      destruct (damping_range 0 p a b (Rle_refl 0) OL) as (_ & K & _). rewrite (K eq_refl) in EW.
      f_equal. f_equal. rewrite EW. clear - BS BS'.
      assert (F : forall f x y, integral f x -> integral f y -> x = y) by (intros f x y (pr & <-) (pr' & <-); apply RiemannInt_P5).
      destruct BS as (X & Y & Z), BS' as (X' & Y' & Z'). apply vec_eq; vsimp; rewrite Rmult_1_l; eapply F; eassumption.
    - exfalso. unfold leg_velocity in EU. assert (0 < vnorm (vsub p a) * vnorm (vsub p b)) by nra. rewrite !cdiv_some in EU by nra. discriminate. }
  exists (vscale (damping eps p a b) u0). split; [exact U|]. set (c := damping eps p a b) in *.
  replace (vsub (vscale c u0) v) with (vadd (vsub u0 v) (vscale (- (1 - c)) u0)) by (apply vec_eq; vsimp; ring).
  eapply Rle_trans; [apply vnorm_triangle|]. rewrite vnorm_scale, Rabs_left1 by lra.
  assert (N : vnorm u0 <= vnorm v + cut_off L p a d).
  { replace u0 with (vadd v (vsub u0 v)) by (apply vec_eq; vsimp; ring). eapply Rle_trans; [apply vnorm_triangle|]. lra. }
  replace (- - (1 - c)) with (1 - c) by ring. apply Rplus_le_compat; [exact B|]. apply Rmult_le_compat_l; lra.
Qed.

(** Size of the part cut off, for points close to the start. *)
Lemma cut_off_size L p a d S : vnorm d = 1 -> vnorm (vsub p a) <= S -> S < L ->
  cut_off L p a d <= S / (8 * PI * ((L - S) * (L - S))).
Proof.
  intros D N SL. pose proof PI_RGT_0 as PP. pose proof (vnorm_nonneg (vsub p a)) as N0.
  pose proof (cauchy_abs (vsub p a) d) as K. rewrite D in K. pose proof (Rle_abs (vdot (vsub p a) d)) as K'.
  assert (H : aside p a d <= S).
  { unfold aside. pose proof (vnorm_sq (vcross (vsub p a) d)) as Q. rewrite lagrange, (dd d D), <- vnorm_sq in Q.
    pose proof (vnorm_nonneg (vcross (vsub p a) d)). pose proof (sq_nonneg (vdot (vsub p a) d)). nra. }
  unfold cut_off. set (x := ahead p a d). assert (X : x <= S) by (unfold x, ahead; lra).
  assert (A0 : 0 <= aside p a d) by apply vnorm_nonneg.
  assert (Y : (L - S) * (L - S) <= (L - x) * (L - x)) by nra. assert (Y0 : 0 < (L - S) * (L - S)) by nra.
  apply Rmult_le_compat; [exact A0| |exact H|].
  - apply Rlt_le, Rinv_0_lt_compat. apply Rmult_lt_0_compat; lra.
  - apply Rinv_le_contravar; [apply Rmult_lt_0_compat; lra|]. apply Rmult_le_compat_l; lra.
Qed.

(** ** The horseshoes of a lattice *)
Lemma flow_dir_eq alpha beta : flow_dir alpha beta = freestream_direction (deg2rad alpha) (deg2rad beta).
Proof. unfold flow_dir, freestream_direction. rewrite !deg2rad_rad. reflexivity. Qed.
Lemma lattice_legs alpha beta subs j : In j (lattice (trail_dir alpha beta) subs) ->
  pV1 j = vadd (pV2 j) (vscale 10000 (flow_dir alpha beta)) /\ pV4 j = vadd (pV3 j) (vscale 10000 (flow_dir alpha beta)).
Proof.
  unfold lattice, sub_panels. rewrite in_flat_map. intros (x & _ & H). apply in_map_iff in H. destruct H as (k & <- & _).
  unfold make_panel, panel_of_corners. cbn [pV1 pV2 pV3 pV4]. rewrite flow_dir_eq. unfold trail_dir, infty. split; apply vec_eq; vsimp; ring.
Qed.
Lemma infinite_horseshoe alpha beta subs j p : In j (lattice (trail_dir alpha beta) subs) ->
  let w := flow_dir alpha beta in
  off_line p (pV2 j) (pV3 j) -> vcross (vsub p (pV2 j)) w <> vzero -> vcross (vsub p (pV3 j)) w <> vzero ->
  ahead p (pV2 j) w < 10000 -> ahead p (pV3 j) w < 10000 ->
  exists u l b r, horseshoe 0 p j = Some u /\ semi_infinite p (pV2 j) w l /\ biot_savart p (pV2 j) (pV3 j) b /\ semi_infinite p (pV3 j) w r /\
    vnorm (vsub u (vadd b (vsub r l))) <= cut_off 10000 p (pV2 j) w + cut_off 10000 p (pV3 j) w.
Proof.
  intros I w O O2 O3 A2 A3. destruct (lattice_legs alpha beta subs j I) as [E1 E4]. fold w in E1, E4.
  assert (W : vnorm w = 1) by (unfold w; rewrite flow_dir_eq; apply freestream_unit).
  destruct (finite_leg p (pV2 j) w W O2) as (l & SL & FL). destruct (FL 10000 ltac:(lra) A2) as (u2 & U2 & B2).
  destruct (finite_leg p (pV3 j) w W O3) as (r & SR & FR). destruct (FR 10000 ltac:(lra) A3) as (u3 & U3 & B3).
  destruct (exact_leg p (pV2 j) (pV3 j) O) as (b & UB & BS).
  exists (vadd (vadd (vscale (-1) u2) b) u3), l, b, r. split; [|split; [exact SL|split; [exact BS|split; [exact SR|]]]].
  - rewrite horseshoe_eq, E1, E4, leg_rev, U2, UB, U3. reflexivity.
  - replace (vsub (vadd (vadd (vscale (-1) u2) b) u3) (vadd b (vsub r l))) with (vadd (vscale (-1) (vsub u2 l)) (vsub u3 r)) by (apply vec_eq; vsimp; ring).
    eapply Rle_trans; [apply vnorm_triangle|]. rewrite vnorm_opp. lra.
Qed.

(** ** Circulation shed by a row *)
Fixpoint shed_from (x : R) (g : list R) : list R := match g with [] => [x] | y :: g' => (x - y) :: shed_from y g' end.
Lemma shed_eq g : forall x, map (fun x => fst x - snd x) (combine (x :: g) (g ++ [0])) = shed_from x g.
Proof. induction g as [|y g IH]; intros x; cbn [app combine map shed_from fst snd]; [rewrite Rminus_0_r; reflexivity|]. f_equal. apply IH. Qed.
Lemma shed_sum g : forall x, rsum (shed_from x g) = x.
Proof. induction g as [|y g IH]; intros x; cbn [shed_from rsum fold_right]; [ring|]. fold (rsum (shed_from y g)). rewrite IH. ring. Qed.
Lemma weighted_shift g x t ts : weighted (shed_from x g) (t :: ts) = vadd (vscale x t) (weighted (shed_from 0 g) (t :: ts)).
Proof.
  unfold weighted. destruct g as [|y g]; cbn [shed_from combine map vsum fold_right fst snd]; apply vec_eq; vsimp; ring.
Qed.
Lemma row_shed eps p : forall row last g us, linked (row ++ [last]) ->
  Forall2 (fun j u => horseshoe eps p j = Some u) (row ++ [last]) us -> List.length g = List.length us ->
  exists bs ts, Forall2 (fun j b => leg_velocity eps p (pV2 j) (pV3 j) = Some b) (row ++ [last]) bs /\
    Forall2 (fun l t => leg_velocity eps p (fst l) (snd l) = Some t) (trailing_lines (row ++ [last]) last) ts /\
    weighted g us = vadd (weighted g bs) (weighted (shed_from 0 g) ts).
Proof.
  assert (HS : forall j u, horseshoe eps p j = Some u -> exists l b r, leg_velocity eps p (pV2 j) (pV1 j) = Some l /\
    leg_velocity eps p (pV2 j) (pV3 j) = Some b /\ leg_velocity eps p (pV3 j) (pV4 j) = Some r /\ u = vadd b (vsub r l)).
  { intros j u H. rewrite horseshoe_eq, leg_rev in H. destruct (leg_velocity eps p (pV2 j) (pV1 j)) as [l|]; [|discriminate]. cbn [option_map] in H.
    destruct (leg_velocity eps p (pV2 j) (pV3 j)) as [b|]; [|discriminate]. destruct (leg_velocity eps p (pV3 j) (pV4 j)) as [r|]; [|discriminate].
    injection H as <-. exists l, b, r. repeat (split; [reflexivity|]). apply vec_eq; vsimp; ring. }
  induction row as [|j row IH]; intros last g us LK F LG.
  - cbn [app] in F. inversion F as [|? u ? us' H F' E1 E2]; subst. inversion F'; subst. destruct (HS _ _ H) as (l & b & r & L & B & R & ->).
    destruct g as [|x [|? ?]]; try discriminate. exists [b], [l; r]. split; [repeat constructor; exact B|]. split.
    + unfold trailing_lines. cbn. constructor; [exact L|constructor; [exact R|constructor]].
    + unfold weighted. cbn. apply vec_eq; vsimp; ring.
  - cbn [app] in F. inversion F as [|? u ? us' H F' E1 E2]; subst. destruct (HS _ _ H) as (l & b & r & L & B & R & ->).
    destruct g as [|x g]; [discriminate|]. cbn [List.length] in LG. injection LG as LG.
    assert (LK' : linked (row ++ [last])) by (destruct row; cbn in LK; tauto).
    destruct (IH last g us' LK' F' LG) as (bs & ts & FB & FT & W). exists (b :: bs), (l :: ts). split; [constructor; assumption|]. split.
    + unfold trailing_lines. cbn [map app]. constructor; [exact L|]. exact FT.
    + assert (T : exists ts', ts = r :: ts').
      { assert (X : exists k rest, row ++ [last] = k :: rest /\ pV3 j = pV2 k /\ pV4 j = pV1 k).
        { destruct row as [|k row]; cbn in LK |- *; eexists; eexists; split; try reflexivity; tauto. }
        destruct X as (k & rest & XE & X2 & X1). unfold trailing_lines in FT. rewrite XE in FT. cbn [map app] in FT.
        inversion FT as [|? t ? ts' HT _ EA EB]; subst. cbn [left_line fst snd] in HT. rewrite <- X2, <- X1, R in HT. injection HT as <-. eexists. reflexivity. }
      destruct T as (ts' & ->). cbn [shed_from].
      change (weighted (x :: g) (vadd b (vsub r l) :: us')) with (vadd (vscale x (vadd b (vsub r l))) (weighted g us')).
      change (weighted (x :: g) (b :: bs)) with (vadd (vscale x b) (weighted g bs)).
      change (weighted (0 - x :: shed_from x g) (l :: r :: ts')) with (vadd (vscale (0 - x) l) (weighted (shed_from x g) (r :: ts'))).
      rewrite W, (weighted_shift g x). apply vec_eq; vsimp; ring.
Qed.
Lemma row_induced eps p row last g w : linked (row ++ [last]) -> List.length g = List.length (row ++ [last]) -> is_induced eps (row ++ [last]) g p w ->
  exists bs ts, Forall2 (fun j b => leg_velocity eps p (pV2 j) (pV3 j) = Some b) (row ++ [last]) bs /\
    Forall2 (fun l t => leg_velocity eps p (fst l) (snd l) = Some t) (trailing_lines (row ++ [last]) last) ts /\
    w = vadd (weighted g bs) (weighted (shed g) ts).
Proof.
  intros LK LG (us & F & ->).
  assert (E : forall (A B : Type) (P : A -> B -> Prop) l m, Forall2 P l m -> List.length l = List.length m) by (induction 1; cbn; congruence).
  rewrite (E _ _ _ _ _ F) in LG. destruct (row_shed eps p row last g us LK F LG) as (bs & ts & A & B & C).
  exists bs, ts. split; [exact A|]. split; [exact B|]. unfold shed. rewrite shed_eq. exact C.
Qed.
Lemma shed_total g : rsum (shed g) = 0.
Proof. unfold shed. rewrite shed_eq. apply shed_sum. Qed.

(** Rows of the lattice, within a subarea and across subareas that meet. *)
Lemma row_linked dir q ps pc i : (1 <= ps)%Z -> (1 <= pc)%Z -> linked (map (fun j => make_panel dir q ps pc i (Z.of_nat j)) (seq 0 (Z.to_nat ps))).
Proof.
  intros Hs Hc. assert (G : forall n k, linked (map (fun j => make_panel dir q ps pc i (Z.of_nat j)) (seq k n))).
  { induction n as [|n IH]; intros k; [exact I|]. specialize (IH (S k)). destruct n as [|n]; [exact I|].
    cbn [seq map] in IH |- *. split; [|split; [|exact IH]];
      destruct (panel_neighbours dir q ps pc Hs Hc i (Z.of_nat k)) as (_ & _ & A & B); rewrite Nat2Z.inj_succ; unfold Z.succ;
      unfold make_panel, panel_of_corners in A, B |- *; cbn [pP pQ pR pS pV1 pV2 pV3 pV4] in A, B |- *; rewrite A, B; reflexivity. }
  apply G.
Qed.
Lemma meet_linked dir q q' ps ps' pc i : (1 <= ps)%Z -> (1 <= ps')%Z -> (1 <= pc)%Z -> qb q = qa q' -> qc q = qd q' ->
  let j := make_panel dir q ps pc i (ps - 1) in let j' := make_panel dir q' ps' pc i 0 in
  pV3 j = pV2 j' /\ pV4 j = pV1 j'.
Proof.
  intros Hs Hs' Hc E1 E2. pose proof (IZR_pos ps Hs). pose proof (IZR_pos ps' Hs'). pose proof (IZR_pos pc Hc).
  assert (S1 : 1 / IZR ps * (IZR (ps - 1) + 1) = 1) by (rewrite minus_IZR; field; lra).
  assert (S0 : 1 / IZR ps' * 0 = 0) by ring.
  assert (C : forall c, corner q (1 / IZR ps * (IZR (ps - 1) + 1)) c = corner q' (1 / IZR ps' * 0) c).
  { intros c. rewrite S1, S0. unfold corner, coord. rewrite E1, E2. apply vec_eq; vsimp; ring. }
  cbv zeta. unfold make_panel, panel_of_corners. cbn [pV1 pV2 pV3 pV4]. rewrite !C. split; reflexivity.
Qed.
