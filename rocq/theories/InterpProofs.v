(** Proofs about [xsi_interpol] (C44). *)
From Coq Require Import Reals List ZArith String Lra Lia Psatz QArith Qreals.
From Verif Require Import PyBase Vec PanelModel GeomModel GeomSpec GeomProofs StripModel StripSpec.
Import ListNotations.
Open Scope R_scope.

Definition comb (U V : vec) (x y : R) : vec := vadd (vscale x U) (vscale y V).

Lemma basis_identity U V w :
  vscale (vdot (vcross U V) (vcross U V)) w =
  vadd (vadd (vscale (vdot (vcross w V) (vcross U V)) U) (vscale (vdot (vcross U w) (vcross U V)) V))
       (vscale (vdot (vcross U V) w) (vcross U V)).
Proof. apply vec_eq; unfold vdot; vsimp; ring. Qed.

Lemma planar_comb U V w : 0 < vdot (vcross U V) (vcross U V) -> vdot (vcross U V) w = 0 ->
  exists x y, w = comb U V x y.
Proof.
  intros P H. pose proof (basis_identity U V w) as E. rewrite H in E.
  set (k := vdot (vcross U V) (vcross U V)) in *. clearbody k.
  exists (vdot (vcross w V) (vcross U V) / k), (vdot (vcross U w) (vcross U V) / k).
  set (s := vdot (vcross w V) _) in *. set (t := vdot (vcross U w) _) in *. clearbody s t.
  assert (F : w = vscale (/ k) (vscale k w)) by (apply vec_eq; vsimp; field; lra).
  rewrite F, E. apply vec_eq; unfold comb; vsimp; field; lra.
Qed.

Lemma bracket U V x y x' y' :
  vdot (vcross U V) (vcross (comb U V x y) (comb U V x' y')) = (x * y' - y * x') * vdot (vcross U V) (vcross U V).
Proof. unfold comb, vdot; vsimp; ring. Qed.

Lemma triple n u v : vdot (vcross n u) v = vdot n (vcross u v).
Proof. unfold vdot; vsimp; ring. Qed.

Lemma comb_zero U V x y : 0 < vdot (vcross U V) (vcross U V) -> comb U V x y = vzero -> x = 0 /\ y = 0.
Proof.
  intros P H.
  pose proof (bracket U V x y 0 1) as A. pose proof (bracket U V x y 1 0) as B. rewrite H in A, B.
  assert (Z : forall v, vdot (vcross U V) (vcross vzero v) = 0) by (intro v; unfold vdot; vsimp; ring).
  rewrite Z in A, B. split; nra.
Qed.

Section Segment.
  Variables (A U V : vec) (al be : R).
  Let q := mkQuad A (vadd A U) (vadd A (comb U V al be)) (vadd A V).
  Let nn := vdot (vcross U V) (vcross U V).
  Hypothesis NN : 0 < nn.

  Lemma convex_scalars : convex q -> 0 < al /\ 0 < be /\ 1 < al + be.
  Proof.
    unfold convex, turns, seg_normal, q. cbn [qa qb qc qd].
    replace (vsub (vadd A U) A) with U by vring. replace (vsub (vadd A V) A) with V by vring.
    replace (vsub (vadd A (comb U V al be)) (vadd A V)) with (comb U V al (be - 1)) by (unfold comb; vring).
    replace (vsub (vadd A (comb U V al be)) (vadd A U)) with (comb U V (al - 1) be) by (unfold comb; vring).
    intros (_ & H2 & H3 & H4).
    assert (EU : U = comb U V 1 0) by (unfold comb; vring). assert (EV : V = comb U V 0 1) by (unfold comb; vring).
    assert (B2 := bracket U V 1 0 (al - 1) be). rewrite <- EU in B2. rewrite B2 in H2.
    assert (B3 := bracket U V al (be - 1) 0 1). rewrite <- EV in B3. rewrite B3 in H3.
    rewrite bracket in H4. fold nn in H2, H3, H4. repeat split; nra.
  Qed.

  Hypothesis Hal : 0 < al.
  Hypothesis Hbe : 0 < be.
  Hypothesis Hab : 1 < al + be.

  Variables (e1 x1 e2 x2 eta : R).
  Hypothesis H1 : 0 <= e1.
  Hypothesis H12 : e1 < e2.
  Hypothesis H2 : e2 <= 1.
  Hypothesis He : e1 <= eta <= e2.
  Hypothesis X1 : unit_interval x1.
  Hypothesis X2 : unit_interval x2.

  (** Bracket of the line direction at xsi [x] with the chord at station [e]. *)
  Definition K (x e : R) : R := 1 - x + x * al + e * (be - 1).
  Lemma K_pos x e : unit_interval x -> 0 <= e <= 1 -> 0 < K x e.
  Proof.
    unfold unit_interval, K. intros [Xa Xb] [Ea Eb].
    replace (1 - x + x * al + e * (be - 1)) with
      ((1 - x) * ((1 - e) * 1 + e * be) + x * ((1 - e) * al + e * (al + be - 1))) by ring.
    assert (0 < (1 - e) * 1 + e * be) by (destruct (Rle_lt_dec e (1 / 2)); nra).
    assert (0 < (1 - e) * al + e * (al + be - 1)) by (destruct (Rle_lt_dec e (1 / 2)); nra).
    destruct (Rle_lt_dec x (1 / 2)); nra.
  Qed.

  Definition Den : R := (eta - e1) * K x1 eta + (e2 - eta) * K x2 eta.
  Lemma Den_pos : 0 < Den.
  Proof.
    unfold Den. pose proof (K_pos x1 eta X1 ltac:(lra)). pose proof (K_pos x2 eta X2 ltac:(lra)).
    destruct (Rle_lt_dec eta ((e1 + e2) / 2)); nra.
  Qed.

  (** Weight of the outer end in the result. *)
  Definition sig : R := (eta - e1) * K x1 e2 / Den.
  Lemma sig_compl : 1 - sig = (e2 - eta) * K x2 e1 / Den.
  Proof. pose proof Den_pos. unfold sig. apply (Rmult_eq_reg_r Den); [|lra]. unfold Rdiv.
    rewrite Rmult_minus_distr_r, !Rmult_assoc, Rinv_l by lra. unfold Den, K. ring. Qed.
  Lemma sig_unit : 0 <= sig <= 1.
  Proof.
    pose proof Den_pos. pose proof (K_pos x1 e2 X1 ltac:(lra)). pose proof (K_pos x2 e1 X2 ltac:(lra)).
    assert (0 < / Den) by (apply Rinv_0_lt_compat; lra).
    assert (0 <= sig) by (unfold sig, Rdiv; apply Rmult_le_pos; nra).
    assert (0 <= 1 - sig) by (rewrite sig_compl; unfold Rdiv; apply Rmult_le_pos; nra). lra.
  Qed.

  Definition xr : R := (1 - sig) * x1 + sig * x2.
  Definition tau : R := (eta - e1) * K x1 eta / Den.

  Lemma xr_unit : unit_interval xr.
  Proof. pose proof sig_unit. unfold xr, unit_interval in *. nra. Qed.
  Lemma xr_between : Rmin x1 x2 <= xr <= Rmax x1 x2.
  Proof.
    pose proof sig_unit. unfold xr. destruct (Rle_lt_dec x1 x2).
    - rewrite Rmin_left, Rmax_right by lra. nra.
    - rewrite Rmin_right, Rmax_left by lra. nra.
  Qed.
  Lemma tau_unit : unit_interval tau.
  Proof.
    pose proof Den_pos. pose proof (K_pos x1 eta X1 ltac:(lra)). pose proof (K_pos x2 eta X2 ltac:(lra)).
    assert (0 < / Den) by (apply Rinv_0_lt_compat; lra).
    assert (E : 1 - tau = (e2 - eta) * K x2 eta / Den) by (unfold tau; apply (Rmult_eq_reg_r Den); [|lra]; unfold Rdiv;
      rewrite Rmult_minus_distr_r, !Rmult_assoc, Rinv_l by lra; unfold Den, K; ring).
    assert (0 <= tau) by (unfold tau, Rdiv; apply Rmult_le_pos; nra).
    assert (0 <= 1 - tau) by (rewrite E; unfold Rdiv; apply Rmult_le_pos; nra). unfold unit_interval. lra.
  Qed.
  Lemma xr_ends : (eta = e1 -> xr = x1) /\ (eta = e2 -> xr = x2).
  Proof.
    pose proof Den_pos as D. split; intro E.
    - unfold xr, sig. rewrite E at 1 2. unfold Rdiv. ring.
    - unfold xr. rewrite sig_compl. replace sig with (1 - (1 - sig)) by ring. rewrite sig_compl, E. unfold Rdiv. ring.
  Qed.

  (** Vectors relative to the upper point of the station, in the basis U, V. *)
  Definition uU : R := eta * (al - 1).
  Definition uV : R := 1 + eta * (be - 1).
  Lemma chord_comb : vsub (surface q eta 1) (surface q eta 0) = comb U V uU uV.
  Proof. unfold uU, uV, q, comb, surface, along. apply vec_eq; vsimp; ring. Qed.
  Definition pU (e x : R) : R := e + x * (e * (al - 1)) - eta.
  Definition pV (e x : R) : R := x * (1 + e * (be - 1)).
  Lemma point_comb e x : vsub (surface q e x) (surface q eta 0) = comb U V (pU e x) (pV e x).
  Proof. unfold pU, pV, q, comb, surface, along. apply vec_eq; vsimp; ring. Qed.

  Lemma seg_point_surface e x : seg_point q e x = surface q e x.
  Proof. unfold seg_point, surface, along. apply vec_eq; vsimp; ring. Qed.

  Lemma key : forall D, D = Den -> D <> 0 ->
    (1 - (eta - e1) * K x1 eta / D) * pU e1 x1 + (eta - e1) * K x1 eta / D * pU e2 x2 =
      ((1 - (eta - e1) * K x1 e2 / D) * x1 + (eta - e1) * K x1 e2 / D * x2) * uU /\
    (1 - (eta - e1) * K x1 eta / D) * pV e1 x1 + (eta - e1) * K x1 eta / D * pV e2 x2 =
      ((1 - (eta - e1) * K x1 e2 / D) * x1 + (eta - e1) * K x1 e2 / D * x2) * uV.
  Proof.
    intros D E N. split; apply (Rmult_eq_reg_r D); try exact N.
    - replace (((1 - (eta - e1) * K x1 eta / D) * pU e1 x1 + (eta - e1) * K x1 eta / D * pU e2 x2) * D)
        with ((D - (eta - e1) * K x1 eta) * pU e1 x1 + (eta - e1) * K x1 eta * pU e2 x2) by (field; exact N).
      replace (((1 - (eta - e1) * K x1 e2 / D) * x1 + (eta - e1) * K x1 e2 / D * x2) * uU * D)
        with (((D - (eta - e1) * K x1 e2) * x1 + (eta - e1) * K x1 e2 * x2) * uU) by (field; exact N).
      rewrite E. unfold Den, K, pU, uU. ring.
    - replace (((1 - (eta - e1) * K x1 eta / D) * pV e1 x1 + (eta - e1) * K x1 eta / D * pV e2 x2) * D)
        with ((D - (eta - e1) * K x1 eta) * pV e1 x1 + (eta - e1) * K x1 eta * pV e2 x2) by (field; exact N).
      replace (((1 - (eta - e1) * K x1 e2 / D) * x1 + (eta - e1) * K x1 e2 / D * x2) * uV * D)
        with (((D - (eta - e1) * K x1 e2) * x1 + (eta - e1) * K x1 e2 * x2) * uV) by (field; exact N).
      rewrite E. unfold Den, K, pV, uV. ring.
  Qed.

  (** The point at [tau] of the device line is the point at [xr] of the chord. *)
  Lemma crossing : along (surface q e1 x1) (surface q e2 x2) tau = surface q eta xr.
  Proof.
    pose proof Den_pos as D. destruct (key Den eq_refl ltac:(lra)) as [KU KV]. fold tau sig xr in KU, KV.
    assert (L : vsub (along (surface q e1 x1) (surface q e2 x2) tau) (surface q eta 0) =
                comb U V ((1 - tau) * pU e1 x1 + tau * pU e2 x2) ((1 - tau) * pV e1 x1 + tau * pV e2 x2)).
    { replace (vsub (along (surface q e1 x1) (surface q e2 x2) tau) (surface q eta 0)) with
        (vadd (vscale (1 - tau) (vsub (surface q e1 x1) (surface q eta 0)))
              (vscale tau (vsub (surface q e2 x2) (surface q eta 0)))) by (unfold along; apply vec_eq; vsimp; ring).
      rewrite !point_comb. unfold comb. apply vec_eq; vsimp; ring. }
    assert (M : vsub (surface q eta xr) (surface q eta 0) = comb U V (xr * uU) (xr * uV)).
    { rewrite point_comb. unfold pU, pV, uU, uV. f_equal; ring. }
    rewrite KU, KV, <- M in L.
    assert (I : forall p, p = vadd (vsub p (surface q eta 0)) (surface q eta 0)) by (intro p; apply vec_eq; vsimp; ring).
    rewrite (I (along _ _ _)), L, <- I. reflexivity.
  Qed.

  Lemma result : xsi_interpol q (e1, x1) (e2, x2) eta = Some xr.
  Proof.
    pose proof Den_pos as D. unfold xsi_interpol. cbn [fst snd]. rewrite !seg_point_surface.
    replace (vcross (vsub (qb q) (qa q)) (vsub (qd q) (qa q))) with (vcross U V)
      by (unfold q; cbn [qa qb qd]; f_equal; apply vec_eq; vsimp; ring).
    unfold plane_line_intersect. rewrite chord_comb.
    set (dir := vsub (surface q e1 x1) (surface q e2 x2)).
    assert (ED : dir = comb U V (pU e1 x1 - pU e2 x2) (pV e1 x1 - pV e2 x2)).
    { unfold dir.
      replace (vsub (surface q e1 x1) (surface q e2 x2)) with
        (vsub (vsub (surface q e1 x1) (surface q eta 0)) (vsub (surface q e2 x2) (surface q eta 0)))
        by (apply vec_eq; vsimp; ring).
      rewrite !point_comb. unfold comb. apply vec_eq; vsimp; ring. }
    assert (EB : vdot (vcross (vcross U V) (comb U V uU uV)) dir = Den * nn).
    { rewrite triple, ED, bracket. fold nn. unfold Den, K, uU, uV, pU, pV. ring. }
    assert (ET : vdot (vcross (vcross U V) (comb U V uU uV)) (vsub (surface q eta 0) (surface q e1 x1)) =
                 - ((eta - e1) * K x1 eta) * nn).
    { replace (vsub (surface q eta 0) (surface q e1 x1)) with (comb U V (- pU e1 x1) (- pV e1 x1)).
      2:{ replace (vsub (surface q eta 0) (surface q e1 x1)) with (vscale (-1) (vsub (surface q e1 x1) (surface q eta 0)))
            by (apply vec_eq; vsimp; ring). rewrite point_comb. unfold comb. apply vec_eq; vsimp; ring. }
      rewrite triple, bracket. fold nn. unfold K, uU, uV, pU, pV. ring. }
    rewrite EB, ET. destruct (Req_EM_T (Den * nn) 0) as [Z|Z]; [exfalso; nra|].
    replace (- ((eta - e1) * K x1 eta) * nn / (Den * nn)) with (- tau) by (unfold tau; field; split; lra).
    replace (vadd (surface q e1 x1) (vscale (- tau) dir)) with (along (surface q e1 x1) (surface q e2 x2) tau)
      by (unfold dir, along; apply vec_eq; vsimp; ring).
    rewrite crossing.
    replace (vsub (surface q eta xr) (surface q eta 0)) with (vscale xr (comb U V uU uV)).
    2:{ rewrite point_comb. unfold comb, pU, pV, uU, uV. apply vec_eq; vsimp; ring. }
    rewrite vnorm_scale, Rabs_right by (apply Rle_ge, xr_unit).
    assert (P : 0 < vnorm (comb U V uU uV)).
    { apply vnorm_pos. intro C. apply comb_zero in C; [|exact NN]. destruct C as [_ C].
      pose proof (K_pos 0 eta ltac:(unfold unit_interval; lra) ltac:(lra)). unfold K, uV in *. lra. }
    f_equal. field. lra.
  Qed.

  (** No other chord fraction of the station lies on the (infinite) device line. *)
  Lemma crossing_unique x t : surface q eta x = along (surface q e1 x1) (surface q e2 x2) t -> x = xr.
  Proof.
    intro E. pose proof Den_pos as D.
    assert (L : vsub (surface q eta x) (surface q eta 0) =
                comb U V ((1 - t) * pU e1 x1 + t * pU e2 x2) ((1 - t) * pV e1 x1 + t * pV e2 x2)).
    { rewrite E.
      replace (vsub (along (surface q e1 x1) (surface q e2 x2) t) (surface q eta 0)) with
        (vadd (vscale (1 - t) (vsub (surface q e1 x1) (surface q eta 0)))
              (vscale t (vsub (surface q e2 x2) (surface q eta 0)))) by (unfold along; apply vec_eq; vsimp; ring).
      rewrite !point_comb. unfold comb. apply vec_eq; vsimp; ring. }
    rewrite point_comb in L.
    assert (Z : comb U V (pU eta x - ((1 - t) * pU e1 x1 + t * pU e2 x2)) (pV eta x - ((1 - t) * pV e1 x1 + t * pV e2 x2)) = vzero).
    { replace (comb U V _ _) with (vsub (comb U V (pU eta x) (pV eta x))
        (comb U V ((1 - t) * pU e1 x1 + t * pU e2 x2) ((1 - t) * pV e1 x1 + t * pV e2 x2)))
        by (unfold comb; apply vec_eq; vsimp; ring).
      rewrite L. apply vec_eq; vsimp; ring. }
    apply comb_zero in Z; [|exact NN]. destruct Z as [ZU ZV].
    (* the bracket with the chord gives t = tau *)
    assert (T : t * Den = (eta - e1) * K x1 eta).
    { assert (W : (1 - t) * (pU e1 x1 * uV - pV e1 x1 * uU) + t * (pU e2 x2 * uV - pV e2 x2 * uU) = 0).
      { transitivity ((pU eta x) * uV - pV eta x * uU).
        - replace (pU eta x) with ((1 - t) * pU e1 x1 + t * pU e2 x2) by lra.
          replace (pV eta x) with ((1 - t) * pV e1 x1 + t * pV e2 x2) by lra. ring.
        - unfold pU, pV, uU, uV. ring. }
      replace (pU e1 x1 * uV - pV e1 x1 * uU) with (- ((eta - e1) * K x1 eta)) in W by (unfold pU, pV, uU, uV, K; ring).
      replace (pU e2 x2 * uV - pV e2 x2 * uU) with ((e2 - eta) * K x2 eta) in W by (unfold pU, pV, uU, uV, K; ring).
      unfold Den. nra. }
    assert (T' : t = tau) by (unfold tau; rewrite <- T; field; lra).
    rewrite T' in ZV. destruct (key Den eq_refl ltac:(lra)) as [_ KV]. fold tau sig xr in KV.
    assert (P : 0 < uV) by (pose proof (K_pos 0 eta ltac:(unfold unit_interval; lra) ltac:(lra)); unfold K, uV in *; lra).
    assert (F : x * uV = xr * uV) by (rewrite <- KV; unfold pV in ZV at 1; fold uV in ZV; lra).
    apply (Rmult_eq_reg_r uV); lra.
  Qed.
End Segment.

Lemma convex_basis q : planar q -> convex q ->
  exists al be, q = mkQuad (qa q) (vadd (qa q) (vsub (qb q) (qa q)))
    (vadd (qa q) (comb (vsub (qb q) (qa q)) (vsub (qd q) (qa q)) al be)) (vadd (qa q) (vsub (qd q) (qa q))) /\
    0 < vdot (vcross (vsub (qb q) (qa q)) (vsub (qd q) (qa q))) (vcross (vsub (qb q) (qa q)) (vsub (qd q) (qa q))).
Proof.
  intros P C. destruct C as (C1 & _). unfold turns, seg_normal in C1. unfold planar, seg_normal in P.
  destruct (planar_comb _ _ _ C1 P) as (al & be & E). exists al, be. split; [|exact C1].
  rewrite <- E. destruct q as [a b c d]. cbn [qa qb qc qd]. f_equal; apply vec_eq; vsimp; ring.
Qed.

Lemma xsi_interpol_spec q e1 x1 e2 x2 eta :
  planar q -> convex q -> 0 <= e1 -> e1 < e2 -> e2 <= 1 -> e1 <= eta <= e2 ->
  unit_interval x1 -> unit_interval x2 ->
  exists x, xsi_interpol q (e1, x1) (e2, x2) eta = Some x /\
    meets_at q (e1, x1) (e2, x2) eta x /\
    (forall y, meets_at q (e1, x1) (e2, x2) eta y -> y = x) /\
    Rmin x1 x2 <= x <= Rmax x1 x2 /\
    (eta = e1 -> x = x1) /\ (eta = e2 -> x = x2).
Proof.
  intros P C H1 H12 H2 He X1 X2. destruct (convex_basis q P C) as (al & be & E & NN).
  pose proof C as C'. rewrite E in C'. destruct (convex_scalars _ _ _ _ _ NN C') as (Ha & Hb & Hab).
  rewrite E. exists (xr al be e1 x1 e2 x2 eta).
  split; [apply result; assumption|]. split; [|split].
  - exists (tau al be e1 x1 e2 x2 eta). split; [apply tau_unit; assumption|].
    symmetry. apply crossing; assumption.
  - intros y (t & _ & Y). cbn [fst snd] in Y.
    apply (crossing_unique (qa q) (vsub (qb q) (qa q)) (vsub (qd q) (qa q)) al be NN Ha Hb Hab) with (t := t); assumption.
  - split; [apply xr_between; assumption|]. apply xr_ends; assumption.
Qed.

(** ** Segments with parallel chords: agreement with the interpolation used for C04 *)

Lemma Q2R_nonzero (x : Q) : ~ (x == 0)%Q -> Q2R x <> 0.
Proof. intros H E. apply H. apply eqR_Qeq. rewrite E. unfold Q2R. simpl. field. Qed.

Lemma xsi_interpol_trapezoid q (c1 c2 e1 x1 e2 x2 eta : Q) :
  planar q -> convex q -> (0 < c1)%Q -> (0 < c2)%Q ->
  vscale (Q2R c1) (vsub (qc q) (qb q)) = vscale (Q2R c2) (vsub (qd q) (qa q)) ->
  (0 <= e1)%Q -> (e1 < e2)%Q -> (e2 <= 1)%Q -> (e1 <= eta)%Q -> (eta <= e2)%Q ->
  (0 <= x1 <= 1)%Q -> (0 <= x2 <= 1)%Q ->
  exists x, trap_interp c1 c2 (e1, x1) (e2, x2) eta = Ok x /\
    xsi_interpol q (Q2R e1, Q2R x1) (Q2R e2, Q2R x2) (Q2R eta) = Some (Q2R x).
Proof.
  intros P C C1 C2 PAR H1 H12 H2 Ha Hb X1 X2.
  assert (Z0 : Q2R 0 = 0) by (unfold Q2R; simpl; field). assert (Z1 : Q2R 1 = 1) by (unfold Q2R; simpl; field).
  apply Qlt_Rlt in C1, C2, H12. apply Qle_Rle in H1, H2, Ha, Hb.
  destruct X1 as [X1a X1b], X2 as [X2a X2b]. apply Qle_Rle in X1a, X1b, X2a, X2b. rewrite ?Z0, ?Z1 in *.
  destruct (convex_basis q P C) as (al & be & E & NN).
  pose proof C as C'. rewrite E in C'. destruct (convex_scalars _ _ _ _ _ NN C') as (Pa & Pb & Pab).
  set (U := vsub (qb q) (qa q)) in *. set (V := vsub (qd q) (qa q)) in *.
  assert (Z : comb U V (Q2R c1 * (al - 1)) (Q2R c1 * be - Q2R c2) = vzero).
  { replace (comb U V _ _) with (vsub (vscale (Q2R c1) (comb U V (al - 1) be)) (vscale (Q2R c2) V))
      by (unfold comb; apply vec_eq; vsimp; ring).
    replace (comb U V (al - 1) be) with (vsub (qc q) (qb q)).
    - rewrite PAR. fold V. apply vec_eq; vsimp; ring.
    - rewrite E. cbn [qc qb qa]. unfold comb. apply vec_eq; vsimp; ring. }
  apply comb_zero in Z; [|exact NN]. destruct Z as [ZA ZB].
  assert (al = 1) by nra. subst al.
  assert (F12 : ~ (e2 - e1 == 0)%Q).
  { intro F. apply Qeq_eqR in F. rewrite Q2R_minus, Z0 in F. lra. }
  assert (TW : forall c1 c2 e : R, (1 - e) * c1 + e * c2 = c1 + e * (c2 - c1)) by (intros; ring).
  set (w1 := ((1 - (eta - e1) / (e2 - e1)) * ((1 - e1) * c1 + e1 * c2))%Q).
  set (w2 := ((eta - e1) / (e2 - e1) * ((1 - e2) * c1 + e2 * c2))%Q).
  assert (EW1 : Q2R w1 = (Q2R e2 - Q2R eta) / (Q2R e2 - Q2R e1) * (Q2R c1 * K 1 be (Q2R x2) (Q2R e1))).
  { unfold w1, K. rewrite !Q2R_mult, Q2R_plus, !Q2R_mult, !Q2R_minus, Q2R_div, !Q2R_minus, Z1 by exact F12.
    rewrite TW. replace (Q2R c2) with (Q2R c1 * be) by lra. field. lra. }
  assert (EW2 : Q2R w2 = (Q2R eta - Q2R e1) / (Q2R e2 - Q2R e1) * (Q2R c1 * K 1 be (Q2R x1) (Q2R e2))).
  { unfold w2, K. rewrite !Q2R_mult, Q2R_plus, !Q2R_mult, !Q2R_minus, Q2R_div, !Q2R_minus, Z1 by exact F12.
    rewrite TW. replace (Q2R c2) with (Q2R c1 * be) by lra. field. lra. }
  set (D := Den 1 be (Q2R e1) (Q2R x1) (Q2R e2) (Q2R x2) (Q2R eta)).
  assert (PD : 0 < D) by (apply Den_pos; unfold unit_interval; lra).
  assert (EW : Q2R (w1 + w2) = Q2R c1 * D / (Q2R e2 - Q2R e1)).
  { rewrite Q2R_plus, EW1, EW2. unfold D, Den, K. field. lra. }
  assert (NW : ~ (w1 + w2 == 0)%Q).
  { intro F. apply Qeq_eqR in F. rewrite EW, Z0 in F.
    assert (0 < Q2R c1 * D / (Q2R e2 - Q2R e1)) by (apply Rdiv_lt_0_compat; nra). lra. }
  exists ((w1 * x1 + w2 * x2) / (w1 + w2))%Q. split.
  - unfold trap_interp. fold w1 w2.
    destruct (Qeqb e1 e2) eqn:Q1.
    { exfalso. apply Qeq_bool_eq in Q1. apply F12. rewrite Q1. ring. }
    destruct (Qeqb (w1 + w2) 0) eqn:Q2; [exfalso; apply Qeq_bool_eq in Q2; contradiction|]. reflexivity.
  - rewrite E. rewrite result by (try assumption; unfold unit_interval; lra). f_equal.
    rewrite Q2R_div, EW, Q2R_plus, !Q2R_mult, EW1, EW2 by exact NW.
    unfold xr. rewrite sig_compl by (try assumption; unfold unit_interval; lra). unfold sig. fold D. field. lra.
Qed.
