(** Proofs about the place of the panels on the wings (C122). *)
From Coq Require Import Reals List ZArith String QArith Qreals Lra Lia Permutation.
From Verif Require Import PyBase PyFacts Vec StripModel StripSpec StripSpan StripChord StripRun StripControl AircraftModel LatticeModel LatticeSpec EnumProofs LatticeProofs
  PanelModel GeomModel GeomSpec GeomProofs MirrorProofs NormalModel NormalSpec NormalProofs PlaceSpec.
Import ListNotations.
Open Scope R_scope.

(** ** Corners *)

Definition visit_etas (d : strip) : etas := mkEtas (Q2R (eta_a d)) (Q2R (eta_b d)) (Q2R (eta_c d)) (Q2R (eta_d d)).
Definition visit_xsis (v : subarea) : xsis := mkXsis (Q2R (xsi_a v)) (Q2R (xsi_b v)) (Q2R (xsi_c v)) (Q2R (xsi_d v)).

Lemma strip_edges seg d x :
  along (qa (strip_quad seg (visit_etas d))) (qd (strip_quad seg (visit_etas d))) x = inner_at seg d x /\
  along (qb (strip_quad seg (visit_etas d))) (qc (strip_quad seg (visit_etas d))) x = outer_at seg d x.
Proof. unfold inner_at, outer_at, surface, strip_quad, visit_etas. cbn. split; vring. Qed.

Lemma along_part a b u v t : along (along a b u) (along a b v) t = along a b (part u v t).
Proof. unfold part. vring. Qed.

Lemma surface_sides q c : surface q 0 c = along (qa q) (qd q) c /\ surface q 1 c = along (qb q) (qc q) c.
Proof. split; vring. Qed.

Lemma refl_inner p q x : along (refl p (qd q)) (refl p (qa q)) x = refl p (along (qa q) (qd q) (1 - x)).
Proof. rewrite refl_along. vring. Qed.
Lemma refl_outer p q x : along (refl p (qc q)) (refl p (qb q)) x = refl p (along (qb q) (qc q) (1 - x)).
Proof. rewrite refl_along. vring. Qed.

Lemma sub_edges s w seg d v : has_side w s -> exists q,
  subarea_vertices seg (visit_etas d) (visit_xsis v) (is_mirror s) (w_symmetry w) = Ok q /\
  forall t, surface q 0 t = fst (edges s seg d v t) /\ surface q 1 t = snd (edges s seg d v t).
Proof.
  intro S. set (sd := strip_quad seg (visit_etas d)).
  assert (IO : forall x, along (qa sd) (qd sd) x = inner_at seg d x /\ along (qb sd) (qc sd) x = outer_at seg d x)
    by (intro; apply strip_edges).
  destruct s as [|p]; cbn [is_mirror].
  - rewrite sub_plain. eexists. split; [reflexivity|]. intro t. fold sd.
    destruct (surface_sides (sub_quad sd (visit_xsis v)) t) as (E0 & E1). rewrite E0, E1.
    unfold sub_quad, visit_xsis. cbn [qa qb qc qd r_xsi_a r_xsi_b r_xsi_c r_xsi_d edges fst snd].
    rewrite !along_part. split; [apply IO|apply (proj2 (IO _))].
  - cbn [has_side] in S. rewrite S, sub_mirror. fold sd. eexists. split; [reflexivity|]. intro t.
    match goal with |- surface ?q _ _ = _ /\ _ => destruct (surface_sides q t) as (E0 & E1) end.
    rewrite E0, E1. clear E0 E1.
    destruct p; unfold quad_order, quad_refl, order4, quad_of, xsis_order, sub_quad, visit_xsis, order4;
      cbn [qa qb qc qd r_xsi_a r_xsi_b r_xsi_c r_xsi_d edges fst snd]; rewrite !along_part.
    + rewrite <- !refl_along. split; [rewrite (proj1 (IO _))|rewrite (proj2 (IO _))]; reflexivity.
    + rewrite <- !refl_along. split; [rewrite (proj2 (IO _))|rewrite (proj1 (IO _))]; reflexivity.
    + rewrite refl_inner, refl_outer. split; [rewrite (proj1 (IO _))|rewrite (proj2 (IO _))]; reflexivity.
Qed.

Lemma hinge_edges s w seg d h1 h2 : has_side w s ->
  hinge_vertices seg (visit_etas d) h1 h2 (is_mirror s) (w_symmetry w) = Ok (hinge_points s seg d h1 h2).
Proof.
  intro S. set (sd := strip_quad seg (visit_etas d)).
  assert (IO : forall x, along (qa sd) (qd sd) x = inner_at seg d x /\ along (qb sd) (qc sd) x = outer_at seg d x)
    by (intro; apply strip_edges).
  destruct s as [|p]; cbn [is_mirror].
  - rewrite hinge_plain. fold sd. rewrite (proj1 (IO _)), (proj2 (IO _)). reflexivity.
  - cbn [has_side] in S. rewrite S, hinge_mirror. fold sd.
    destruct p; unfold quad_refl; cbn [qa qb qc qd hinge_points]; f_equal.
    + rewrite <- !refl_along, (proj1 (IO _)), (proj2 (IO _)). reflexivity.
    + rewrite <- !refl_along, (proj1 (IO _)), (proj2 (IO _)). reflexivity.
    + rewrite refl_inner, refl_outer, (proj1 (IO _)), (proj2 (IO _)). reflexivity.
Qed.

Lemma panel_placed dir s seg d v n k q : (1 <= n)%Z ->
  (forall t, surface q 0 t = fst (edges s seg d v t) /\ surface q 1 t = snd (edges s seg d v t)) ->
  placed s seg d v n k (make_panel dir q 1 n k 0).
Proof.
  intros N E. unfold placed. destruct (panel_corners dir q 1 n ltac:(lia) N k 0) as (A1 & A2 & A3 & A4).
  rewrite A1, A2, A3, A4, <- !(proj1 (E _)), <- !(proj2 (E _)), !plus_IZR.
  replace (0 / 1) with 0 by field. replace ((0 + 1) / 1) with 1 by field. auto.
Qed.

(** ** Records *)

Lemma recorded_side vs es v (b : bool) : recorded vs es -> In v vs -> (b = true -> has_symmetry v) ->
  exists e, In e es /\ e_visit e = v /\ e_mirror e = b.
Proof.
  induction 1 as [|v' vs x es NS Ev Em R IH|v' vs x x' es S Ev Em Ev' Em' En R IH]; intros I B.
  - destruct I.
  - destruct I as [<-|I].
    + exists x. split; [left; auto|]. split; [auto|]. destruct b; [exfalso; auto|auto].
    + destruct (IH I B) as (e & A1 & A2 & A3). exists e. split; [right; auto|auto].
  - destruct I as [<-|I].
    + destruct b; [exists x'|exists x]; (split; [simpl; auto|auto]).
    + destruct (IH I B) as (e & A1 & A2 & A3). exists e. split; [right; right; auto|auto].
Qed.

Lemma visits_parts vi w g d v : visits vi w g d v <-> v_wing vi = w /\ v_seg vi = g /\ v_strip vi = d /\ v_sub vi = v.
Proof. destruct vi as [[[x y] z] u]. reflexivity. Qed.

Lemma piece_visit a w g d v : piece_of a w g d v -> exists vi, In vi (all_subareas a) /\ visits vi w g d v.
Proof.
  intros (wn & gn & ty & Iw & Ig & Id & Iv).
  apply In_nth_error in Iw, Ig, Id, Iv. destruct Iw as (nw & Iw), Ig as (ng & Ig), Id as (nd & Id), Iv as (na & Iv).
  exists ((na, ty, v), (nd, nd, d), (ng, gn, g), (nw, wn, w)). split; [apply all_subareas_In; auto|].
  repeat split.
Qed.

Lemma visit_piece a vi : In vi (all_subareas a) -> exists w g d v, piece_of a w g d v /\ visits vi w g d v.
Proof.
  destruct vi as [[[[[na ka] v] [[nd kd] d]] [[ns ks] s]] [[nw kw] w]]. intro I.
  apply all_subareas_In in I. destruct I as (Iw & Is & Id & -> & Ia). apply nth_error_In in Iw, Is, Id, Ia.
  exists w, s, d, v. split; [exists kw, ks, ka; auto|]. repeat split.
Qed.

Lemma right_count_for vi w g d v n : visits vi w g d v -> right_count vi n -> count_for w g v n.
Proof.
  rewrite visits_parts. intros (<- & <- & _ & <-). unfold right_count, count_for. destruct (sa_ctrl (v_sub vi)); [auto|].
  intros (m & M & L & U). exists m. split; [exact M|]. cbv zeta.
  match type of L with (_ < ?x)%Q => set (sh := x) in * end.
  assert (E : ((xsi_d (v_sub vi) - xsi_a (v_sub vi) + (xsi_c (v_sub vi) - xsi_b (v_sub vi))) / 2 * inject_Z m == sh)%Q)
    by (unfold sh; field).
  rewrite E. auto.
Qed.

Section Place.
  Variable geo : string -> string -> PanelModel.quad.
  Variable camber : subarea_visit -> R -> R.

  Lemma colloc_same v n k : (1 <= n)%Z -> collocation_xsi (visit_xsis v) n k = colloc_chord v n k.
  Proof.
    intro N. apply IZR_pos in N. unfold collocation_xsi, colloc_chord, part, visit_xsis. cbn [r_xsi_a r_xsi_b r_xsi_c r_xsi_d].
    replace (IZR k + 0.75) with (IZR k + 3 / 4) by lra. field. lra.
  Qed.

  Lemma entry_good a w g d v s e k dir q p y z : In (e_visit e) (all_subareas a) -> visits (e_visit e) w g d v -> has_side w s ->
    e_mirror e = is_mirror s -> (1 <= e_num_c e)%Z ->
    entry_vertices geo e = Ok q -> p = make_panel dir q 1 (e_num_c e) k 0 ->
    deflected geo e (pN p) y -> cambered geo camber e k y z ->
    right_panel geo camber a w g d v s (e_num_c e) k p z.
  Proof.
    intros Ia V0 S M N1 EV Ep D Cm. pose proof (proj1 (visits_parts _ _ _ _ _) V0) as V. unfold right_panel. cbv zeta. set (seg := geo (w_uid w) (ws_uid g)).
    assert (EE : v_etas (e_visit e) = visit_etas d) by (destruct V as (_ & _ & <- & _); reflexivity).
    assert (EX : v_xsis (e_visit e) = visit_xsis v) by (destruct V as (_ & _ & _ & <-); reflexivity).
    assert (EQ : v_quad geo (e_visit e) = seg) by (destruct V as (<- & <- & _); reflexivity).
    assert (EW : v_wing (e_visit e) = w) by (destruct V as (<- & _); reflexivity).
    assert (ES : v_sub (e_visit e) = v) by (destruct V as (_ & _ & _ & <-); reflexivity).
    destruct (sub_edges s w seg d v S) as (q' & V' & E). unfold entry_vertices in EV.
    cbv zeta in EV. rewrite EQ, EE, EX, EW, M, V' in EV. injection EV as ->.
    split; [subst p; apply panel_placed; assumption|].
    exists (e_visit e), y. split; [exact Ia|]. split; [exact V0|]. split.
    - unfold after_deflection. destruct D as (dg & Ap & D). unfold applies in Ap. rewrite ES, EW in Ap.
      destruct (sa_ctrl v) as [c|] eqn:Ec; [|subst dg; exact D].
      destruct Ap as (wc & W & ->). exists wc. split; [exact W|].
      assert (Ed : (if e_mirror e then wc_deflection_mirror wc else wc_deflection wc) = deflection_on s wc)
        by (rewrite M; destruct s; reflexivity).
      rewrite Ed in D. destruct (deflection_on s wc) as [dg|]; [|exact D].
      destruct D as (h1 & h2 & inn & out & Eh & Hv & D1 & D2). rewrite ES in Eh. exists h1, h2. split; [exact Eh|].
      rewrite EQ, EE, EW, M, (hinge_edges s w) in Hv by exact S. injection Hv as Hv. rewrite Hv. auto.
    - unfold after_camber. destruct Cm as (C0 & sub & V2 & C1). unfold entry_vertices in V2. cbv zeta in V2.
      rewrite EQ, EE, EX, EW, M, V' in V2. injection V2 as <-.
      rewrite EX, colloc_same in C0, C1 by assumption.
      destruct (surface_corners q) as (Q1 & Q2 & Q3 & Q4).
      rewrite (proj1 (E 0)) in Q1. rewrite (proj2 (E 0)) in Q2. rewrite (proj1 (E 1)) in Q4.
      destruct (edges s seg d v 0) as [A B]. cbn [fst snd] in *. rewrite Q1, Q2, Q4. auto.
  Qed.

  Lemma lattice_placed alpha beta a : panelled a -> counts_set a -> flags_ok a ->
    exists pans n, gen_lattice geo camber true alpha beta a = Ok (pans, n) /\ List.length n = List.length pans /\
      (forall w g d v s, piece_of a w g d v -> has_side w s ->
       exists first num, (0 <= first)%Z /\ (1 <= num)%Z /\ count_for w g v num /\
       forall k, (0 <= k < num)%Z -> exists p z, nth_error pans (Z.to_nat (first + k)) = Some p /\
         nth_error n (Z.to_nat (first + k)) = Some z /\ right_panel geo camber a w g d v s num k p z) /\
      (forall i p z, nth_error pans i = Some p -> nth_error n i = Some z ->
       exists w g d v s num k, piece_of a w g d v /\ has_side w s /\ count_for w g v num /\ (0 <= k < num)%Z /\
         right_panel geo camber a w g d v s num k p z).
  Proof.
    intros P C FL. destruct (final_normals_short geo camber alpha beta a P C FL) as (st & pans & n & E & G & L1 & L2 & H).
    exists pans, n. split; [exact G|]. split; [lia|].
    destruct (panel_count_inv a P C) as (st' & E' & I1 & I2 & I3 & I4 & I5 & I6 & I7).
    rewrite E in E'. injection E' as <-.
    assert (LO : forall e, In e (bk_list (c_book st)) -> (0 <= e_lo e)%Z).
    { intros e Ie. revert I1 Ie. generalize (bk_list (c_book st)). intro l.
      assert (HH : forall l lo, consecutive lo l (c_p st) -> In e l -> (lo <= e_lo e)%Z).
      { clear. induction l as [|x l IH]; intros lo K I; [destruct I|]. destruct K as (K1 & K2 & K3).
        destruct I as [<-|I]; [lia|]. pose proof (IH _ K3 I). lia. }
      apply HH. }
    split.
    - intros w g d v s Pc S. destruct (piece_visit a w g d v Pc) as (vi & Ivi & Vi).
      destruct (recorded_side _ _ vi (is_mirror s) I2 Ivi) as (e & Ie & Ee & Em).
      { intro B. unfold has_symmetry. apply visits_parts in Vi. destruct Vi as (-> & _). destruct s as [|pl]; [discriminate|].
        cbn [has_side] in S. rewrite S. destruct pl; discriminate. }
      destruct (I5 e Ie) as (Hh & N1 & RC & _). exists (e_lo e), (e_num_c e). split; [apply LO; exact Ie|]. split; [exact N1|].
      rewrite Ee in RC. split; [exact (right_count_for _ _ _ d _ _ Vi RC)|]. intros k K.
      destruct (H e (e_lo e + k)%Z Ie ltac:(lia)) as (q & p & y & z & EV & Ep & Np & D & Cm & Nz).
      exists p, z. split; [exact Np|]. split; [exact Nz|].
      replace (e_lo e + k - e_lo e)%Z with k in * by lia.
      subst vi. eapply entry_good; eassumption.
    - intros i p z Np Nz.
      assert (Li : (i < List.length pans)%nat) by (apply nth_error_Some; congruence).
      destruct (consecutive_unique _ 0 (c_p st) (Z.of_nat i) I1 ltac:(lia)) as (j & e & K & Rg & _). apply nth_error_In in K.
      destruct (H e (Z.of_nat i) K Rg) as (q & p' & y & z' & EV & Ep & Np' & D & Cm & Nz').
      rewrite Nat2Z.id in *. rewrite Np in Np'. injection Np' as <-. rewrite Nz in Nz'. injection Nz' as <-.
      destruct (recorded_In _ _ _ I2 K) as (Ivi & Sy). destruct (visit_piece a _ Ivi) as (w & g & d & v & Pc & Vi).
      destruct (I5 e K) as (Hh & N1 & RC & _).
      assert (S : exists s, has_side w s /\ e_mirror e = is_mirror s).
      { destruct (e_mirror e); [|exists Given; split; [exact I|reflexivity]].
        specialize (Sy eq_refl). unfold has_symmetry in Sy. apply visits_parts in Vi. destruct Vi as (Vw & _). rewrite Vw in Sy.
        destruct Pc as (wn & gn & ty & Iw & _).
        destruct (FL _ _ Iw) as [X|[X|[X|X]]]; [contradiction|exists (Mirrored XY)|exists (Mirrored XZ)|exists (Mirrored YZ)];
          (split; [exact X|reflexivity]). }
      destruct S as (s & S & M).
      exists w, g, d, v, s, (e_num_c e), (Z.of_nat i - e_lo e)%Z. split; [exact Pc|]. split; [exact S|].
      split; [exact (right_count_for _ _ _ d _ _ Vi RC)|]. split; [lia|]. eapply entry_good; eassumption.
  Qed.
End Place.

(** ** No gaps along the edges of a strip *)

Lemma Q2R_0 : Q2R 0 = 0.
Proof. unfold Q2R. simpl. lra. Qed.
Lemma Q2R_1 : Q2R 1 = 1.
Proof. unfold Q2R. simpl. lra. Qed.

Lemma tiles_hit lo hi x : forall l start, tiles_from lo hi start l -> Q2R start <= x <= 1 -> l <> [] ->
  exists v, In v l /\ Q2R (lo v) <= x <= Q2R (hi v) /\ Q2R (lo v) < Q2R (hi v).
Proof.
  induction l as [|v l IH]; intros start T X N; [congruence|]. cbn [tiles_from] in T. destruct T as (T1 & T2 & T3).
  apply Qeq_eqR in T1. apply Qlt_Rlt in T2.
  destruct (Rle_dec x (Q2R (hi v))) as [L|L].
  - exists v. split; [left; reflexivity|]. split; [split; [rewrite T1; apply X|exact L]|exact T2].
  - destruct l as [|v' l].
    + cbn [tiles_from] in T3. apply Qeq_eqR in T3. rewrite Q2R_1 in T3. rewrite T3 in L. exfalso. apply L. apply X.
    + destruct (IH (hi v) T3) as (u & U1 & U2); [lra|discriminate|]. exists u. split; [right; exact U1|exact U2].
Qed.

(** The panel whose fractions contain [t]. *)
Lemma fraction_panel n t : (1 <= n)%Z -> 0 <= t <= 1 ->
  exists k u, (0 <= k < n)%Z /\ 0 <= u <= 1 /\ t = part (IZR k / IZR n) ((IZR k + 1) / IZR n) u.
Proof.
  intros N T. pose proof (IZR_pos n N) as PN.
  destruct (Rlt_le_dec t 1) as [L|L].
  - destruct (archimed (t * IZR n)) as (A1 & A2). set (k := (Rdefinitions.up (t * IZR n) - 1)%Z).
    assert (K : IZR k = IZR (Rdefinitions.up (t * IZR n)) - 1) by (unfold k; rewrite minus_IZR; reflexivity).
    exists k, (t * IZR n - IZR k). split; [|split].
    + assert (0 <= t * IZR n) by (apply Rmult_le_pos; lra).
      assert (t * IZR n < IZR n) by nra.
      split.
      * apply Z.lt_succ_r. apply lt_IZR. rewrite succ_IZR. lra.
      * apply lt_IZR. lra.
    + lra.
    + unfold part. field. lra.
  - exists (n - 1)%Z, 1. split; [lia|]. split; [lra|]. unfold part. rewrite minus_IZR. assert (t = 1) as -> by lra. field. lra.
Qed.

Lemma part_part a b u v t : part a b (part u v t) = part (part a b u) (part a b v) t.
Proof. unfold part. ring. Qed.

Lemma part_solve a b x : a <= x <= b -> a < b -> exists t, 0 <= t <= 1 /\ x = part a b t.
Proof.
  intros X L. exists ((x - a) / (b - a)). assert (0 < / (b - a)) by (apply Rinv_0_lt_compat; lra).
  split; [|unfold part; field; lra]. unfold Rdiv. split; [apply Rmult_le_pos; lra|].
  apply Rmult_le_reg_r with (b - a); [lra|]. rewrite Rmult_assoc, Rinv_l by lra. lra.
Qed.

Lemma along_sym a b t : along a b t = along b a (1 - t).
Proof. apply along_rev. Qed.

Lemma on_segment_sym a b x : on_segment a b x -> on_segment b a x.
Proof. intros (t & T & ->). exists (1 - t). split; [unfold unit_interval in *; lra|apply along_rev]. Qed.

Lemma on_segment_refl p a b x : on_segment a b x -> on_segment (refl p a) (refl p b) (refl p x).
Proof. intros (t & T & ->). exists t. split; [exact T|apply refl_along]. Qed.

Section Covered.
  Variables (seg : PanelModel.quad) (d : strip) (s : side) (pans : list panel).
  Hypothesis TC : tiles_chord d.
  Hypothesis NY : s <> Mirrored YZ.
  Hypothesis HP : forall ty v, In (ty, v) (st_subs d) ->
    exists first num, (1 <= num)%Z /\ forall k, (0 <= k < num)%Z ->
      exists p, nth_error pans (Z.to_nat (first + k)) = Some p /\ placed s seg d v num k p.

  Lemma piece_edge ty v t : In (ty, v) (st_subs d) -> 0 <= t <= 1 ->
    exists i p, nth_error pans i = Some p /\
      on_sides p (on_side s (inner_at seg d (part (Q2R (xsi_a v)) (Q2R (xsi_d v)) t))) /\
      on_sides p (on_side s (outer_at seg d (part (Q2R (xsi_b v)) (Q2R (xsi_c v)) t))).
  Proof.
    intros I T. destruct (HP ty v I) as (f & n & N & H). destruct (fraction_panel n t N T) as (k & u & K & U & ->).
    destruct (H k K) as (p & Np & E1 & E2 & E3 & E4). exists (Z.to_nat (f + k)), p. split; [exact Np|].
    assert (SI : forall e, on_segment (inner_at seg d (part (Q2R (xsi_a v)) (Q2R (xsi_d v)) (IZR k / IZR n)))
                  (inner_at seg d (part (Q2R (xsi_a v)) (Q2R (xsi_d v)) e))
                  (inner_at seg d (part (Q2R (xsi_a v)) (Q2R (xsi_d v)) (part (IZR k / IZR n) e u)))).
    { intro e. exists u. split; [exact U|]. unfold inner_at. rewrite along_part, part_part. reflexivity. }
    assert (SO : forall e, on_segment (outer_at seg d (part (Q2R (xsi_b v)) (Q2R (xsi_c v)) (IZR k / IZR n)))
                  (outer_at seg d (part (Q2R (xsi_b v)) (Q2R (xsi_c v)) e))
                  (outer_at seg d (part (Q2R (xsi_b v)) (Q2R (xsi_c v)) (part (IZR k / IZR n) e u)))).
    { intro e. exists u. split; [exact U|]. unfold outer_at. rewrite along_part, part_part. reflexivity. }
    unfold on_sides. rewrite E1, E2, E3, E4.
    destruct s as [|[| |]]; [| | |congruence]; cbn [edges fst snd on_side]; split; auto using on_segment_refl.
  Qed.

  Lemma strip_sides x : 0 <= x <= 1 ->
    (exists i p, nth_error pans i = Some p /\ on_sides p (on_side s (inner_at seg d x))) /\
    (exists i p, nth_error pans i = Some p /\ on_sides p (on_side s (outer_at seg d x))).
  Proof.
    intro X. destruct TC as (os & of & m & T1 & T2 & _ & _ & _ & T3 & T4).
    assert (NE : opt_list os ++ [m] ++ opt_list of <> []) by (destruct os; discriminate).
    assert (IN : forall v, In v (opt_list os ++ [m] ++ opt_list of) -> exists ty, In (ty, v) (st_subs d)).
    { intros v I. apply (Permutation_in _ (Permutation_sym T2)) in I. apply in_map_iff in I.
      destruct I as ([ty v'] & <- & I). exists ty. exact I. }
    split.
    - destruct (tiles_hit _ _ x _ 0%Q T3) as (v & I & B & L); [rewrite Q2R_0; exact X|exact NE|].
      destruct (part_solve _ _ x B L) as (t & T & ->). destruct (IN v I) as (ty & J).
      destruct (piece_edge ty v t J T) as (i & p & A1 & A2 & _). eauto.
    - destruct (tiles_hit _ _ x _ 0%Q T4) as (v & I & B & L); [rewrite Q2R_0; exact X|exact NE|].
      destruct (part_solve _ _ x B L) as (t & T & ->). destruct (IN v I) as (ty & J).
      destruct (piece_edge ty v t J T) as (i & p & A1 & _ & A2). eauto.
  Qed.

  Lemma tiles_last lo hi : forall l start, tiles_from lo hi start l -> l <> [] -> exists l' v, l = l' ++ [v] /\ (hi v == 1)%Q.
  Proof.
    induction l as [|v l IH]; intros start T N; [congruence|]. cbn [tiles_from] in T. destruct T as (T1 & T2 & T3).
    destruct l as [|v' l]; [exists [], v; auto|].
    destruct (IH _ T3) as (l' & u & -> & U); [discriminate|]. exists (v :: l'), u. auto.
  Qed.

  (** Front and rear edge of the strip. *)
  Lemma strip_front_rear t : 0 <= t <= 1 ->
    (exists i p, nth_error pans i = Some p /\ on_front p (on_side s (along (inner_at seg d 0) (outer_at seg d 0) t))) /\
    (exists i p, nth_error pans i = Some p /\ on_rear p (on_side s (along (inner_at seg d 1) (outer_at seg d 1) t))).
  Proof.
    intro T. destruct TC as (os & of & m & T1 & T2 & _ & _ & _ & T3 & T4).
    assert (NE : opt_list os ++ [m] ++ opt_list of <> []) by (destruct os; discriminate).
    assert (IN : forall v, In v (opt_list os ++ [m] ++ opt_list of) -> exists ty, In (ty, v) (st_subs d)).
    { intros v I. apply (Permutation_in _ (Permutation_sym T2)) in I. apply in_map_iff in I.
      destruct I as ([ty v'] & <- & I). exists ty. exact I. }
    set (l := opt_list os ++ [m] ++ opt_list of) in *. clearbody l.
    assert (SG : forall a b, on_segment a b (along a b t)) by (intros; exists t; split; [exact T|reflexivity]).
    split.
    - destruct l as [|v l]; [congruence|]. destruct (IN v (or_introl eq_refl)) as (ty & J).
      cbn [tiles_from] in T3, T4. destruct T3 as (A & _), T4 as (B & _). apply Qeq_eqR in A, B. rewrite Q2R_0 in A, B.
      destruct (HP ty v J) as (f & n & N & H). destruct (H 0%Z ltac:(lia)) as (p & Np & E1 & E2 & _).
      pose proof (IZR_pos n N). replace (0 / IZR n) with 0 in * by (field; lra).
      eexists _, p. split; [exact Np|]. unfold on_front. rewrite E1, E2.
      assert (PA : part (Q2R (xsi_a v)) (Q2R (xsi_d v)) 0 = 0) by (unfold part; rewrite A; ring).
      assert (PB : part (Q2R (xsi_b v)) (Q2R (xsi_c v)) 0 = 0) by (unfold part; rewrite B; ring).
      destruct s as [|[| |]]; [| | |congruence]; cbn [edges fst snd on_side]; rewrite PA, PB;
        auto using on_segment_refl, on_segment_sym.
    - destruct (tiles_last _ _ _ _ T3 NE) as (l' & v & El & A). destruct (tiles_last _ _ _ _ T4 NE) as (l2 & v2 & El2 & B).
      assert (v2 = v) as -> by (rewrite El in El2; apply app_inj_tail in El2; symmetry; apply El2).
      apply Qeq_eqR in A, B. rewrite Q2R_1 in A, B.
      destruct (IN v ltac:(rewrite El; apply in_or_app; right; left; reflexivity)) as (ty & J).
      destruct (HP ty v J) as (f & n & N & H). destruct (H (n - 1)%Z ltac:(lia)) as (p & Np & _ & _ & E3 & E4).
      pose proof (IZR_pos n N). assert (ON : (IZR (n - 1) + 1) / IZR n = 1) by (rewrite minus_IZR; field; lra). rewrite ON in *.
      eexists _, p. split; [exact Np|]. unfold on_rear. rewrite E3, E4.
      assert (PA : part (Q2R (xsi_a v)) (Q2R (xsi_d v)) 1 = 1) by (unfold part; rewrite A; ring).
      assert (PB : part (Q2R (xsi_b v)) (Q2R (xsi_c v)) 1 = 1) by (unfold part; rewrite B; ring).
      destruct s as [|[| |]]; [| | |congruence]; cbn [edges fst snd on_side]; rewrite PA, PB;
        auto using on_segment_refl, on_segment_sym.
  Qed.
End Covered.

(** The points of a strip between cuts at the same relative position. *)
Lemma aligned_points seg d x : (eta_d d == eta_a d)%Q -> (eta_c d == eta_b d)%Q ->
  inner_at seg d x = surface seg (Q2R (eta_a d)) x /\ outer_at seg d x = surface seg (Q2R (eta_b d)) x.
Proof.
  intros A B. apply Qeq_eqR in A, B. unfold inner_at, outer_at. rewrite A, B. unfold surface. split; vring.
Qed.

Section Wing.
  Variable geo : string -> string -> PanelModel.quad.
  Variable camber : subarea_visit -> R -> R.

  Lemma lattice_covers alpha beta a : panelled a -> counts_set a -> flags_ok a ->
    exists pans n, gen_lattice geo camber true alpha beta a = Ok (pans, n) /\
      forall wn w gn g s, In (wn, w) (a_wings a) -> In (gn, g) (w_segs w) -> has_side w s -> s <> Mirrored YZ ->
      let seg := geo (w_uid w) (ws_uid g) in
      (forall d x, In d (ws_strips g) -> 0 <= x <= 1 ->
        (exists i p, nth_error pans i = Some p /\ on_sides p (on_side s (inner_at seg d x))) /\
        (exists i p, nth_error pans i = Some p /\ on_sides p (on_side s (outer_at seg d x)))) /\
      (forall eta, (0 <= eta)%Q -> (eta < 1)%Q ->
        (exists i p, nth_error pans i = Some p /\ on_front p (on_side s (surface seg (Q2R eta) 0))) /\
        (cuts_aligned (ws_strips g) ->
         exists i p, nth_error pans i = Some p /\ on_rear p (on_side s (surface seg (Q2R eta) 1)))).
  Proof.
    intros P C FL. destruct (lattice_placed geo camber alpha beta a P C FL) as (pans & n & G & _ & H & _).
    exists pans, n. split; [exact G|]. intros wn w gn g s Iw Ig S NY. cbv zeta.
    destruct (P _ _ _ _ Iw Ig) as [(interp & ops & SS & ER) _].
    assert (TC : forall d, In d (ws_strips g) -> tiles_chord d).
    { intros d Id. rewrite ER in Id. destruct (sound_chord interp ops SS d Id) as (os & of & F & L). exact (form_tiles d os of F L). }
    assert (HP : forall d, In d (ws_strips g) -> forall ty v, In (ty, v) (st_subs d) ->
      exists first num, (1 <= num)%Z /\ forall k, (0 <= k < num)%Z ->
      exists p, nth_error pans (Z.to_nat (first + k)) = Some p /\ placed s (geo (w_uid w) (ws_uid g)) d v num k p).
    { intros d Id ty v Iv. destruct (H w g d v s) as (f & m & _ & M & _ & K); [exists wn, gn, ty; auto|exact S|].
      exists f, m. split; [exact M|]. intros k Kk. destruct (K k Kk) as (p & z & A1 & _ & A2 & _). exists p. auto. }
    split.
    - intros d x Id X. apply (strip_sides _ d s pans (TC d Id) NY (HP d Id) x X).
    - intros eta E0 E1. pose proof (run_tiles interp ops) as (TS & TC2). rewrite <- ER in TS, TC2.
      destruct (TC2 eta E0 E1) as (i & d & Nd & Cv & _). apply nth_error_In in Nd.
      destruct Cv as (Ca & Cb). apply Qle_Rle in Ca. apply Qlt_Rlt in Cb.
      destruct (part_solve (Q2R (eta_a d)) (Q2R (eta_b d)) (Q2R eta)) as (t & T & Et); [lra|lra|].
      destruct (strip_front_rear _ d s pans (TC d Nd) NY (HP d Nd) t T) as (F & R).
      split.
      + destruct F as (j & p & Np & F). exists j, p. split; [exact Np|].
        replace (surface (geo (w_uid w) (ws_uid g)) (Q2R eta) 0)
          with (along (inner_at (geo (w_uid w) (ws_uid g)) d 0) (outer_at (geo (w_uid w) (ws_uid g)) d 0) t); [exact F|].
        rewrite Et. unfold inner_at, outer_at, surface, part. vring.
      + intro Al. destruct (Al d Nd) as (Aa & Ab). apply Qeq_eqR in Aa, Ab. destruct R as (j & p & Np & R). exists j, p. split; [exact Np|].
        replace (surface (geo (w_uid w) (ws_uid g)) (Q2R eta) 1)
          with (along (inner_at (geo (w_uid w) (ws_uid g)) d 1) (outer_at (geo (w_uid w) (ws_uid g)) d 1) t); [exact R|].
        rewrite Et. unfold inner_at, outer_at, surface, part. rewrite Aa, Ab. vring.
  Qed.
End Wing.

(** Planes that do not exist (C14). *)
Lemma order_mirrored_err {A} (v : A * A * A * A) x : (forall p, ~ names x p) -> order_mirrored v x = Err ValueError.
Proof.
  destruct v as [[[a b] c] d]. intro H. unfold order_mirrored.
  assert (E : forall p, is_plane x (plane_str p) (plane_num p) = false).
  { intro p. destruct x as [n|t]; cbn [is_plane].
    - apply Z.eqb_neq. intros ->. apply (H p). left. reflexivity.
    - apply String.eqb_neq. intros ->. apply (H p). right. reflexivity. }
  rewrite (E XY : is_plane x "xy" 1 = false), (E XZ : is_plane x "xz" 2 = false), (E YZ : is_plane x "yz" 3 = false). reflexivity.
Qed.
