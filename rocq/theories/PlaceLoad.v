(** The lattice of an aircraft whose controls and lines were placed by the program (C122): cuts are
    aligned, panels lie on the surfaces of the segments. *)
From Coq Require Import Reals List ZArith String QArith Qreals Lra Lia Permutation.
From Verif Require Import PyBase PyFacts Vec StripModel StripSpec StripSpan StripChord StripRun StripControl AircraftModel LatticeModel LatticeSpec
  PanelModel GeomSpec NormalModel NormalSpec WingModel WingSpec PrePanelModel PrePanelSpec PrePanelProofs ChainProofs PlaceSpec PlaceProofs.
Import ListNotations.
Open Scope R_scope.

(** ** Aligned cuts *)

Lemma aligned_subdiv ip seg e ig : cuts_aligned seg -> cuts_aligned (fst (add_subdivision ip seg e e ig)).
Proof. intro A. exact (aligned_step ip seg (OpSubdiv e e ig) (Qeq_refl e) A). Qed.
Lemma aligned_control ip seg e1 e2 c x1 x2 h1 h2 : cuts_aligned seg ->
  cuts_aligned (fst (add_subdivision_for_control ip seg e1 e2 c x1 x2 h1 h2)).
Proof. intro A. exact (aligned_step ip seg (OpControl e1 e2 c x1 x2 h1 h2) Logic.I A). Qed.

Section Aligned.
  Variable interp : string -> string -> Q * Q -> Q * Q -> Q -> res Q.
  Variable dist : string -> string -> Q * Q -> Q * Q -> Q.

  Definition seg_aligned (l : dict wsegment) : Prop := forall k g, In (k, g) l -> cuts_aligned (ws_strips g).

  Lemma on_segment_aligned wuid w u e1 e2 c x1 x2 h1 h2 : seg_aligned (w_segs w) ->
    seg_aligned (w_segs (fst (on_segment interp wuid w u e1 e2 c x1 x2 h1 h2))).
  Proof.
    intro A. unfold on_segment. destruct u as [u|]; [|exact A]. destruct (dget (w_segs w) u) as [g|] eqn:G; [|exact A].
    pose proof (aligned_control (interp wuid u) (ws_strips g) e1 e2 c x1 x2 h1 h2 (A u g (dget_In _ _ _ G))) as X.
    destruct (add_subdivision_for_control _ _ _ _ _ _ _ _ _) as [l r]. cbn [fst w_segs set_segs] in *.
    intros k g' I. apply In_dset in I. destruct I as [(-> & ->)|I]; [exact X|exact (A k g' I)].
  Qed.

  Lemma place_rows_aligned wuid c rows : forall w, seg_aligned (w_segs w) ->
    seg_aligned (w_segs (fst (place_rows interp wuid w c rows))).
  Proof.
    induction rows as [|r rows IH]; intros w A; cbn [place_rows]; [exact A|].
    pose proof (on_segment_aligned wuid w (Some (p_seg r)) (p_eta1 r) (p_eta2 r) c (p_x1 r) (p_x2 r) (Some (p_h1 r)) (Some (p_h2 r)) A) as X.
    destruct (on_segment _ _ _ _ _ _ _ _ _ _ _) as [w' o]. destruct o; [apply IH; exact X|exact X].
  Qed.

  Lemma place_wing_control_aligned wuid w c : seg_aligned (w_segs w) ->
    seg_aligned (w_segs (fst (place_wing_control interp dist wuid w c))).
  Proof.
    intro A. unfold place_wing_control. destruct (same_opt _ _); [apply on_segment_aligned; exact A|].
    destruct (wc_h_inner c); [|exact A]. destruct (wc_h_outer c); [|exact A].
    destruct (case_b_rows _ _ _ _ _ _); [apply place_rows_aligned|]; exact A.
  Qed.

  Lemma place_controls_aligned wuid l : forall w, seg_aligned (w_segs w) ->
    seg_aligned (w_segs (fst (place_controls interp dist wuid w l))).
  Proof.
    induction l as [|c l IH]; intros w A; cbn [place_controls]; [exact A|].
    pose proof (place_wing_control_aligned wuid w c A) as X. destruct (place_wing_control _ _ _ _ _) as [w' o].
    destruct o; [apply IH; exact X|exact X].
  Qed.

  Lemma add_lines_aligned ip etas : forall seg, cuts_aligned seg -> cuts_aligned (fst (add_lines ip seg etas)).
  Proof.
    induction etas as [|e etas IH]; intros seg A; cbn [add_lines]; [exact A|].
    destruct (_ || _)%bool; [apply IH; exact A|]. pose proof (aligned_subdiv ip seg e true A) as X.
    destruct (add_subdivision _ _ _ _ _) as [seg' o]. destruct o; [apply IH; exact X|exact X].
  Qed.

  Lemma divide_segments_aligned wuid l : seg_aligned l -> seg_aligned (fst (divide_segments interp wuid l)).
  Proof.
    induction l as [|[k g] l IH]; intro A; cbn [divide_segments]; [exact A|].
    assert (X : cuts_aligned (ws_strips (fst (divide_segment interp wuid k g)))).
    { unfold divide_segment. pose proof (A k g (or_introl eq_refl)) as Ag. destruct (ws_num_s g); [|exact Ag].
      destruct (linspace_etas z) as [etas|]; [|exact Ag].
      pose proof (add_lines_aligned (interp wuid k) etas (ws_strips g) Ag) as X. destruct (add_lines _ _ _). exact X. }
    specialize (IH (fun k' g' I => A k' g' (or_intror I))).
    destruct (divide_segment _ _ _ _) as [g' o]. destruct (divide_segments _ _ _) as [l2 o2]. cbn [fst] in *.
    destruct o; intros k0 g0 [E|I].
    - injection E as <- <-. exact X.
    - exact (IH k0 g0 I).
    - injection E as <- <-. exact X.
    - exact (A k0 g0 (or_intror I)).
  Qed.

  Definition all_aligned (l : dict wing) : Prop := forall wn w, In (wn, w) l -> seg_aligned (w_segs w).

  Lemma each_wing_aligned f l : (forall k w, seg_aligned (w_segs w) -> seg_aligned (w_segs (fst (f k w)))) ->
    all_aligned l -> all_aligned (fst (each_wing f l)).
  Proof.
    intro F. induction l as [|[k w] l IH]; intro A; cbn [each_wing]; [exact A|].
    pose proof (F k w (A k w (or_introl eq_refl))) as X. specialize (IH (fun k' w' I => A k' w' (or_intror I))).
    destruct (f k w) as [w' o]. destruct (each_wing f l) as [l2 o2]. cbn [fst] in *.
    destruct o; intros k0 w0 [E|I].
    - injection E as <- <-. exact X.
    - exact (IH k0 w0 I).
    - injection E as <- <-. exact X.
    - exact (A k0 w0 (or_intror I)).
  Qed.

  Lemma pre_panelling_aligned a : fresh a -> all_aligned (a_wings (fst (pre_panelling interp dist a))).
  Proof.
    intro F. unfold pre_panelling.
    assert (A0 : all_aligned (a_wings a)).
    { intros wn w Iw gn g Ig. destruct (F wn w Iw) as (_ & _ & FS & _). rewrite (FS gn g Ig). apply aligned_new. }
    pose proof (each_wing_aligned (fun k w => place_controls interp dist k w (dvalues (w_ctls w))) (a_wings a)
                  (fun k w A => place_controls_aligned k _ w A) A0) as X.
    destruct (each_wing _ _) as [ws o]. destruct o; [|exact X].
    pose proof (each_wing_aligned (fun k w => let '(l, r) := divide_segments interp k (w_segs w) in (set_segs w l, r)) ws) as Y.
    destruct (each_wing (fun k w => let '(l, r) := divide_segments interp k (w_segs w) in (set_segs w l, r)) ws) as [ws2 o2]. apply Y; [|exact X].
    intros k w A. pose proof (divide_segments_aligned k (w_segs w) A) as Z. destruct (divide_segments _ _ _). exact Z.
  Qed.
End Aligned.

(** ** Panels on the surfaces *)

Lemma tiles_inside lo hi : forall l start, tiles_from lo hi start l -> (0 <= start)%Q ->
  (start <= 1)%Q /\ forall v, In v l -> (0 <= lo v /\ lo v <= hi v /\ hi v <= 1)%Q.
Proof.
  induction l as [|v l IH]; intros start T S; cbn [tiles_from] in T.
  - split; [rewrite T; apply Qle_refl|intros v []].
  - destruct T as (T1 & T2 & T3). assert (L : (0 <= lo v)%Q) by (rewrite T1; exact S).
    assert (H0 : (0 <= hi v)%Q) by (apply (Qle_trans _ _ _ L); apply Qlt_le_weak; exact T2).
    destruct (IH _ T3 H0) as (A & B). split.
    + rewrite <- T1. apply (Qle_trans _ (hi v)); [apply Qlt_le_weak; exact T2|exact A].
    + intros u [<-|I]; [|exact (B u I)]. split; [exact L|]. split; [apply Qlt_le_weak; exact T2|exact A].
Qed.

Lemma part_unit u v t : 0 <= u <= 1 -> 0 <= v <= 1 -> 0 <= t <= 1 -> 0 <= part u v t <= 1.
Proof. intros U V T. unfold part. split; nra. Qed.

Lemma Q2R_unit q : (0 <= q)%Q -> (q <= 1)%Q -> 0 <= Q2R q <= 1.
Proof. intros A B. apply Qle_Rle in A, B. rewrite Q2R_0 in A. rewrite Q2R_1 in B. lra. Qed.

Lemma chord_bounds d ty v : tiles_chord d -> In (ty, v) (st_subs d) ->
  (0 <= Q2R (xsi_a v) <= 1) /\ (0 <= Q2R (xsi_b v) <= 1) /\ (0 <= Q2R (xsi_c v) <= 1) /\ (0 <= Q2R (xsi_d v) <= 1).
Proof.
  intros (os & of & m & T1 & T2 & _ & _ & _ & T3 & T4) I.
  assert (J : In v (opt_list os ++ [m] ++ opt_list of)).
  { apply (Permutation_in _ T2). apply in_map_iff. exists (ty, v). auto. }
  destruct (proj2 (tiles_inside _ _ _ _ T3 (Qle_refl 0)) v J) as (A1 & A2 & A3).
  destruct (proj2 (tiles_inside _ _ _ _ T4 (Qle_refl 0)) v J) as (B1 & B2 & B3).
  repeat (split; [apply Q2R_unit; eauto using Qle_trans|]). apply Q2R_unit; eauto using Qle_trans.
Qed.

Lemma edges_on seg s d ty v t : tiles_chord d -> In (ty, v) (st_subs d) -> (eta_d d == eta_a d)%Q -> (eta_c d == eta_b d)%Q ->
  (0 <= eta_a d)%Q -> (eta_a d <= eta_b d)%Q -> (eta_b d <= 1)%Q -> 0 <= t <= 1 ->
  corner_on seg s (fst (edges s seg d v t)) /\ corner_on seg s (snd (edges s seg d v t)).
Proof.
  intros TC I A B E0 E1 E2 T. destruct (chord_bounds d ty v TC I) as (Xa & Xb & Xc & Xd).
  assert (Ea : 0 <= Q2R (eta_a d) <= 1) by (apply Q2R_unit; eauto using Qle_trans).
  assert (Eb : 0 <= Q2R (eta_b d) <= 1) by (apply Q2R_unit; eauto using Qle_trans).
  assert (HI : forall x, 0 <= x <= 1 -> on_surface seg (inner_at seg d x)).
  { intros x X. rewrite (proj1 (aligned_points seg d x A B)). exists (Q2R (eta_a d)), x. auto. }
  assert (HO : forall x, 0 <= x <= 1 -> on_surface seg (outer_at seg d x)).
  { intros x X. rewrite (proj2 (aligned_points seg d x A B)). exists (Q2R (eta_b d)), x. auto. }
  assert (PI : 0 <= part (Q2R (xsi_a v)) (Q2R (xsi_d v)) t <= 1) by (apply part_unit; assumption).
  assert (PO : 0 <= part (Q2R (xsi_b v)) (Q2R (xsi_c v)) t <= 1) by (apply part_unit; assumption).
  assert (PI' : 0 <= part (Q2R (xsi_d v)) (Q2R (xsi_a v)) t <= 1) by (apply part_unit; assumption).
  assert (PO' : 0 <= part (Q2R (xsi_c v)) (Q2R (xsi_b v)) t <= 1) by (apply part_unit; assumption).
  destruct s as [|[| |]]; cbn [edges fst snd]; split; eexists; (split; [|reflexivity]); ((apply HI; lra) || (apply HO; lra)).
Qed.

Lemma Forall2_In_l {A B} (R : A -> B -> Prop) l l' x : Forall2 R l l' -> In x l -> exists y, In y l' /\ R x y.
Proof. induction 1 as [|x0 y0 l l' H1 H IH]; [intros []|]. intros [<-|I]; [exists y0; split; [left; reflexivity|exact H1]|]. destruct (IH I) as (z & ? & ?). exists z. split; [right|]; assumption. Qed.

Lemma divided_lattice interp dist geo camber alpha beta a a' : fresh a -> counts_set a -> flags_ok a ->
  pre_panelling interp dist a = (a', Ok tt) ->
  exists pans n, gen_lattice geo camber true alpha beta a' = Ok (pans, n) /\ List.length n = List.length pans /\
    (forall i p, nth_error pans i = Some p ->
     exists wn w gn g s, In (wn, w) (a_wings a) /\ In (gn, g) (w_segs w) /\ has_side w s /\
       let seg := geo (w_uid w) (ws_uid g) in
       corner_on seg s (pP p) /\ corner_on seg s (pQ p) /\ corner_on seg s (pR p) /\ corner_on seg s (pS p)) /\
    (forall wn w gn g s, In (wn, w) (a_wings a) -> In (gn, g) (w_segs w) -> has_side w s -> s <> Mirrored YZ ->
     let seg := geo (w_uid w) (ws_uid g) in
     forall eta, (0 <= eta)%Q -> (eta < 1)%Q ->
       (exists i p, nth_error pans i = Some p /\ on_front p (on_side s (surface seg (Q2R eta) 0))) /\
       (exists i p, nth_error pans i = Some p /\ on_rear p (on_side s (surface seg (Q2R eta) 1)))).
Proof.
  intros F C FL H. destruct (pre_panelled interp dist a a' F H) as (P & SB).
  pose proof (pre_panelling_aligned interp dist a F) as AL. rewrite H in AL. cbn [fst] in AL.
  assert (C' : counts_set a') by exact (strips_counts _ _ SB C).
  destruct SB as (_ & SB).
  assert (FL' : flags_ok a').
  { intros wn w' I. destruct (Forall2_In_r _ _ _ _ SB I) as ([wn0 w] & Iw & (_ & _ & S & _)). cbn [fst snd] in *. rewrite S. exact (FL _ _ Iw). }
  destruct (lattice_placed geo camber alpha beta a' P C' FL') as (pans & n & G & L & _ & H2).
  destruct (lattice_covers geo camber alpha beta a' P C' FL') as (pans' & n' & G' & H3).
  rewrite G in G'. injection G' as <- <-.
  exists pans, n. split; [exact G|]. split; [exact L|]. split.
  - intros i p Np. assert (Li : (i < List.length n)%nat) by (rewrite L; apply nth_error_Some; congruence).
    destruct (nth_error n i) as [z|] eqn:Nz; [|apply nth_error_None in Nz; lia].
    destruct (H2 i p z Np Nz) as (w' & g' & d & v & s & num & k & (wn & gn & ty & Iw & Ig & Id & Iv) & S & _ & K & (PL & _)).
    destruct (P _ _ _ _ Iw Ig) as [(ip & ops & SS & ER) _].
    assert (TC : tiles_chord d).
    { pose proof Id as Id'. rewrite ER in Id'. destruct (sound_chord ip ops SS d Id') as (os & of & Fm & Lm). exact (form_tiles d os of Fm Lm). }
    destruct (AL wn w' Iw gn g' Ig d Id) as (A1 & A2).
    pose proof (run_tiles ip ops) as (TS & _). rewrite <- ER in TS. destruct (TS d Id) as (B1 & B2 & B3). apply Qlt_le_weak in B2.
    destruct (Forall2_In_r _ _ _ _ SB Iw) as ([wn0 w] & Iw0 & (_ & U & Sy & _ & SS2)). cbn [fst snd] in *.
    destruct (Forall2_In_r _ _ _ _ SS2 Ig) as ([gn0 g] & Ig0 & (_ & Ug & _)). cbn [fst snd] in *.
    exists wn0, w, gn0, g, s. split; [exact Iw0|]. split; [exact Ig0|].
    split; [destruct s; [exact Logic.I|cbn [has_side] in *; congruence]|]. cbv zeta. rewrite <- U, <- Ug.
    destruct PL as (E1 & E2 & E3 & E4). rewrite E1, E2, E3, E4.
    assert (N : 0 < IZR num) by (apply (IZR_lt 0); lia).
    assert (K0 : 0 <= IZR k) by (apply (IZR_le 0); lia). assert (K1 : IZR k + 1 <= IZR num) by (rewrite <- plus_IZR; apply IZR_le; lia).
    assert (0 < / IZR num) by (apply Rinv_0_lt_compat; exact N).
    assert (T1 : 0 <= IZR k / IZR num <= 1).
    { unfold Rdiv. split; [apply Rmult_le_pos; lra|]. apply Rmult_le_reg_r with (IZR num); [exact N|]. rewrite Rmult_assoc, Rinv_l by lra. lra. }
    assert (T2 : 0 <= (IZR k + 1) / IZR num <= 1).
    { unfold Rdiv. split; [apply Rmult_le_pos; lra|]. apply Rmult_le_reg_r with (IZR num); [exact N|]. rewrite Rmult_assoc, Rinv_l by lra. lra. }
    destruct (edges_on (geo (w_uid w') (ws_uid g')) s d ty v _ TC Iv A1 A2 B1 B2 B3 T1) as (X1 & X2).
    destruct (edges_on (geo (w_uid w') (ws_uid g')) s d ty v _ TC Iv A1 A2 B1 B2 B3 T2) as (X3 & X4). auto.
  - intros wn w gn g s Iw Ig S NY. cbv zeta. intros eta E0 E1.
    destruct (Forall2_In_l _ _ _ _ SB Iw) as ([wn' w'] & Iw' & (_ & U & Sy & _ & SS2)). cbn [fst snd] in *.
    destruct (Forall2_In_l _ _ _ _ SS2 Ig) as ([gn' g'] & Ig' & (_ & Ug & _)). cbn [fst snd] in *.
    assert (S' : has_side w' s) by (destruct s; [exact Logic.I|cbn [has_side] in *; congruence]).
    destruct (proj2 (H3 wn' w' gn' g' s Iw' Ig' S' NY) eta E0 E1) as (X & Y). rewrite U, Ug in X, Y.
    split; [exact X|]. apply Y. exact (AL wn' w' Iw' gn' g' Ig').
Qed.
