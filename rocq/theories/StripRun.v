(** Segment-level proofs: cutting strips that carry devices (C04, C05, C06). *)
From Coq Require Import List String ZArith QArith Bool Arith Lia Lqa Permutation.
From Verif Require Import PyBase PyFacts StripModel StripSpec StripSpan StripChord.
Import ListNotations.
Open Scope Q_scope.

Lemma set_bc_form s os of b c : form s os of -> form (set_bc s b c) os of.
Proof. intro H. exact H. Qed.

Lemma form_new a b c d : form (new_strip a b c d) None None.
Proof. unfold form. simpl. repeat split; auto. constructor; [intros []|constructor]. Qed.

Section Cut.
Variable interp : Q * Q -> Q * Q -> Q -> res Q.

Lemma inherit_none seg ip inew k ea eb eta sp os of :
  nth_error seg ip = Some sp -> form sp os of -> dev_of k os of = None ->
  inherit interp seg ip inew k ea eb eta = (seg, Ok tt).
Proof.
  intros N (Fm & Fs & Ff & Fn) D. unfold inherit. rewrite N.
  destruct k; simpl in D; subst; [rewrite Fs|rewrite Ff]; reflexivity.
Qed.

Lemma inherit_some seg ip inew k ea eb eta sp os of sn os' of' d seg' :
  ip <> inew ->
  nth_error seg ip = Some sp -> form sp os of -> dev_of k os of = Some d ->
  ct_type (dv_c d) = Some k ->
  nth_error seg inew = Some sn -> form sn os' of' ->
  inherit interp seg ip inew k ea eb eta = (seg', Ok tt) ->
  exists xs hs sp' sn',
    interp (ea, dv_x1 d) (eb, dv_x2 d) eta = Ok xs /\
    interp (ea, dv_h1 d) (eb, dv_h2 d) eta = Ok hs /\
    acceptable os' of' k xs (dv_x2 d) hs (dv_h2 d) /\
    seg' = set_nth (set_nth seg inew sn') ip sp' /\
    form sp' (fst (set_dev k (mkDev (dv_c d) (dv_x1 d) xs (dv_h1 d) hs) os of))
             (snd (set_dev k (mkDev (dv_c d) (dv_x1 d) xs (dv_h1 d) hs) os of)) /\
    form sn' (fst (set_dev k (mkDev (dv_c d) xs (dv_x2 d) hs (dv_h2 d)) os' of'))
             (snd (set_dev k (mkDev (dv_c d) xs (dv_x2 d) hs (dv_h2 d)) os' of')) /\
    quad sp' = quad sp /\ quad sn' = quad sn.
Proof.
  intros NE N F D Tk Nn Fnew H. unfold inherit in H. rewrite N in H.
  assert (G : sget (st_subs sp) (ADev k) = Some (dev_sub k d)).
  { destruct F as (Fm & Fs & Ff & _). destruct k; simpl in D; subst; assumption. }
  rewrite G in H.
  assert (E1 : sa_hinge (dev_sub k d) = Some (dv_h1 d, dv_h2 d)) by (destruct k; reflexivity).
  assert (E2 : sa_ctrl (dev_sub k d) = Some (dv_c d)) by (destruct k; reflexivity).
  assert (E3 : match k with Slat => xsi_d (dev_sub k d) | Flap => xsi_a (dev_sub k d) end = dv_x1 d)
    by (destruct k; reflexivity).
  assert (E4 : match k with Slat => xsi_c (dev_sub k d) | Flap => xsi_b (dev_sub k d) end = dv_x2 d)
    by (destruct k; reflexivity).
  rewrite E1, E2 in H. cbv zeta in H. rewrite E3, E4 in H.
  destruct (interp (ea, dv_x1 d) (eb, dv_x2 d) eta) as [xs|] eqn:I1; [|discriminate].
  destruct (interp (ea, dv_h1 d) (eb, dv_h2 d) eta) as [hs|] eqn:I2; [|discriminate].
  rewrite Nn in H.
  destruct (acceptable_dec os' of' k xs (dv_x2 d) hs (dv_h2 d)) as [A|A].
  - destruct (add_subarea_accepts sn os' of' (dv_c d) k xs (dv_x2 d) (Some hs) (Some (dv_h2 d)) hs (dv_h2 d)
                Fnew Tk eq_refl eq_refl A) as (sn' & Ea & Qn & Fn').
    rewrite Ea in H.
    destruct (update_subarea_form sp os of k d (dv_x1 d) xs (dv_h1 d) hs F D) as (sp' & Eu & Qp & Fp').
    rewrite Eu in H. injection H as H. exists xs, hs, sp', sn'.
    repeat (split; [first [reflexivity|assumption|symmetry; assumption]|]). assumption.
  - exfalso.
    rewrite (add_subarea_rejects sn os' of' (dv_c d) xs (dv_x2 d) (Some hs) (Some (dv_h2 d)) hs (dv_h2 d)
               Fnew eq_refl eq_refl) in H; [discriminate|].
    intros k' Tk'. assert (k' = k) by congruence. subst k'. exact A.
Qed.

(** Inheritance succeeds when the interpolated values are acceptable on the new strip. *)
Lemma inherit_succeeds seg ip inew k ea eb eta sp os of sn os' of' d xs hs :
  nth_error seg ip = Some sp -> form sp os of -> dev_of k os of = Some d ->
  ct_type (dv_c d) = Some k ->
  nth_error seg inew = Some sn -> form sn os' of' ->
  interp (ea, dv_x1 d) (eb, dv_x2 d) eta = Ok xs ->
  interp (ea, dv_h1 d) (eb, dv_h2 d) eta = Ok hs ->
  acceptable os' of' k xs (dv_x2 d) hs (dv_h2 d) ->
  exists seg', inherit interp seg ip inew k ea eb eta = (seg', Ok tt).
Proof.
  intros N F D Tk Nn Fnew I1 I2 A. unfold inherit. rewrite N.
  assert (G : sget (st_subs sp) (ADev k) = Some (dev_sub k d)).
  { destruct F as (Fm & Fs & Ff & _). destruct k; simpl in D; subst; assumption. }
  rewrite G.
  assert (E1 : sa_hinge (dev_sub k d) = Some (dv_h1 d, dv_h2 d)) by (destruct k; reflexivity).
  assert (E2 : sa_ctrl (dev_sub k d) = Some (dv_c d)) by (destruct k; reflexivity).
  assert (E3 : match k with Slat => xsi_d (dev_sub k d) | Flap => xsi_a (dev_sub k d) end = dv_x1 d)
    by (destruct k; reflexivity).
  assert (E4 : match k with Slat => xsi_c (dev_sub k d) | Flap => xsi_b (dev_sub k d) end = dv_x2 d)
    by (destruct k; reflexivity).
  rewrite E1, E2. cbv zeta. rewrite E3, E4, I1, I2, Nn.
  destruct (add_subarea_accepts sn os' of' (dv_c d) k xs (dv_x2 d) (Some hs) (Some (dv_h2 d)) hs (dv_h2 d)
                Fnew Tk eq_refl eq_refl A) as (sn' & Ea & Qn & Fn').
  rewrite Ea.
  destruct (update_subarea_form sp os of k d (dv_x1 d) xs (dv_h1 d) hs F D) as (sp' & Eu & Qp & Fp').
  rewrite Eu. eauto.
Qed.

(** How a device [o] is split at [eta] into an inner and an outer part. *)
Definition split_dev (ea eb eta : Q) (o oi oo : option dev) : Prop :=
  match o with
  | None => oi = None /\ oo = None
  | Some d => exists xs hs,
      interp (ea, dv_x1 d) (eb, dv_x2 d) eta = Ok xs /\
      interp (ea, dv_h1 d) (eb, dv_h2 d) eta = Ok hs /\
      (0 < xs /\ xs < 1) /\ (0 <= hs /\ hs <= 1) /\
      oi = Some (mkDev (dv_c d) (dv_x1 d) xs (dv_h1 d) hs) /\
      oo = Some (mkDev (dv_c d) xs (dv_x2 d) hs (dv_h2 d))
  end.

(** Both inheritance steps of a cut that raised nothing. *)
Lemma cut_ok seg ip sp os of a d seg2 seg3 :
  nth_error seg ip = Some sp -> form sp os of -> lines_ok os of ->
  let n := List.length seg in
  let seg1 := set_nth (seg ++ [new_strip a (eta_b sp) (eta_c sp) d]) ip (set_bc sp a d) in
  inherit interp seg1 ip n Flap (eta_a sp) (eta_b sp) a = (seg2, Ok tt) ->
  inherit interp seg2 ip n Slat (eta_a sp) (eta_b sp) a = (seg3, Ok tt) ->
  exists sp' sn' osi ofi oso ofo,
    nth_error seg3 ip = Some sp' /\ nth_error seg3 n = Some sn' /\
    (forall j, j <> ip -> j <> n -> nth_error seg3 j = nth_error seg j) /\
    form sp' osi ofi /\ form sn' oso ofo /\
    quad sp' = (eta_a sp, a, d, eta_d sp) /\ quad sn' = (a, eta_b sp, eta_c sp, d) /\
    split_dev (eta_a sp) (eta_b sp) a of ofi ofo /\
    split_dev (eta_a sp) (eta_b sp) a os osi oso /\
    lines_ok osi ofi /\ lines_ok oso ofo.
Proof.
  intros N F L n seg1 H2 H3.
  pose proof (nth_error_lt _ _ _ N) as Lt.
  assert (NE : ip <> n) by (unfold n; lia).
  assert (S1 : nth_error seg1 ip = Some (set_bc sp a d)).
  { unfold seg1. rewrite nth_error_cut, Nat.eqb_refl by exact Lt. reflexivity. }
  assert (S1n : nth_error seg1 n = Some (new_strip a (eta_b sp) (eta_c sp) d)).
  { unfold seg1. rewrite nth_error_cut by exact Lt. destruct (Nat.eqb_spec ip n); [lia|].
    unfold n. rewrite Nat.eqb_refl. reflexivity. }
  assert (S1o : forall j, j <> ip -> j <> n -> nth_error seg1 j = nth_error seg j).
  { intros j J1 J2. unfold seg1. rewrite nth_error_cut by exact Lt.
    destruct (Nat.eqb_spec ip j); [congruence|]. destruct (Nat.eqb_spec j (List.length seg)) as [J3|]; [exfalso; exact (J2 J3)|].
    reflexivity. }
  assert (Len1 : List.length seg1 = S n).
  { unfold seg1. rewrite set_nth_length, app_length. simpl. fold n. lia. }
  (* flap *)
  assert (STEP2 : exists sp2 sn2 ofi ofo,
    nth_error seg2 ip = Some sp2 /\ nth_error seg2 n = Some sn2 /\
    (forall j, j <> ip -> j <> n -> nth_error seg2 j = nth_error seg j) /\
    List.length seg2 = S n /\
    form sp2 os ofi /\ form sn2 None ofo /\
    quad sp2 = quad (set_bc sp a d) /\ quad sn2 = quad (new_strip a (eta_b sp) (eta_c sp) d) /\
    split_dev (eta_a sp) (eta_b sp) a of ofi ofo).
  { destruct of as [e|].
    - destruct L as (_ & L2 & _). destruct (L2 e eq_refl) as (Te & _).
      destruct (inherit_some seg1 ip n Flap (eta_a sp) (eta_b sp) a (set_bc sp a d) os (Some e)
                  _ None None e seg2 NE S1 (set_bc_form _ _ _ _ _ F) eq_refl Te S1n (form_new _ _ _ _) H2)
        as (xs & hs & sp' & sn' & I1 & I2 & A & E & Fp & Fn & Qp & Qn).
      exists sp', sn', (Some (mkDev (dv_c e) (dv_x1 e) xs (dv_h1 e) hs)),
        (Some (mkDev (dv_c e) xs (dv_x2 e) hs (dv_h2 e))).
      rewrite E.
      rewrite nth_error_set_nth_same by (rewrite set_nth_length; lia).
      rewrite nth_error_set_nth_other, nth_error_set_nth_same by lia.
      split; [reflexivity|]. split; [reflexivity|].
      split; [intros j J1 J2; rewrite !nth_error_set_nth_other by auto; auto|].
      split; [rewrite !set_nth_length; exact Len1|].
      repeat (split; [assumption|]).
      exists xs, hs. destruct A as (_ & A1 & _ & A2 & _).
      repeat (split; [first [assumption|reflexivity]|]). reflexivity.
    - rewrite (inherit_none seg1 ip n Flap _ _ _ _ os None S1 (set_bc_form _ _ _ _ _ F) eq_refl) in H2.
      injection H2 as <-.
      exists (set_bc sp a d), (new_strip a (eta_b sp) (eta_c sp) d), None, None.
      repeat (split; [first [assumption|reflexivity|apply form_new]|]). split; reflexivity. }
  destruct STEP2 as (sp2 & sn2 & ofi & ofo & N2 & N2n & O2 & Len2 & F2 & F2n & Q2 & Q2n & SPf).
  destruct os as [e|].
  - destruct L as (L1 & L2 & L3). destruct (L1 e eq_refl) as (Te & Le1 & Le2 & Le3 & Le4).
    destruct (inherit_some seg2 ip n Slat (eta_a sp) (eta_b sp) a sp2 (Some e) ofi
                  sn2 None ofo e seg3 NE N2 F2 eq_refl Te N2n F2n H3)
        as (xs & hs & sp' & sn' & I1 & I2 & A & E & Fp & Fn & Qp & Qn).
    exists sp', sn', (Some (mkDev (dv_c e) (dv_x1 e) xs (dv_h1 e) hs)), ofi,
        (Some (mkDev (dv_c e) xs (dv_x2 e) hs (dv_h2 e))), ofo.
    rewrite E.
    rewrite nth_error_set_nth_same by (rewrite set_nth_length; lia).
    rewrite nth_error_set_nth_other, nth_error_set_nth_same by lia.
    split; [reflexivity|]. split; [reflexivity|].
    split; [intros j J1 J2; rewrite !nth_error_set_nth_other by auto; auto|].
    split; [exact Fp|]. split; [exact Fn|].
    split; [rewrite Qp, Q2; reflexivity|]. split; [rewrite Qn, Q2n; reflexivity|].
    split; [exact SPf|]. destruct A as (_ & A1 & _ & A2 & _ & A3).
    split; [exists xs, hs; repeat (split; [first [assumption|reflexivity]|]); reflexivity|].
    destruct of as [g|].
    + destruct SPf as (xf & hf & J1 & J2 & B1 & B2 & -> & ->).
      destruct (L2 g eq_refl) as (Tg & Lg1 & Lg2 & Lg3 & Lg4).
      destruct (L3 e g eq_refl eq_refl) as [G1 G2].
      destruct (A3 _ eq_refl) as [A3a A3b]. simpl in A3a, A3b.
      split; (split; [|split]);
        try (intros d0 E0; injection E0 as <-; unfold dev_ok; simpl; auto);
        intros d0 e0 E0 E1; injection E0 as <-; injection E1 as <-; simpl; auto.
    + destruct SPf as [-> ->].
      split; (split; [|split]); try discriminate;
        try (intros d0 E0; injection E0 as <-; unfold dev_ok; simpl; auto).
  - rewrite (inherit_none seg2 ip n Slat _ _ _ _ None ofi N2 F2 eq_refl) in H3.
    injection H3 as <-. destruct L as (L1 & L2 & L3).
    exists sp2, sn2, None, ofi, None, ofo.
    split; [exact N2|]. split; [exact N2n|]. split; [exact O2|]. split; [exact F2|]. split; [exact F2n|].
    split; [rewrite Q2; reflexivity|]. split; [rewrite Q2n; reflexivity|].
    split; [exact SPf|]. split; [split; reflexivity|].
    destruct of as [g|].
    + destruct SPf as (xf & hf & J1 & J2 & B1 & B2 & -> & ->).
      destruct (L2 g eq_refl) as (Tg & Lg1 & Lg2 & Lg3 & Lg4).
      split; (split; [|split]); try discriminate;
        try (intros d0 E0; injection E0 as <-; unfold dev_ok; simpl; auto).
    + destruct SPf as [-> ->]. split; (split; [|split]); discriminate.
Qed.

(** With a well behaved interpolation a cut never raises. *)
Lemma cut_succeeds seg ip sp os of a d :
  interp_ok interp -> tiles_span seg ->
  nth_error seg ip = Some sp -> form sp os of -> lines_ok os of ->
  eta_a sp < a -> a < eta_b sp ->
  let n := List.length seg in
  let seg1 := set_nth (seg ++ [new_strip a (eta_b sp) (eta_c sp) d]) ip (set_bc sp a d) in
  exists seg2 seg3,
    inherit interp seg1 ip n Flap (eta_a sp) (eta_b sp) a = (seg2, Ok tt) /\
    inherit interp seg2 ip n Slat (eta_a sp) (eta_b sp) a = (seg3, Ok tt).
Proof.
  intros [IB IG] [T1 _] N F L Ca Cb n seg1.
  pose proof (T1 sp (nth_error_In _ _ N)) as (R0 & _ & R1).
  pose proof (nth_error_lt _ _ _ N) as Lt.
  assert (NE : ip <> n) by (unfold n; lia).
  assert (S1 : nth_error seg1 ip = Some (set_bc sp a d)).
  { unfold seg1. rewrite nth_error_cut, Nat.eqb_refl by exact Lt. reflexivity. }
  assert (S1n : nth_error seg1 n = Some (new_strip a (eta_b sp) (eta_c sp) d)).
  { unfold seg1. rewrite nth_error_cut by exact Lt. destruct (Nat.eqb_spec ip n); [lia|].
    unfold n. rewrite Nat.eqb_refl. reflexivity. }
  assert (Len1 : List.length seg1 = S n).
  { unfold seg1. rewrite set_nth_length, app_length. simpl. fold n. lia. }
  destruct L as (L1 & L2 & L3).
  assert (STEP2 : exists seg2 sp2 sn2 ofi ofo,
    inherit interp seg1 ip n Flap (eta_a sp) (eta_b sp) a = (seg2, Ok tt) /\
    nth_error seg2 ip = Some sp2 /\ nth_error seg2 n = Some sn2 /\
    form sp2 os ofi /\ form sn2 None ofo /\
    (of = None -> ofo = None) /\
    (forall e, of = Some e -> exists xs, interp (eta_a sp, dv_x1 e) (eta_b sp, dv_x2 e) a = Ok xs /\
       exists d', ofo = Some d' /\ dv_x1 d' = xs /\ dv_x2 d' = dv_x2 e)).
  { destruct of as [e|].
    - destruct (L2 e eq_refl) as (Te & Le1 & Le2 & Le3 & Le4).
      destruct (IB (eta_a sp) (eta_b sp) a (dv_x1 e) (dv_x2 e) R0 Ca Cb R1) as (xs & I1 & B1).
      destruct (IB (eta_a sp) (eta_b sp) a (dv_h1 e) (dv_h2 e) R0 Ca Cb R1) as (hs & I2 & B2).
      destruct (inherit_succeeds seg1 ip n Flap (eta_a sp) (eta_b sp) a (set_bc sp a d) os (Some e)
                  _ None None e xs hs S1 (set_bc_form _ _ _ _ _ F) eq_refl Te S1n (form_new _ _ _ _) I1 I2)
        as (seg2 & H2).
      { unfold acceptable. split; [reflexivity|]. split; [lra|]. split; [lra|]. split; [lra|].
        split; [lra|]. intros d0 E0; discriminate. }
      destruct (inherit_some seg1 ip n Flap (eta_a sp) (eta_b sp) a (set_bc sp a d) os (Some e)
                  _ None None e seg2 NE S1 (set_bc_form _ _ _ _ _ F) eq_refl Te S1n (form_new _ _ _ _) H2)
        as (xs' & hs' & sp' & sn' & I1' & I2' & A & E & Fp & Fn & Qp & Qn).
      eexists seg2, sp', sn', _, _. split; [exact H2|].
      rewrite E.
      rewrite nth_error_set_nth_same by (rewrite set_nth_length; lia).
      rewrite nth_error_set_nth_other, nth_error_set_nth_same by lia.
      split; [reflexivity|]. split; [reflexivity|]. split; [exact Fp|]. split; [exact Fn|].
      split; [discriminate|].
      intros e0 E0. injection E0 as <-. exists xs'. split; [exact I1'|].
      eexists. split; [reflexivity|]. split; reflexivity.
    - eexists seg1, _, _, _, _. split.
      { apply (inherit_none seg1 ip n Flap _ _ _ _ os None S1 (set_bc_form _ _ _ _ _ F) eq_refl). }
      split; [exact S1|]. split; [exact S1n|]. split; [exact F|]. split; [apply form_new|].
      split; [reflexivity|]. discriminate. }
  destruct STEP2 as (seg2 & sp2 & sn2 & ofi & ofo & H2 & N2 & N2n & F2 & F2n & O1 & O2).
  exists seg2. destruct os as [e|].
  - destruct (L1 e eq_refl) as (Te & Le1 & Le2 & Le3 & Le4).
    destruct (IB (eta_a sp) (eta_b sp) a (dv_x1 e) (dv_x2 e) R0 Ca Cb R1) as (xs & I1 & B1).
    destruct (IB (eta_a sp) (eta_b sp) a (dv_h1 e) (dv_h2 e) R0 Ca Cb R1) as (hs & I2 & B2).
    destruct (inherit_succeeds seg2 ip n Slat (eta_a sp) (eta_b sp) a sp2 (Some e) ofi
                  sn2 None ofo e xs hs N2 F2 eq_refl Te N2n F2n I1 I2) as (seg3 & H3).
    { unfold acceptable. split; [reflexivity|]. split; [lra|]. split; [lra|]. split; [lra|].
      split; [lra|]. intros d0 E0. destruct of as [g|].
      - destruct (O2 g eq_refl) as (xf & I3 & d' & E' & X1 & X2).
        assert (d' = d0) by congruence. subst d'.
        destruct (L3 e g eq_refl eq_refl) as [G1 G2].
        rewrite X1, X2. split; [|exact G2].
        exact (IG _ _ _ _ _ _ _ _ _ R0 Ca Cb R1 G1 G2 I1 I3).
      - rewrite (O1 eq_refl) in E0. discriminate. }
    exists seg3. auto.
  - exists seg2. split; [exact H2|].
    apply (inherit_none seg2 ip n Slat _ _ _ _ None ofi N2 F2 eq_refl).
Qed.

Definition all_chord (seg : segment) : Prop := forall s, In s seg -> chord_inv s.

(** Description of a call of [add_subdivision] that did not raise. *)
Lemma add_subdivision_ok seg a d ig seg' o :
  all_chord seg ->
  add_subdivision interp seg a d ig = (seg', Ok o) ->
  (seg' = seg /\
     ((o = None /\ ig = true /\ (a <= 0 \/ 1 <= a)) \/
      exists i s, o = Some i /\ nth_error seg i = Some s /\ covers s a /\ a < eta_a s + (1 # 100)
                  /\ 0 < a /\ a < 1)) \/
  (o = Some (List.length seg) /\
   exists ip sp os of sp' sn' osi ofi oso ofo,
    nth_error seg ip = Some sp /\ eta_a sp + (1 # 100) <= a /\ a < eta_b sp /\ 0 < a /\ a < 1 /\
    form sp os of /\ lines_ok os of /\
    nth_error seg' ip = Some sp' /\ nth_error seg' (List.length seg) = Some sn' /\
    (forall j, j <> ip -> j <> List.length seg -> nth_error seg' j = nth_error seg j) /\
    form sp' osi ofi /\ form sn' oso ofo /\
    quad sp' = (eta_a sp, a, d, eta_d sp) /\ quad sn' = (a, eta_b sp, eta_c sp, d) /\
    split_dev (eta_a sp) (eta_b sp) a of ofi ofo /\
    split_dev (eta_a sp) (eta_b sp) a os osi oso /\
    lines_ok osi ofi /\ lines_ok oso ofo).
Proof.
  intros AC H. unfold add_subdivision in H.
  destruct (Qleb a 0 || Qleb 1 a) eqn:E0.
  { left. destruct ig; [|discriminate]. injection H as <- <-. split; [reflexivity|]. left.
    split; [reflexivity|]. split; [reflexivity|]. qbool. destruct E0; qbool; auto. }
  destruct (get_subdiv_at_eta seg a) as [[[ip sp] ob]|] eqn:Eg; [|discriminate].
  apply get_subdiv_spec in Eg. destruct Eg as (N & C & B). qbool.
  destruct ob.
  { left. injection H as <- <-. split; [reflexivity|]. right. exists ip, sp.
    symmetry in B. qbool. destruct C. repeat (split; [first [assumption|reflexivity|split;assumption]|]).
    split; [lra|]. split; assumption. }
  destruct (Qltb (a - eta_a sp) MIN_ETA_LIMIT) eqn:E1.
  { left. injection H as <- <-. split; [reflexivity|]. right. exists ip, sp.
    qbool. unfold MIN_ETA_LIMIT in E1. destruct C.
    repeat (split; [first [assumption|reflexivity|split;assumption]|]). split; [lra|]. split; assumption. }
  right. qbool. unfold MIN_ETA_LIMIT in E1.
  destruct (AC sp (nth_error_In _ _ N)) as (os & of & F & L).
  cbv zeta in H.
  destruct (inherit interp _ ip _ Flap _ _ a) as [seg2 [[]|]] eqn:I2; [|discriminate].
  destruct (inherit interp seg2 ip _ Slat _ _ a) as [seg3 [[]|]] eqn:I3; [|discriminate].
  injection H as <- <-. split; [reflexivity|].
  destruct (cut_ok seg ip sp os of a d seg2 seg3 N F L I2 I3)
    as (sp' & sn' & osi & ofi & oso & ofo & R).
  exists ip, sp, os, of, sp', sn', osi, ofi, oso, ofo.
  destruct C as [C1 C2].
  split; [exact N|]. split; [lra|]. split; [exact C2|]. split; [assumption|]. split; [assumption|].
  split; [exact F|]. split; [exact L|]. exact R.
Qed.

Lemma add_subdivision_chord seg a d ig seg' o :
  all_chord seg -> add_subdivision interp seg a d ig = (seg', Ok o) -> all_chord seg'.
Proof.
  intros AC H. destruct (add_subdivision_ok _ _ _ _ _ _ AC H) as [[-> _]|[_ R]]; [exact AC|].
  destruct R as (ip & sp & os & of & sp' & sn' & osi & ofi & oso & ofo & N & _ & _ & _ & _ & F & L & N' & Nn & O
    & F' & Fn & _ & _ & _ & _ & L' & Ln).
  intros s I. apply In_nth_error in I. destruct I as [j J].
  destruct (Nat.eq_dec j ip) as [->|J1].
  { assert (s = sp') by congruence. subst. exists osi, ofi. auto. }
  destruct (Nat.eq_dec j (List.length seg)) as [->|J2].
  { assert (s = sn') by congruence. subst. exists oso, ofo. auto. }
  rewrite O in J by auto. apply AC. eapply nth_error_In; eauto.
Qed.

(** Under [interp_ok] the only exception of [add_subdivision] is the range check. *)
Lemma add_subdivision_total seg a d ig :
  interp_ok interp -> tiles_span seg -> all_chord seg ->
  (exists o, snd (add_subdivision interp seg a d ig) = Ok o) \/
  add_subdivision interp seg a d ig = (seg, Err ValueError).
Proof.
  intros IO T AC. unfold add_subdivision.
  destruct (Qleb a 0 || Qleb 1 a) eqn:E0.
  { destruct ig; [left; eexists; reflexivity|right; reflexivity]. }
  qbool.
  destruct (lookup_total seg a T) as (ip & sp & ob & G & N & C);
    [apply Qlt_le_weak; assumption|assumption|].
  rewrite G. apply get_subdiv_spec in G. destruct G as (_ & _ & B).
  destruct ob; [left; eexists; reflexivity|].
  destruct (Qltb (a - eta_a sp) MIN_ETA_LIMIT) eqn:E1; [left; eexists; reflexivity|].
  left. qbool. unfold MIN_ETA_LIMIT in E1.
  destruct (AC sp (nth_error_In _ _ N)) as (os & of & F & L). destruct C as [C1 C2].
  destruct (cut_succeeds seg ip sp os of a d IO T N F L) as (seg2 & seg3 & I2 & I3); [lra|exact C2|].
  cbv zeta. rewrite I2, I3. eexists. reflexivity.
Qed.

Lemma add_subdivision_inside seg a d ig :
  interp_ok interp -> tiles_span seg -> all_chord seg -> 0 < a -> a < 1 ->
  exists seg' i, add_subdivision interp seg a d ig = (seg', Ok (Some i)).
Proof.
  intros IO T AC P0 P1.
  destruct (add_subdivision_total seg a d ig IO T AC) as [[o E]|E].
  - destruct (add_subdivision interp seg a d ig) as [seg' r] eqn:H. simpl in E. subst r.
    destruct (add_subdivision_ok _ _ _ _ _ _ AC H) as [[-> [(-> & _ & R)|(i & s & -> & _)]]|[-> _]]; eauto.
    exfalso. lra.
  - exfalso. unfold add_subdivision in E.
    assert (F : Qleb a 0 || Qleb 1 a = false).
    { apply orb_false_iff. split; apply Qleb_false; assumption. }
    rewrite F in E.
    destruct (lookup_total seg a T (Qlt_le_weak _ _ P0) P1) as (ip & sp & ob & G & N & C).
    rewrite G in E. destruct ob; [discriminate|].
    apply get_subdiv_spec in G. destruct G as (_ & _ & B).
    destruct (Qltb (a - eta_a sp) MIN_ETA_LIMIT) eqn:E1; [discriminate|].
    qbool. unfold MIN_ETA_LIMIT in E1.
    destruct (AC sp (nth_error_In _ _ N)) as (os & of & F' & L). destruct C as [C1 C2].
    destruct (cut_succeeds seg ip sp os of a d IO T N F' L) as (seg2 & seg3 & I2 & I3); [lra|exact C2|].
    cbv zeta in E. rewrite I2, I3 in E. discriminate.
Qed.

Lemma set_nth_chord seg i s : all_chord seg -> chord_inv s -> all_chord (set_nth seg i s).
Proof.
  intros AC C t I. apply In_set_nth in I. destruct I as [->|I]; auto.
Qed.

Lemma add_rows_chord seg c rows : all_chord seg -> all_chord (fst (add_rows seg c rows)).
Proof.
  revert seg. induction rows as [|r rows IH]; intros seg AC; simpl; [exact AC|].
  destruct (nth_error seg (r_idx r)) as [s|] eqn:E; [|exact AC].
  pose proof (add_subarea_chord_inv s c (r_x1 r) (r_x2 r) (Some (r_h1 r)) (Some (r_h2 r))
                (AC s (nth_error_In _ _ E))) as C.
  destruct (add_subarea _ _ _ _ _ _) as [s' o]. simpl in C.
  destruct o; [apply IH|]; apply set_nth_chord; assumption.
Qed.

(** [Safe]: either the interpolation is well behaved, or nothing was raised. *)
Lemma add_subdivision_chord_gen seg a d ig seg' r :
  (interp_ok interp /\ tiles_span seg) \/ (exists o, r = Ok o) ->
  all_chord seg -> add_subdivision interp seg a d ig = (seg', r) -> all_chord seg'.
Proof.
  intros HS AC H.
  assert (HS' : (exists o, r = Ok o) \/ (seg' = seg)).
  { destruct HS as [[IO T]|HS]; [|left; exact HS].
    destruct (add_subdivision_total seg a d ig IO T AC) as [[o E]|E]; rewrite H in E; simpl in E;
      [left; eauto|right; congruence]. }
  destruct HS' as [[o ->]| ->]; [|exact AC].
  eapply add_subdivision_chord; eauto.
Qed.

Lemma add_control_chord (seg : segment) a b c x1 x2 o1 o2 seg' r :
  (interp_ok interp /\ tiles_span seg) \/ r = Ok tt ->
  all_chord seg -> add_subdivision_for_control interp seg a b c x1 x2 o1 o2 = (seg', r) -> all_chord seg'.
Proof.
  intros HS AC H. unfold add_subdivision_for_control in H.
  set (p1 := if Qeqb a 0 then (seg, Ok (Some O)) : segment * res (option nat)
             else add_subdivision interp seg a a false) in H.
  assert (T1 : tiles_span seg -> tiles_span (fst p1)).
  { unfold p1. destruct (Qeqb a 0); simpl; [auto|]. intro T.
    apply (tiles_step interp seg (OpSubdiv a a false)). exact T. }
  assert (A1 : (interp_ok interp /\ tiles_span seg) \/ (exists o, snd p1 = Ok o) ->
               all_chord (fst p1)).
  { unfold p1. destruct (Qeqb a 0); simpl; [auto|]. intro S.
    destruct (add_subdivision interp seg a a false) as [s' r'] eqn:E.
    eapply add_subdivision_chord_gen; eauto. }
  clearbody p1. destruct p1 as [seg1 r1]. cbn [fst snd] in *. cbv zeta in H.
  assert (HS1 : (interp_ok interp /\ tiles_span seg1) \/ r = Ok tt).
  { destruct HS as [[IO T]|HS]; [left; split; auto|right; exact HS]. }
  destruct r1 as [[i1|]|e].
  2:{ injection H as <- <-. apply A1. right; eauto. }
  2:{ injection H as <- <-. apply A1. destruct HS as [HS|HS]; [left; exact HS|discriminate]. }
  assert (AC1 : all_chord seg1) by (apply A1; right; eauto). clear A1 T1 HS AC.
  destruct (nth_error seg1 i1) as [sd1|]; [|injection H as <- <-; exact AC1].
  destruct (Qeqb b (eta_b sd1)).
  { apply (f_equal fst) in H. cbn [fst] in H. rewrite <- H. apply add_rows_chord. exact AC1. }
  assert (CUTB : forall rows seg2 r2, add_subdivision interp seg1 b b false = (seg2, r2) ->
     match r2 with Ok _ => add_rows seg2 c rows | Err e => (seg2, Err e) end = (seg', r) ->
     all_chord seg').
  { intros rows seg2 r2 E2 H2. destruct r2 as [o|e].
    - apply (f_equal fst) in H2. cbn [fst] in H2. rewrite <- H2. apply add_rows_chord.
      eapply add_subdivision_chord; eauto.
    - injection H2 as <- <-. eapply add_subdivision_chord_gen; [|exact AC1|exact E2].
      destruct HS1 as [HS1|HS1]; [left; exact HS1|discriminate]. }
  destruct (Qltb b (eta_b sd1)).
  { destruct (add_subdivision interp seg1 b b false) as [seg2 r2] eqn:E2.
    exact (CUTB _ _ _ eq_refl H). }
  destruct (get_outer_neighbour seg1 (eta_b sd1)) as [nb|]; [|injection H as <- <-; exact AC1].
  destruct (nth_error seg1 nb) as [snb|]; [|injection H as <- <-; exact AC1].
  match type of H with context [match ?e with Ok _ => _ | Err _ => _ end] => destruct e as [[rows last]|] end;
    [|injection H as <- <-; exact AC1].
  destruct (nth_error seg1 last) as [sl|]; [|injection H as <- <-; exact AC1].
  destruct (Qltb b (eta_b sl)).
  { destruct (add_subdivision interp seg1 b b false) as [seg2 r2] eqn:E2.
    exact (CUTB _ _ _ eq_refl H). }
  apply (f_equal fst) in H. cbn [fst] in H. rewrite <- H. apply add_rows_chord. exact AC1.
Qed.

Lemma chord_new_segment : all_chord new_segment.
Proof. intros s [<-|[]]. apply chord_inv_new. Qed.

Lemma run_chord_interp_ok ops : interp_ok interp -> all_chord (run interp ops).
Proof.
  intro IO.
  assert (H : tiles_span (run interp ops) /\ all_chord (run interp ops)).
  { unfold run. apply (fold_inv interp (fun s => tiles_span s /\ all_chord s) (fun _ => True)).
    - intros s o _ [T AC]. split; [apply tiles_step; exact T|].
      destruct o as [a d ig|a b c x1 x2 o1 o2]; simpl.
      + destruct (add_subdivision interp s a d ig) as [s' r] eqn:E.
        eapply add_subdivision_chord_gen; [left; split; [exact IO|exact T]|exact AC|exact E].
      + destruct (add_subdivision_for_control interp s a b c x1 x2 o1 o2) as [s' r] eqn:E.
        eapply add_control_chord; [left; split; [exact IO|exact T]|exact AC|exact E].
    - split; [apply tiles_new|apply chord_new_segment].
    - apply Forall_forall. auto. }
  apply H.
Qed.

Lemma run_chord_accepted ops : all_accepted interp new_segment ops -> all_chord (run interp ops).
Proof.
  unfold run. generalize chord_new_segment. generalize new_segment as seg.
  induction ops as [|o ops IH]; intros seg AC A; simpl; [exact AC|].
  destruct o as [a d ig|a b c x1 x2 o1 o2]; simpl in A |- *; destruct A as [A1 A2].
  - apply IH; [|exact A2]. destruct (add_subdivision interp seg a d ig) as [s' r] eqn:E.
    eapply add_subdivision_chord_gen; [right; exact A1|exact AC|exact E].
  - apply IH; [|exact A2].
    destruct (add_subdivision_for_control interp seg a b c x1 x2 o1 o2) as [s' r] eqn:E.
    eapply add_control_chord; [right; exact A1|exact AC|exact E].
Qed.

End Cut.

(** ** Statements in terms of the specification *)

Lemma may_add_acceptable s os of c k x1 x2 h1 h2 :
  form s os of ->
  (may_add s c k x1 x2 h1 h2 <-> ct_type c = Some k /\ acceptable os of k x1 x2 h1 h2).
Proof.
  intro F. unfold may_add, acceptable, below_by. rewrite (form_no_device s os of k F).
  split.
  - intros (T & N & X1 & X2 & H1 & H2 & S & P). split; [exact T|].
    do 5 (split; [assumption|]).
    destruct k; intros d E.
    + destruct d as [c' y1 y2 g1 g2]. apply (P c' y1 y2 g1 g2). apply (form_has_device s os of); auto.
    + destruct d as [c' y1 y2 g1 g2]. apply (S c' y1 y2 g1 g2). apply (form_has_device s os of); auto.
  - intros (T & N & X1 & X2 & H1 & H2 & D).
    do 6 (split; [assumption|]).
    split; intros c' y1 y2 g1 g2 HD; apply (form_has_device s os of) in HD; auto;
      destruct k; simpl in *; subst; try discriminate.
    + apply (D _ eq_refl).
    + apply (D _ eq_refl).
Qed.

Lemma add_subarea_decision s c x1 x2 o1 o2 :
  chord_inv s ->
  let h1 := default_to o1 x1 in
  let h2 := default_to o2 x2 in
  (forall k, may_add s c k x1 x2 h1 h2 ->
     exists s', add_subarea s c x1 x2 o1 o2 = (s', Ok tt) /\
       has_device s' k c x1 x2 h1 h2 /\
       (forall k' c' y1 y2 g1 g2, k' <> k ->
          (has_device s' k' c' y1 y2 g1 g2 <-> has_device s k' c' y1 y2 g1 g2)) /\
       (eta_a s' = eta_a s /\ eta_b s' = eta_b s /\ eta_c s' = eta_c s /\ eta_d s' = eta_d s)) /\
  ((forall k, ~ may_add s c k x1 x2 h1 h2) ->
     add_subarea s c x1 x2 o1 o2 = (s, Err ValueError)).
Proof.
  intros (os & of & F & L) h1 h2. split.
  - intros k M. apply (may_add_acceptable s os of) in M; [|exact F]. destruct M as [Tk A].
    destruct (add_subarea_accepts s os of c k x1 x2 o1 o2 h1 h2 F Tk eq_refl eq_refl A)
      as (s' & E & Q & F').
    exists s'. split; [exact E|]. split; [|split].
    + apply (form_has_device _ _ _ _ _ _ _ _ _ F'). rewrite dev_of_set. destruct k; reflexivity.
    + intros k' c' y1 y2 g1 g2 NE.
      rewrite (form_has_device _ _ _ _ _ _ _ _ _ F'), (form_has_device _ _ _ _ _ _ _ _ _ F).
      rewrite dev_of_set. destruct k, k'; simpl; tauto.
    + unfold quad in Q. injection Q as -> -> -> ->. auto.
  - intros R. apply (add_subarea_rejects s os of c x1 x2 o1 o2 h1 h2 F eq_refl eq_refl).
    intros k Tk A. apply (R k). apply (may_add_acceptable s os of); auto.
Qed.

(** C06 in terms of the specification. *)
Lemma cut_devices interp seg a d ig seg' :
  all_chord seg ->
  add_subdivision interp seg a d ig = (seg', Ok (Some (List.length seg))) ->
  exists ip sp sp' sn,
    nth_error seg ip = Some sp /\ covers sp a /\
    nth_error seg' ip = Some sp' /\ nth_error seg' (List.length seg) = Some sn /\
    (eta_a sp' = eta_a sp /\ eta_b sp' = a) /\ (eta_a sn = a /\ eta_b sn = eta_b sp) /\
    (forall j, j <> ip -> j <> List.length seg -> nth_error seg' j = nth_error seg j) /\
    forall k,
      (no_device sp k -> no_device sp' k /\ no_device sn k) /\
      (forall c x1 x2 h1 h2, has_device sp k c x1 x2 h1 h2 ->
         exists x h,
           interp (eta_a sp, x1) (eta_b sp, x2) a = Ok x /\
           interp (eta_a sp, h1) (eta_b sp, h2) a = Ok h /\
           has_device sp' k c x1 x h1 h /\ has_device sn k c x x2 h h2).
Proof.
  intros AC H.
  destruct (add_subdivision_ok _ _ _ _ _ _ _ AC H) as [[-> [(E & _)|(i & s & E & N & _)]]|[_ R]].
  - discriminate.
  - injection E as <-. apply nth_error_lt in N. lia.
  - destruct R as (ip & sp & os & of & sp' & sn' & osi & ofi & oso & ofo & N & Ca & Cb & _ & _ & F & L & N' & Nn & O
      & F' & Fn & Q1 & Q2 & SPf & SPs & L' & Ln).
    exists ip, sp, sp', sn'. split; [exact N|]. split; [split; lra|].
    split; [exact N'|]. split; [exact Nn|].
    split; [unfold quad in Q1; split; congruence|].
    split; [unfold quad in Q2; split; congruence|]. split; [exact O|].
    intro k.
    assert (SP : split_dev interp (eta_a sp) (eta_b sp) a (dev_of k os of) (dev_of k osi ofi) (dev_of k oso ofo))
      by (destruct k; assumption).
    split.
    + rewrite (form_no_device _ _ _ _ F), (form_no_device _ _ _ _ F'), (form_no_device _ _ _ _ Fn).
      intro E. rewrite E in SP. exact SP.
    + intros c x1 x2 h1 h2 HD. apply (form_has_device _ _ _ _ _ _ _ _ _ F) in HD.
      rewrite HD in SP. destruct SP as (xs & hs & I1 & I2 & _ & _ & E1 & E2). simpl in *.
      exists xs, hs. split; [exact I1|]. split; [exact I2|].
      rewrite (form_has_device _ _ _ _ _ _ _ _ _ F'), (form_has_device _ _ _ _ _ _ _ _ _ Fn). auto.
Qed.

Lemma lin_interp_mid e1 e2 e x1 x2 : e1 < e -> e < e2 ->
  exists t x, 0 <= t /\ t <= 1 /\ t * (e2 - e1) == e - e1 /\ lin_interp (e1, x1) (e2, x2) e = Ok x /\
    x == x1 + (x2 - x1) * t.
Proof.
  intros H1 H2. assert (D : 0 < e2 - e1) by lra.
  exists ((e - e1) / (e2 - e1)), (Qred (x1 + (x2 - x1) * ((e - e1) / (e2 - e1)))).
  split; [apply Qle_shift_div_l; lra|]. split; [apply Qle_shift_div_r; lra|].
  split; [field; lra|]. split; [|apply Qred_correct].
  unfold lin_interp, Qeqb. destruct (Qeq_bool e1 e2) eqn:E; [|reflexivity].
  apply Qeq_bool_iff in E. lra.
Qed.

(** Linear interpolation is well behaved. *)
Lemma lin_interp_ok : interp_ok lin_interp.
Proof.
  split.
  - intros e1 e2 e x1 x2 _ H1 H2 _. destruct (lin_interp_mid e1 e2 e x1 x2 H1 H2) as (t & x & T0 & T1 & _ & E & X).
    exists x. split; [exact E|]. rewrite X. destruct (Qlt_le_dec x1 x2); [left|right]; nra.
  - intros e1 e2 e x1 x2 y1 y2 x y _ H1 H2 _ B1 B2 Ex Ey.
    destruct (lin_interp_mid e1 e2 e x1 x2 H1 H2) as (t & x' & T0 & T1 & T & E & X).
    destruct (lin_interp_mid e1 e2 e y1 y2 H1 H2) as (u & y' & U0 & U1 & U & E' & Y).
    rewrite E in Ex. injection Ex as <-. rewrite E' in Ey. injection Ey as <-.
    assert (Q : u == t). { assert (A : (u - t) * (e2 - e1) == 0) by lra. apply Qmult_integral in A. destruct A; lra. }
    unfold below_by in *. rewrite X, Y, Q. nra.
Qed.
