(** A control keeps to its line when the strips below it are cut again (C114). *)
From Coq Require Import List String QArith Lqa Lia Setoid.
From Verif Require Import PyBase PyFacts StripModel StripSpec StripSpan StripChord StripRun StripControl PrePanelSpec DrawSpec.
Import ListNotations.
Open Scope Q_scope.

Section Line.
Variable interp : Q * Q -> Q * Q -> Q -> res Q.
Variables dev hin : Q -> Q -> Prop.

Definition closed (P : Q -> Q -> Prop) : Prop :=
  (forall e e' x, e == e' -> P e x -> P e' x) /\
  (forall e1 x1 e2 x2 e x, 0 <= e1 -> e1 < e2 -> e2 <= 1 -> e1 <= e -> e <= e2 ->
     0 <= x1 <= 1 -> 0 <= x2 <= 1 -> P e1 x1 -> P e2 x2 -> interp (e1, x1) (e2, x2) e = Ok x -> P e x).

Hypothesis CD : closed dev.
Hypothesis CH : closed hin.

Lemma subdivision_follows seg a d ig seg' o c :
  tiles_span seg -> all_chord seg -> follows dev hin c seg ->
  add_subdivision interp seg a d ig = (seg', Ok o) -> follows dev hin c seg'.
Proof.
  intros [T1 _] AC FO H. destruct (add_subdivision_ok _ _ _ _ _ _ _ AC H) as [[-> _]|[_ R]]; [exact FO|].
  destruct R as (ip & sp & os & of & sp' & sn' & osi & ofi & oso & ofo & N & A1 & A2 & _ & _ & F & L & N' & Nn & O
    & F' & Fn & Q1 & Q2 & SPf & SPs & L' & Ln).
  unfold quad in Q1, Q2. injection Q1 as Q1a Q1b _ _. injection Q2 as Q2a Q2b _ _.
  pose proof (T1 sp (nth_error_In _ _ N)) as Ts.
  assert (SP : forall k, split_dev interp (eta_a sp) (eta_b sp) a (dev_of k os of) (dev_of k osi ofi) (dev_of k oso ofo))
    by (intros []; assumption).
  assert (DO : forall k d0, dev_of k os of = Some d0 -> dev_ok k d0).
  { intros k d0 E. destruct L as (L1 & L2 & _). destruct k; simpl in E; auto. }
  assert (MID : forall k d0 xs hs, dev_of k os of = Some d0 -> dv_c d0 = c ->
     interp (eta_a sp, dv_x1 d0) (eta_b sp, dv_x2 d0) a = Ok xs ->
     interp (eta_a sp, dv_h1 d0) (eta_b sp, dv_h2 d0) a = Ok hs ->
     (dev (eta_a sp) (dv_x1 d0) /\ dev (eta_b sp) (dv_x2 d0) /\ hin (eta_a sp) (dv_h1 d0) /\ hin (eta_b sp) (dv_h2 d0)) /\
     dev a xs /\ hin a hs).
  { intros k d0 xs hs E EC X Hh. destruct (DO k d0 E) as (_ & X1 & X2 & H1 & H2).
    assert (HD : has_device sp k c (dv_x1 d0) (dv_x2 d0) (dv_h1 d0) (dv_h2 d0)).
    { apply (form_has_device _ _ _ _ _ _ _ _ _ F). rewrite E. destruct d0; simpl in *; subst; reflexivity. }
    pose proof (FO sp k _ _ _ _ (nth_error_In _ _ N) HD) as (D1 & D2 & D3 & D4). split; [auto|].
    destruct CD as [_ CD2]. destruct CH as [_ CH2].
    split; [eapply CD2; [| | | | | | |exact D1|exact D2|exact X]|eapply CH2; [| | | | | | |exact D3|exact D4|exact Hh]]; lra. }
  intros s k y1 y2 g1 g2 I HD. apply In_nth_error in I. destruct I as [j J].
  destruct (Nat.eq_dec j ip) as [->|J1].
  { assert (s = sp') by congruence. subst s. apply (form_has_device _ _ _ _ _ _ _ _ _ F') in HD.
    specialize (SP k). unfold split_dev in SP. destruct (dev_of k os of) as [d0|] eqn:E.
    - destruct SP as (xs & hs & X & Hh & _ & _ & Ei & _). rewrite HD in Ei. injection Ei as E1 E2 E3 E4 E5.
      destruct (MID k d0 xs hs E (eq_sym E1) X Hh) as ((D1 & D2 & D3 & D4) & D5 & D6).
      rewrite Q1a, Q1b, E2, E3, E4, E5. auto.
    - destruct SP as [Ei _]. congruence. }
  destruct (Nat.eq_dec j (List.length seg)) as [->|J2].
  { assert (s = sn') by congruence. subst s. apply (form_has_device _ _ _ _ _ _ _ _ _ Fn) in HD.
    specialize (SP k). unfold split_dev in SP. destruct (dev_of k os of) as [d0|] eqn:E.
    - destruct SP as (xs & hs & X & Hh & _ & _ & _ & Eo). rewrite HD in Eo. injection Eo as E1 E2 E3 E4 E5.
      destruct (MID k d0 xs hs E (eq_sym E1) X Hh) as ((D1 & D2 & D3 & D4) & D5 & D6).
      rewrite Q2a, Q2b, E2, E3, E4, E5. auto.
    - destruct SP as [_ Eo]. congruence. }
  rewrite O in J by auto. eapply FO; [eapply nth_error_In; exact J|exact HD].
Qed.

(** Devices of other controls do not matter. *)
Lemma rows_follow c c' rows : c' <> c -> forall seg seg',
  all_chord seg -> follows dev hin c seg -> add_rows seg c' rows = (seg', Ok tt) -> follows dev hin c seg'.
Proof.
  intro NE. induction rows as [|r rows IH]; intros seg seg' AC FO H.
  - simpl in H. injection H as <-. exact FO.
  - simpl in H. destruct (nth_error seg (r_idx r)) as [s|] eqn:E; [|discriminate].
    pose proof (AC s (nth_error_In _ _ E)) as CI.
    destruct (add_subarea_decision s c' (r_x1 r) (r_x2 r) (Some (r_h1 r)) (Some (r_h2 r)) CI) as [DA _].
    pose proof (add_subarea_chord_inv s c' (r_x1 r) (r_x2 r) (Some (r_h1 r)) (Some (r_h2 r)) CI) as CI'.
    pose proof CI as (os & of & F & L).
    destruct (add_subarea s c' (r_x1 r) (r_x2 r) (Some (r_h1 r)) (Some (r_h2 r))) as [s' ot] eqn:EA.
    destruct ot as [u|]; [|discriminate]. simpl in CI'.
    assert (MA : exists k, may_add s c' k (r_x1 r) (r_x2 r) (r_h1 r) (r_h2 r)).
    { destruct (ct_type c') as [k|] eqn:Tk.
      - destruct (acceptable_dec os of k (r_x1 r) (r_x2 r) (r_h1 r) (r_h2 r)) as [A|A].
        + exists k. apply (may_add_acceptable s os of); [exact F|]. auto.
        + rewrite (add_subarea_rejects s os of c' (r_x1 r) (r_x2 r) (Some (r_h1 r)) (Some (r_h2 r))
            (r_h1 r) (r_h2 r) F eq_refl eq_refl) in EA; [discriminate|].
          intros k' Tk'. assert (k' = k) by congruence. subst. exact A.
      - rewrite (add_subarea_rejects s os of c' (r_x1 r) (r_x2 r) (Some (r_h1 r)) (Some (r_h2 r))
            (r_h1 r) (r_h2 r) F eq_refl eq_refl) in EA; [discriminate|]. intros k' Tk'. congruence. }
    destruct MA as [k MA]. destruct (DA k MA) as (s2 & Ea & HD & KEEP & QA & QB & _). simpl in HD.
    injection Ea as <- _.
    apply (IH (set_nth seg (r_idx r) s') seg'); [apply set_nth_chord; auto| |exact H].
    intros t kt y1 y2 g1 g2 I HT. apply In_set_nth in I. destruct I as [->|I]; [|eapply FO; eauto].
    assert (KN : kt <> k).
    { intros ->. destruct CI' as (os' & of' & F' & _).
      apply (form_has_device _ _ _ _ _ _ _ _ _ F') in HD. apply (form_has_device _ _ _ _ _ _ _ _ _ F') in HT.
      congruence. }
    rewrite QA, QB. eapply FO; [eapply nth_error_In; exact E|]. exact (proj1 (KEEP kt c y1 y2 g1 g2 KN) HT).
Qed.

Lemma control_follows seg a b c' x1 x2 o1 o2 seg' c :
  c' <> c -> tiles_span seg -> all_chord seg -> follows dev hin c seg ->
  add_subdivision_for_control interp seg a b c' x1 x2 o1 o2 = (seg', Ok tt) -> follows dev hin c seg'.
Proof.
  intros NE T AC FO H. unfold add_subdivision_for_control in H. cbv zeta in H.
  assert (CUT : forall q x q2 o, tiles_span q -> all_chord q -> follows dev hin c q -> add_subdivision interp q x x false = (q2, Ok o) ->
    tiles_span q2 /\ all_chord q2 /\ follows dev hin c q2).
  { intros q x q2 o Tq Aq Fq E. split; [|split].
    - pose proof (add_subdivision_tiles interp q x x false Tq) as T2. rewrite E in T2. exact T2.
    - eapply add_subdivision_chord; eauto.
    - eapply subdivision_follows; eauto. }
  assert (FIRST : exists seg1 i1, (if Qeqb a 0 then (seg, Ok (Some O)) : segment * res (option nat)
             else add_subdivision interp seg a a false) = (seg1, Ok (Some i1)) /\
             tiles_span seg1 /\ all_chord seg1 /\ follows dev hin c seg1).
  { destruct (Qeqb a 0); [exists seg, O; auto|].
    destruct (add_subdivision interp seg a a false) as [seg1 [[i1|]|]] eqn:Ec; try discriminate.
    exists seg1, i1. split; [reflexivity|]. exact (CUT _ _ _ _ T AC FO Ec). }
  destruct FIRST as (seg1 & i1 & E1 & T1 & A1 & F1). rewrite E1 in H.
  destruct (nth_error seg1 i1) as [sd1|]; [|discriminate].
  destruct (Qeqb b (eta_b sd1)); [eapply rows_follow; [| | |exact H]; auto|].
  destruct (Qltb b (eta_b sd1)).
  { destruct (add_subdivision interp seg1 b b false) as [seg2 [o|]] eqn:Ec; [|discriminate].
    destruct (CUT _ _ _ _ T1 A1 F1 Ec) as (T2 & A2 & F2). eapply rows_follow; [| | |exact H]; auto. }
  destruct (get_outer_neighbour seg1 (eta_b sd1)) as [nb|]; [|discriminate].
  destruct (nth_error seg1 nb) as [snb|]; [|discriminate].
  destruct (let? xd := _ in _) as [[rows last]|]; [|discriminate].
  destruct (nth_error seg1 last) as [sl|]; [|discriminate].
  destruct (Qltb b (eta_b sl)).
  - destruct (add_subdivision interp seg1 b b false) as [seg2 [o|]] eqn:Ec; [|discriminate].
    destruct (CUT _ _ _ _ T1 A1 F1 Ec) as (T2 & A2 & F2). eapply rows_follow; [| | |exact H]; auto.
  - eapply rows_follow; [| | |exact H]; auto.
Qed.

(** ** Placing *)

Lemma unbroken_order line seg k c x1 h1 : forall idx x2 h2, tiles_span seg ->
  unbroken line seg k c x1 h1 idx x2 h2 ->
  exists top bot st sb, hd_error idx = Some top /\ In bot idx /\ nth_error seg top = Some st /\ nth_error seg bot = Some sb /\
    (forall j s, In j idx -> nth_error seg j = Some s -> eta_b s <= eta_b st /\ eta_a sb <= eta_a s) /\
    (exists xd hd, has_device st k c xd x2 hd h2) /\
    (exists xd hd, has_device sb k c x1 xd h1 hd).
Proof.
  induction idx as [|j rest IH]; intros x2 h2 T U; [destruct U|].
  destruct U as (s & xd & hd & N & HD & U). pose proof T as [T1 _]. pose proof (T1 s (nth_error_In _ _ N)) as Ts.
  destruct rest as [|j' rest].
  - destruct U as [-> ->]. exists j, j, s, s. split; [reflexivity|]. split; [left; reflexivity|]. split; [exact N|]. split; [exact N|].
    split; [|split; eauto].
    intros i t [<-|[]] Nt. assert (t = s) by congruence. subst. lra.
  - destruct U as [(t & Nt & Et & _) U]. destruct (IH xd hd T U) as (top & bot & st & sb & Ht & Ib & Ntop & Nb & ORD & _ & HB).
    injection Ht as <-. assert (st = t) by congruence. subst st.
    exists j, bot, s, sb. split; [reflexivity|]. split; [right; exact Ib|]. split; [exact N|]. split; [exact Nb|].
    split; [|split; [eauto|exact HB]].
    pose proof (T1 t (nth_error_In _ _ Nt)) as Tt.
    destruct (ORD j' t (or_introl eq_refl) Nt) as [_ O2].
    intros i u [<-|I] Nu.
    + assert (u = s) by congruence. subst. lra.
    + destruct (ORD i u I Nu). lra.
Qed.

Lemma unbroken_follows line seg k c x1 h1 sb : forall idx x2 h2,
  unbroken line seg k c x1 h1 idx x2 h2 ->
  (forall j s y g, In j idx -> nth_error seg j = Some s -> line (eta_b s) y g -> 
     (exists t, In t seg /\ carries t c /\ eta_b s == eta_a t) -> dev (eta_b s) y /\ hin (eta_b s) g) ->
  (forall j s, In j idx -> nth_error seg j = Some s -> eta_a sb <= eta_a s) -> 
  (forall s, In s seg -> eta_a s < eta_b s) ->
  (forall s, In s seg -> carries s c -> eta_a s <= eta_a sb -> dev (eta_a s) x1 /\ hin (eta_a s) h1) ->
  (exists bot, In bot idx /\ nth_error seg bot = Some sb) ->
  (forall j s, hd_error idx = Some j -> nth_error seg j = Some s -> dev (eta_b s) x2 /\ hin (eta_b s) h2) ->
  forall j s, In j idx -> nth_error seg j = Some s -> exists y1 y2 g1 g2, has_device s k c y1 y2 g1 g2 /\
    dev (eta_a s) y1 /\ dev (eta_b s) y2 /\ hin (eta_a s) g1 /\ hin (eta_b s) g2.
Proof.
  induction idx as [|j rest IH]; intros x2 h2 U LN MIN POS BOT HB TOP i u I Nu; [destruct I|].
  destruct U as (s & xd & hd & N & HD & U).
  destruct (TOP j s eq_refl N) as [D2 G2].
  destruct rest as [|j' rest].
  - destruct U as [-> ->]. destruct I as [<-|[]]. assert (u = s) by congruence. subst u.
    exists x1, x2, h1, h2. split; [exact HD|].
    destruct HB as (bot & [<-|[]] & Nb). assert (sb = s) by congruence. subst sb.
    destruct (BOT s (nth_error_In _ _ N) (has_device_carries _ _ _ _ _ _ _ HD) (Qle_refl _)). auto.
  - destruct U as [(t & Nt & Et & Ln) U].
    destruct (LN j' t xd hd (or_intror (or_introl eq_refl)) Nt Ln) as [D1 G1].
    { exists s. split; [eapply nth_error_In; exact N|]. split; [eapply has_device_carries; exact HD|exact Et]. }
    destruct I as [<-|I].
    + assert (u = s) by congruence. subst u. exists xd, x2, hd, h2. split; [exact HD|].
      destruct CD as [CD1 _]. destruct CH as [CH1 _].
      split; [exact (CD1 _ _ _ Et D1)|]. split; [exact D2|]. split; [exact (CH1 _ _ _ Et G1)|exact G2].
    + apply (IH xd hd U) with (j := i) (s := u); auto.
      * intros j2 s2 y g I2. apply LN. right. exact I2.
      * intros j2 s2 I2. apply MIN. right. exact I2.
      * destruct HB as (bot & [<-|Ib] & Nb); [|exists bot; auto]. exfalso.
        assert (sb = s) by congruence. subst sb.
        pose proof (MIN j' t (or_intror (or_introl eq_refl)) Nt). pose proof (POS t (nth_error_In _ _ Nt)). lra.
      * intros j2 s2 E2 N2. injection E2 as <-. assert (s2 = t) by congruence. subst. auto.
Qed.

Lemma placed_follows seg k c lo a b x1 h1 x2 h2 :
  tiles_span seg -> all_chord seg -> ct_type c = Some k -> 0 <= a -> a < b -> b <= 1 -> lo == a ->
  dev a x1 -> hin a h1 -> dev b x2 -> hin b h2 ->
  placed (on_lines interp a x1 h1 b x2 h2) seg k c lo b x1 h1 x2 h2 ->
  follows dev hin c seg.
Proof.
  intros T AC Tk A0 AB B1 EL DA HA DB HB [(idx & U & CI) RNG]. pose proof T as [T1 T2].
  destruct (unbroken_order _ _ _ _ _ _ idx x2 h2 T U) as (top & bot & st & sb & Et & Ib & Nt & Nb & ORD & (xt & ht & Dt) & (xb & hb & Db)).
  assert (It : In top idx) by (destruct idx; [discriminate|]; injection Et as ->; left; reflexivity).
  pose proof (T1 st (nth_error_In _ _ Nt)) as Tst. pose proof (T1 sb (nth_error_In _ _ Nb)) as Tsb.
  assert (IN : forall s, In s seg -> carries s c -> lo <= eta_a s /\ eta_a s < b /\ eta_b s <= b).
  { intros s I C. pose proof (T1 s I) as Ts.
    assert (C0 := proj1 (RNG (eta_a s) s I (conj (Qle_refl _) (proj1 (proj2 Ts)))) C). split; [lra|]. split; [lra|].
    destruct (Qlt_le_dec b (eta_b s)) as [L|L]; [|exact L]. exfalso.
    assert (X := proj1 (RNG b s I (conj (Qlt_le_weak _ _ (proj2 C0)) L)) C). lra. }
  assert (EB : eta_b st == b).
  { destruct (IN st (nth_error_In _ _ Nt) (proj2 (CI top st Nt) It)) as (X1 & X2 & X3).
    destruct (Qlt_le_dec (eta_b st) b) as [L|L]; [|lra]. exfalso.
    destruct (T2 (eta_b st)) as (i & s & N & C & _); [lra|lra|].
    assert (CC : carries s c) by (apply (RNG (eta_b st) s (nth_error_In _ _ N) C); lra).
    apply (CI i s N) in CC. destruct (ORD i s CC N) as [O1 _]. destruct C. lra. }
  assert (EA : eta_a sb == a).
  { destruct (IN sb (nth_error_In _ _ Nb) (proj2 (CI bot sb Nb) Ib)) as (X1 & X2 & X3).
    destruct (Qlt_le_dec lo (eta_a sb)) as [L|L]; [|lra]. exfalso.
    destruct (T2 lo) as (i & s & N & C & _); [lra|lra|].
    assert (CC : carries s c) by (apply (RNG lo s (nth_error_In _ _ N) C); lra).
    apply (CI i s N) in CC. destruct (ORD i s CC N) as [_ O1]. destruct C. lra. }
  destruct CD as [CD1 CD2]. destruct CH as [CH1 CH2].
  assert (OK : forall s y1 y2 g1 g2, In s seg -> has_device s k c y1 y2 g1 g2 ->
     (0 <= y1 <= 1) /\ (0 <= y2 <= 1) /\ (0 <= g1 <= 1) /\ (0 <= g2 <= 1)).
  { intros s y1 y2 g1 g2 I HD. destruct (AC s I) as (os & of & F & L1 & L2 & _).
    apply (form_has_device _ _ _ _ _ _ _ _ _ F) in HD.
    assert (DK : dev_ok k (mkDev c y1 y2 g1 g2)) by (destruct k; simpl in HD; auto).
    destruct DK as (_ & X1 & X2 & G1 & G2). simpl in *. repeat split; lra. }
  destruct (OK st xt x2 ht h2 (nth_error_In _ _ Nt) Dt) as (_ & OX2 & _ & OH2).
  destruct (OK sb x1 xb h1 hb (nth_error_In _ _ Nb) Db) as (OX1 & _ & OH1 & _).
  intros s k' y1 y2 g1 g2 I HD.
  assert (k' = k).
  { destruct (AC s I) as (os & of & F & L1 & L2 & _).
    apply (form_has_device _ _ _ _ _ _ _ _ _ F) in HD.
    assert (DK : dev_ok k' (mkDev c y1 y2 g1 g2)) by (destruct k'; simpl in HD; auto).
    destruct DK as (TK & _). simpl in TK. congruence. }
  subst k'. pose proof I as I'. apply In_nth_error in I'. destruct I' as [j N].
  assert (J : In j idx) by (apply (CI j s N); eapply has_device_carries; exact HD).
  destruct (unbroken_follows _ _ _ _ _ _ sb idx x2 h2 U) with (j := j) (s := s) as (z1 & z2 & w1 & w2 & HD2 & R).
  - intros i t y g Ji Nti [L1 L2] (u & Iu & Cu & Eu).
    destruct (IN u Iu Cu) as (U1 & U2 & U3).
    split; [eapply CD2; [| | | | | | |exact DA|exact DB|exact L1]|eapply CH2; [| | | | | | |exact HA|exact HB|exact L2]]; lra.
  - intros i t Ji Nti. exact (proj2 (ORD i t Ji Nti)).
  - intros t It'. pose proof (T1 t It'). lra.
  - intros t It' Ct Le. destruct (IN t It' Ct) as (U1 & _). 
    assert (E : a == eta_a t) by lra. split; [exact (CD1 _ _ _ E DA)|exact (CH1 _ _ _ E HA)].
  - exists bot. auto.
  - intros i t E Nti. assert (i = top) by congruence. subst i. assert (t = st) by congruence. subst t.
    assert (E' : b == eta_b st) by lra. split; [exact (CD1 _ _ _ E' DB)|exact (CH1 _ _ _ E' HB)].
  - exact J.
  - exact N.
  - destruct (AC s I) as (os & of & F & _).
    apply (form_has_device _ _ _ _ _ _ _ _ _ F) in HD. apply (form_has_device _ _ _ _ _ _ _ _ _ F) in HD2.
    assert (X : mkDev c z1 z2 w1 w2 = mkDev c y1 y2 g1 g2) by congruence. injection X as -> -> -> ->. exact R.
Qed.

(** ** A whole session *)

Lemma accepted_app ops1 : forall seg ops2, all_accepted interp seg (ops1 ++ ops2) ->
  all_accepted interp seg ops1 /\ all_accepted interp (fold_left (step interp) ops1 seg) ops2.
Proof.
  induction ops1 as [|o ops1 IH]; intros seg ops2 H; [split; [exact I|exact H]|].
  destruct o as [a d ig|a b c x1 x2 o1 o2]; simpl in H |- *; destruct H as [H1 H2]; destruct (IH _ _ H2); auto.
Qed.

Lemma session_follows ops : forall seg c, tiles_span seg -> all_chord seg -> follows dev hin c seg ->
  all_accepted interp seg ops -> (forall o, In o ops -> ~ places o c) ->
  follows dev hin c (fold_left (step interp) ops seg).
Proof.
  induction ops as [|o ops IH]; intros seg c T AC FO A NP; [exact FO|].
  simpl. destruct o as [a d ig|a b c' x1 x2 o1 o2]; simpl in A; destruct A as [A1 A2].
  - destruct A1 as [r A1]. apply IH; auto.
    + exact (add_subdivision_tiles interp seg a d ig T).
    + simpl. destruct (add_subdivision interp seg a d ig) as [s' r'] eqn:E. simpl in *. subst. eapply add_subdivision_chord; eauto.
    + simpl. destruct (add_subdivision interp seg a d ig) as [s' r'] eqn:E. simpl in *. subst. eapply subdivision_follows; eauto.
    + intros o' I. apply NP. right. exact I.
  - apply IH; auto.
    + exact (tiles_step interp seg (OpControl a b c' x1 x2 o1 o2) T).
    + simpl. destruct (add_subdivision_for_control interp seg a b c' x1 x2 o1 o2) as [s' r'] eqn:E. simpl in *. subst.
      eapply add_control_chord; eauto.
    + simpl. destruct (add_subdivision_for_control interp seg a b c' x1 x2 o1 o2) as [s' r'] eqn:E. simpl in *. subst.
      eapply control_follows; [|exact T|exact AC|exact FO|exact E]. intro C. apply (NP _ (or_introl eq_refl)). exact C.
    + intros o' I. apply NP. right. exact I.
Qed.

Lemma run_follows ops1 a b c k x1 x2 o1 o2 ops2 :
  all_accepted interp new_segment (ops1 ++ OpControl a b c x1 x2 o1 o2 :: ops2) ->
  (forall o, In o ops2 -> ~ places o c) -> ct_type c = Some k ->
  fits (run interp ops1) a b c ->
  (forall y, line_at (run interp ops1) y -> y < a -> y + (1 # 100) <= a) ->
  dev a x1 -> hin a (default_to o1 x1) -> dev b x2 -> hin b (default_to o2 x2) ->
  follows dev hin c (run interp (ops1 ++ OpControl a b c x1 x2 o1 o2 :: ops2)).
Proof.
  intros A NP Tk FI CL D1 G1 D2 G2. destruct FI as (NC & A0 & AB & B1 & TH & TA & CE).
  destruct (accepted_app ops1 _ _ A) as [A1 A2]. simpl in A2. destruct A2 as [A2 A3].
  fold (run interp ops1) in A2, A3.
  pose proof (StripSpan.run_tiles interp ops1) as T. pose proof (run_chord_accepted interp ops1 A1) as AC.
  unfold run. rewrite fold_left_app. fold (run interp ops1). simpl.
  destruct (add_subdivision_for_control interp (run interp ops1) a b c x1 x2 o1 o2) as [l r] eqn:E. simpl in A2, A3. subst r.
  destruct (place_control interp (run interp ops1) a b c k x1 x2 o1 o2 l T AC (first0_run interp ops1) NC Tk A0 AB B1 TH TA CE E)
    as (lo & L1 & L2 & L3 & P).
  pose proof (tiles_step interp (run interp ops1) (OpControl a b c x1 x2 o1 o2) T) as Tl. simpl in Tl. rewrite E in Tl. simpl in Tl.
  assert (ACl : all_chord l) by (eapply add_control_chord; eauto).
  simpl. apply session_follows; auto.
  apply (placed_follows l k c lo a b x1 (default_to o1 x1) x2 (default_to o2 x2)); auto. lra.
Qed.
(** ** The positions that carry the control stay the same *)

Definition same_carriers (c : control) (seg seg' : segment) : Prop :=
  forall s' eta, In s' seg' -> covers s' eta -> exists s, In s seg /\ covers s eta /\ (carries s' c <-> carries s c).

Lemma same_refl c seg : same_carriers c seg seg.
Proof. intros s eta I C. exists s. tauto. Qed.

Lemma same_trans c q1 q2 q3 : same_carriers c q1 q2 -> same_carriers c q2 q3 -> same_carriers c q1 q3.
Proof.
  intros H1 H2 s eta I C. destruct (H2 s eta I C) as (t & It & Ct & E). destruct (H1 t eta It Ct) as (u & Iu & Cu & E').
  exists u. tauto.
Qed.

Lemma split_carriers ea eb eta (f : dkind -> option StripChord.dev * option StripChord.dev * option StripChord.dev) c :
  (forall k, let '(o, oi, oo) := f k in split_dev interp ea eb eta o oi oo) ->
  ((exists k d, snd (fst (f k)) = Some d /\ dv_c d = c) <-> (exists k d, fst (fst (f k)) = Some d /\ dv_c d = c)) /\
  ((exists k d, snd (f k) = Some d /\ dv_c d = c) <-> (exists k d, fst (fst (f k)) = Some d /\ dv_c d = c)).
Proof.
  intro S. split; split; intros (k & d & E & Ec); specialize (S k); destruct (f k) as [[o oi] oo] eqn:Ef; simpl in E; unfold split_dev in S.
  - destruct o as [d0|]; [|destruct S; congruence]. destruct S as (xs & hs & _ & _ & _ & _ & -> & _). injection E as <-.
    exists k, d0. rewrite Ef. auto.
  - subst o. destruct S as (xs & hs & _ & _ & _ & _ & -> & _). exists k. rewrite Ef. eexists. split; [reflexivity|exact Ec].
  - destruct o as [d0|]; [|destruct S; congruence]. destruct S as (xs & hs & _ & _ & _ & _ & _ & ->). injection E as <-.
    exists k, d0. rewrite Ef. auto.
  - subst o. destruct S as (xs & hs & _ & _ & _ & _ & _ & ->). exists k. rewrite Ef. eexists. split; [reflexivity|exact Ec].
Qed.

Lemma subdivision_carriers seg a d ig seg' o c :
  all_chord seg -> add_subdivision interp seg a d ig = (seg', Ok o) -> same_carriers c seg seg'.
Proof.
  intros AC H. destruct (add_subdivision_ok _ _ _ _ _ _ _ AC H) as [[-> _]|[_ R]]; [apply same_refl|].
  destruct R as (ip & sp & os & of & sp' & sn' & osi & ofi & oso & ofo & N & A1 & A2 & _ & _ & F & L & N' & Nn & O
    & F' & Fn & Q1 & Q2 & SPf & SPs & L' & Ln).
  unfold quad in Q1, Q2. injection Q1 as Q1a Q1b _ _. injection Q2 as Q2a Q2b _ _.
  destruct (split_carriers (eta_a sp) (eta_b sp) a (fun k => (dev_of k os of, dev_of k osi ofi, dev_of k oso ofo)) c) as [C1 C2].
  { intros []; assumption. }
  cbn [fst snd] in C1, C2. intros s eta I [B1 B2]. apply In_nth_error in I. destruct I as [j J].
  destruct (Nat.eq_dec j ip) as [->|J1].
  { assert (s = sp') by congruence. subst s. exists sp. split; [eapply nth_error_In; eauto|]. rewrite Q1a in B1. rewrite Q1b in B2.
    split; [split; lra|]. rewrite (form_carries _ _ _ c F'), (form_carries _ _ _ c F). exact C1. }
  destruct (Nat.eq_dec j (List.length seg)) as [->|J2].
  { assert (s = sn') by congruence. subst s. exists sp. split; [eapply nth_error_In; eauto|]. rewrite Q2a in B1. rewrite Q2b in B2.
    split; [split; lra|]. rewrite (form_carries _ _ _ c Fn), (form_carries _ _ _ c F). exact C2. }
  rewrite O in J by auto. exists s. split; [eapply nth_error_In; eauto|]. split; [split; assumption|reflexivity].
Qed.

Lemma rows_carriers c c' rows : c' <> c -> forall seg seg',
  all_chord seg -> add_rows seg c' rows = (seg', Ok tt) -> same_carriers c seg seg'.
Proof.
  intro NE. induction rows as [|r rows IH]; intros seg seg' AC H.
  - simpl in H. injection H as <-. apply same_refl.
  - simpl in H. destruct (nth_error seg (r_idx r)) as [s|] eqn:E; [|discriminate].
    pose proof (AC s (nth_error_In _ _ E)) as CI.
    destruct (add_subarea_decision s c' (r_x1 r) (r_x2 r) (Some (r_h1 r)) (Some (r_h2 r)) CI) as [DA _].
    pose proof (add_subarea_chord_inv s c' (r_x1 r) (r_x2 r) (Some (r_h1 r)) (Some (r_h2 r)) CI) as CI'.
    pose proof CI as (os & of & F & L).
    destruct (add_subarea s c' (r_x1 r) (r_x2 r) (Some (r_h1 r)) (Some (r_h2 r))) as [s' ot] eqn:EA.
    destruct ot as [u|]; [|discriminate]. simpl in CI'.
    assert (MA : exists k, may_add s c' k (r_x1 r) (r_x2 r) (r_h1 r) (r_h2 r)).
    { destruct (ct_type c') as [k|] eqn:Tk.
      - destruct (acceptable_dec os of k (r_x1 r) (r_x2 r) (r_h1 r) (r_h2 r)) as [A|A].
        + exists k. apply (may_add_acceptable s os of); [exact F|]. auto.
        + rewrite (add_subarea_rejects s os of c' (r_x1 r) (r_x2 r) (Some (r_h1 r)) (Some (r_h2 r))
            (r_h1 r) (r_h2 r) F eq_refl eq_refl) in EA; [discriminate|].
          intros k' Tk'. assert (k' = k) by congruence. subst. exact A.
      - rewrite (add_subarea_rejects s os of c' (r_x1 r) (r_x2 r) (Some (r_h1 r)) (Some (r_h2 r))
            (r_h1 r) (r_h2 r) F eq_refl eq_refl) in EA; [discriminate|]. intros k' Tk'. congruence. }
    destruct MA as [k MA]. destruct (DA k MA) as (s2 & Ea & HD & KEEP & QA & QB & _). simpl in HD.
    injection Ea as <- _.
    apply same_trans with (set_nth seg (r_idx r) s'); [|apply (IH _ seg'); [apply set_nth_chord; auto|exact H]].
    intros t eta I [B1 B2]. apply In_set_nth in I. destruct I as [->|I]; [|exists t; repeat split; auto].
    exists s. split; [eapply nth_error_In; exact E|]. rewrite QA in B1. rewrite QB in B2. split; [split; assumption|].
    pose proof CI' as (os' & of' & F' & _).
    assert (DEV : forall s0 o0 f0, form s0 o0 f0 -> (carries s0 c <-> exists kt y1 y2 g1 g2, has_device s0 kt c y1 y2 g1 g2)).
    { intros s0 o0 f0 F0. rewrite (form_carries _ _ _ c F0). split.
      - intros (kt & [dc y1 y2 g1 g2] & Ed & <-). exists kt, y1, y2, g1, g2. apply (form_has_device _ _ _ _ _ _ _ _ _ F0). exact Ed.
      - intros (kt & y1 & y2 & g1 & g2 & HT). apply (form_has_device _ _ _ _ _ _ _ _ _ F0) in HT. exists kt, (mkDev c y1 y2 g1 g2). auto. }
    rewrite (DEV _ _ _ F'), (DEV _ _ _ F). split; intros (kt & y1 & y2 & g1 & g2 & HT); exists kt, y1, y2, g1, g2.
    + apply (proj1 (KEEP kt c y1 y2 g1 g2 ltac:(intros ->; apply (form_has_device _ _ _ _ _ _ _ _ _ F') in HD;
        apply (form_has_device _ _ _ _ _ _ _ _ _ F') in HT; congruence))). exact HT.
    + apply (proj2 (KEEP kt c y1 y2 g1 g2 ltac:(intros ->; destruct HT as (v & Iv & _); destruct MA as (_ & ND & _); exact (ND v Iv)))). exact HT.
Qed.

Lemma control_carriers seg a b c' x1 x2 o1 o2 seg' c :
  c' <> c -> tiles_span seg -> all_chord seg ->
  add_subdivision_for_control interp seg a b c' x1 x2 o1 o2 = (seg', Ok tt) -> same_carriers c seg seg'.
Proof.
  intros NE T AC H. unfold add_subdivision_for_control in H. cbv zeta in H.
  assert (FIRST : exists seg1 i1, (if Qeqb a 0 then (seg, Ok (Some O)) : segment * res (option nat)
             else add_subdivision interp seg a a false) = (seg1, Ok (Some i1)) /\ all_chord seg1 /\ same_carriers c seg seg1).
  { destruct (Qeqb a 0); [exists seg, O; repeat split; auto; apply same_refl|].
    destruct (add_subdivision interp seg a a false) as [seg1 [[i1|]|]] eqn:Ec; try discriminate.
    exists seg1, i1. split; [reflexivity|]. split; [eapply add_subdivision_chord|eapply subdivision_carriers]; eauto. }
  destruct FIRST as (seg1 & i1 & E1 & A1 & F1). rewrite E1 in H. apply same_trans with seg1; [exact F1|].
  destruct (nth_error seg1 i1) as [sd1|]; [|discriminate].
  assert (CUT : forall seg2 o rows, add_subdivision interp seg1 b b false = (seg2, Ok o) -> add_rows seg2 c' rows = (seg', Ok tt) ->
    same_carriers c seg1 seg').
  { intros seg2 o rows Ec R. apply same_trans with seg2; [eapply subdivision_carriers; eauto|].
    eapply rows_carriers; [exact NE| |exact R]. eapply add_subdivision_chord; eauto. }
  destruct (Qeqb b (eta_b sd1)); [eapply rows_carriers; eauto|].
  destruct (Qltb b (eta_b sd1)).
  { destruct (add_subdivision interp seg1 b b false) as [seg2 [o|]] eqn:Ec; [|discriminate]. eapply CUT; eauto. }
  destruct (get_outer_neighbour seg1 (eta_b sd1)) as [nb|]; [|discriminate].
  destruct (nth_error seg1 nb) as [snb|]; [|discriminate].
  destruct (let? xd := _ in _) as [[rows last]|]; [|discriminate].
  destruct (nth_error seg1 last) as [sl|]; [|discriminate].
  destruct (Qltb b (eta_b sl)).
  - destruct (add_subdivision interp seg1 b b false) as [seg2 [o|]] eqn:Ec; [|discriminate]. eapply CUT; eauto.
  - eapply rows_carriers; eauto.
Qed.

Lemma session_carriers ops : forall seg c, tiles_span seg -> all_chord seg ->
  all_accepted interp seg ops -> (forall o, In o ops -> ~ places o c) ->
  same_carriers c seg (fold_left (step interp) ops seg).
Proof.
  induction ops as [|o ops IH]; intros seg c T AC A NP; [apply same_refl|].
  simpl. destruct o as [a d ig|a b c' x1 x2 o1 o2]; simpl in A; destruct A as [A1 A2].
  - destruct A1 as [r A1]. simpl. destruct (add_subdivision interp seg a d ig) as [s' r'] eqn:E. simpl in *. subst.
    apply same_trans with s'; [eapply subdivision_carriers; eauto|].
    pose proof (add_subdivision_tiles interp seg a d ig T) as T2. rewrite E in T2.
    apply IH; [exact T2|eapply add_subdivision_chord; eauto|exact A2|intros o' I; apply NP; right; exact I].
  - simpl. pose proof (tiles_step interp seg (OpControl a b c' x1 x2 o1 o2) T) as T2. simpl in T2.
    destruct (add_subdivision_for_control interp seg a b c' x1 x2 o1 o2) as [s' r'] eqn:E. simpl in *. subst.
    apply same_trans with s'.
    + eapply control_carriers; [|exact T|exact AC|exact E]. intro C. apply (NP _ (or_introl eq_refl)). exact C.
    + apply IH; [exact T2|eapply add_control_chord; eauto|exact A2|intros o' I; apply NP; right; exact I].
Qed.

Lemma run_carriers ops1 a b c k x1 x2 o1 o2 ops2 :
  all_accepted interp new_segment (ops1 ++ OpControl a b c x1 x2 o1 o2 :: ops2) ->
  (forall o, In o ops2 -> ~ places o c) -> ct_type c = Some k ->
  fits (run interp ops1) a b c ->
  (forall y, line_at (run interp ops1) y -> y < a -> y + (1 # 100) <= a) ->
  forall s eta, In s (run interp (ops1 ++ OpControl a b c x1 x2 o1 o2 :: ops2)) -> covers s eta -> (carries s c <-> a <= eta /\ eta < b).
Proof.
  intros A NP Tk FI CL. destruct FI as (NC & A0 & AB & B1 & TH & TA & CE).
  destruct (accepted_app ops1 _ _ A) as [A1 A2]. simpl in A2. destruct A2 as [A2 A3].
  fold (run interp ops1) in A2, A3.
  pose proof (StripSpan.run_tiles interp ops1) as T. pose proof (run_chord_accepted interp ops1 A1) as AC.
  unfold run. rewrite fold_left_app. fold (run interp ops1). simpl.
  destruct (add_subdivision_for_control interp (run interp ops1) a b c x1 x2 o1 o2) as [l r] eqn:E. simpl in A2, A3. subst r.
  destruct (place_control interp (run interp ops1) a b c k x1 x2 o1 o2 l T AC (first0_run interp ops1) NC Tk A0 AB B1 TH TA CE E)
    as (lo & L1 & L2 & L3 & _ & P).
  pose proof (tiles_step interp (run interp ops1) (OpControl a b c x1 x2 o1 o2) T) as Tl. simpl in Tl. rewrite E in Tl. simpl in Tl.
  assert (ACl : all_chord l) by (eapply add_control_chord; eauto).
  simpl. intros s eta I C.
  destruct (session_carriers ops2 l c Tl ACl A3 NP s eta I C) as (s0 & I0 & C0 & E0).
  rewrite E0, (P eta s0 I0 C0). specialize (L3 CL). lra.
Qed.
End Line.
