(** Placing a control over several strips (property C07). *)
From Coq Require Import List String ZArith QArith Bool Arith Lia Lqa Permutation.
From Verif Require Import PyBase PyFacts StripModel StripSpec StripSpan StripChord StripRun.
Import ListNotations.
Open Scope Q_scope.

(** ** Neighbours *)

Lemma outer_neighbour_spec seg i eta bd bi rd ri :
  outer_neighbour_from i seg eta (bd, bi) = (rd, ri) ->
  rd <= bd /\
  (forall u, In u seg -> 0 <= eta - eta_a u -> rd <= eta - eta_a u) /\
  ((ri = bi /\ rd = bd) \/
   exists j t, ri = Some (i + j)%nat /\ nth_error seg j = Some t /\ rd = eta - eta_a t /\
               0 <= eta - eta_a t).
Proof.
  revert i bd bi. induction seg as [|s seg IH]; intros i bd bi H; simpl in H.
  - injection H as <- <-. split; [lra|]. split; [intros u []|]. left; auto.
  - destruct (Qltb (eta - eta_a s) bd && Qleb 0 (eta - eta_a s)) eqn:E.
    + qbool. apply IH in H. destruct H as (L & A & O). split; [lra|]. split.
      * intros u [<-|I] P; [exact L|auto].
      * right. destruct O as [[-> ->]|(j & t & -> & N & R & P)].
        -- exists O, s. rewrite Nat.add_0_r. auto.
        -- exists (S j), t. split; [f_equal; lia|]. auto.
    + apply IH in H. destruct H as (L & A & O). split; [exact L|]. split.
      * intros u [<-|I] P; [|auto]. apply andb_false_iff in E. destruct E as [E|E]; qbool; lra.
      * destruct O as [O|(j & t & -> & N & R & P)]; [left; exact O|right].
        exists (S j), t. split; [f_equal; lia|]. auto.
Qed.

Lemma adjacent_exists seg i s :
  tiles_span seg -> nth_error seg i = Some s -> eta_b s < 1 ->
  exists j t, nth_error seg j = Some t /\ eta_a t == eta_b s.
Proof.
  intros T N B. pose proof T as [T1 T2]. pose proof (T1 s (nth_error_In _ _ N)) as Ts.
  destruct (T2 (eta_b s)) as (j & t & Nj & [C1 C2] & _); [lra|exact B|].
  exists j, t. split; [exact Nj|].
  destruct (Qlt_le_dec (eta_a t) (eta_b s)) as [L|L]; [|lra].
  exfalso. assert (i = j).
  { destruct (Qlt_le_dec (eta_a t) (eta_a s)).
    - apply (covers_unique seg (eta_a s) i j s t); auto; split; lra.
    - apply (covers_unique seg (eta_a t) i j s t); auto; split; lra. }
  subst j. assert (s = t) by congruence. subst t. lra.
Qed.

Lemma neighbour_adjacent seg i s a' nb :
  tiles_span seg -> nth_error seg i = Some s -> eta_b s < 1 -> a' <= eta_a s ->
  (forall u, In u seg -> a' <= eta_a u -> eta_a u + (1 # 1000) < eta_b u) ->
  get_outer_neighbour seg (eta_b s) = Some nb ->
  exists t, nth_error seg nb = Some t /\ eta_a t == eta_b s.
Proof.
  intros T N B A Thin G. unfold get_outer_neighbour in G.
  destruct (outer_neighbour_from 0 seg (eta_b s + MIN_ETA_LIMIT / 10) (1, None)) as [rd ri] eqn:E.
  simpl in G. subst ri. apply outer_neighbour_spec in E. destruct E as (_ & M & [[C _]|(j & t & Ej & Nt & R & P)]);
    [discriminate|]. simpl in Ej. injection Ej as ->. exists t. split; [exact Nt|].
  assert (K : MIN_ETA_LIMIT / 10 == 1 # 1000) by reflexivity.
  destruct (adjacent_exists seg i s T N B) as (ju & u & Nu & Eu).
  pose proof T as [T1 _]. pose proof (T1 s (nth_error_In _ _ N)) as Ts.
  pose proof (T1 u (nth_error_In _ _ Nu)) as Tu. pose proof (T1 t (nth_error_In _ _ Nt)) as Tt.
  assert (Lu : eta_a t >= eta_a u).
  { assert (H := M u (nth_error_In _ _ Nu)). rewrite R in H.
    assert (0 <= eta_b s + MIN_ETA_LIMIT / 10 - eta_a u) as H0 by (rewrite K; lra).
    specialize (H H0). lra. }
  rewrite K in P.
  pose proof (Thin u (nth_error_In _ _ Nu)) as Th.
  assert (TH : eta_a u + (1 # 1000) < eta_b u) by (apply Th; lra).
  assert (ju = j).
  { apply (covers_unique seg (eta_a t) ju j u t); auto; split; lra. }
  subst ju. assert (u = t) by congruence. subst u. exact Eu.
Qed.

(** ** Rows of a control, outermost first *)

Section Chain.
Variables (line : Q -> Q -> Q -> Prop) (seg : segment) (i1 : nat) (x1 h1 : Q).

Inductive chain : list row -> Q -> Q -> Prop :=
| chain_one x2 h2 : chain [mkRow i1 x1 x2 h1 h2] x2 h2
| chain_cons j xa ha xd hd rs nb s t x2 h2 :
    chain (mkRow j xa xd ha hd :: rs) xd hd ->
    nth_error seg j = Some s -> nth_error seg nb = Some t -> eta_a t == eta_b s ->
    line (eta_b s) xd hd ->
    chain (mkRow nb xd x2 hd h2 :: mkRow j xa xd ha hd :: rs) x2 h2.

Lemma chain_top rows x2 h2 : chain rows x2 h2 ->
  exists j xa ha rs, rows = mkRow j xa x2 ha h2 :: rs.
Proof. intro H. destruct H; eauto 8. Qed.

Lemma chain_retarget j xa ha x h rs x' h' :
  chain (mkRow j xa x ha h :: rs) x h -> chain (mkRow j xa x' ha h' :: rs) x' h'.
Proof. intro H. inversion H; subst; econstructor; eauto. Qed.

Lemma chain_push rows x2 h2 r rs nb xd hd s t x2' h2' :
  chain rows x2 h2 -> rows = r :: rs ->
  nth_error seg (r_idx r) = Some s -> nth_error seg nb = Some t -> eta_a t == eta_b s ->
  line (eta_b s) xd hd ->
  chain (push_row rows nb xd hd x2' h2') x2' h2'.
Proof.
  intros H -> N Nb E LN. destruct (chain_top _ _ _ H) as (j & xa & ha & rs' & Er).
  injection Er as -> ->. simpl in *. apply chain_cons with (s := s) (t := t); auto.
  eapply chain_retarget. exact H.
Qed.

Lemma chain_range rows x2 h2 sd1 :
  tiles_span seg -> nth_error seg i1 = Some sd1 -> chain rows x2 h2 ->
  exists r rs top, rows = r :: rs /\ nth_error seg (r_idx r) = Some top /\
    eta_a sd1 <= eta_a top /\
    (forall j s, nth_error seg j = Some s ->
       (In j (map r_idx rows) <-> eta_a sd1 <= eta_a s /\ eta_b s <= eta_b top)) /\
    NoDup (map r_idx rows) /\
    (forall j, In j (map r_idx rows) -> exists s, nth_error seg j = Some s).
Proof.
  intros T N1 H. pose proof T as [T1 _].
  induction H as [x2 h2|j xa ha xd hd rs nb s t x2 h2 H IH Nj Nb E LN].
  - exists (mkRow i1 x1 x2 h1 h2), [], sd1. split; [reflexivity|]. simpl. split; [exact N1|].
    split; [lra|]. split; [|split].
    + intros j s Nj. pose proof (T1 s (nth_error_In _ _ Nj)). pose proof (T1 sd1 (nth_error_In _ _ N1)).
      split.
      * intros [<-|[]]. assert (s = sd1) by congruence. subst. lra.
      * intros [A B]. left. apply (covers_unique seg (eta_a s) i1 j sd1 s); auto; split; lra.
    + constructor; [intros []|constructor].
    + intros j [<-|[]]. eauto.
  - destruct IH as (r & rs0 & top & Er & Nt & At & R & ND & V).
    injection Er as <- <-. simpl in Nt. assert (top = s) by congruence. subst top.
    pose proof (T1 s (nth_error_In _ _ Nj)) as Ts. pose proof (T1 t (nth_error_In _ _ Nb)) as Tt.
    eexists _, _, t. split; [reflexivity|]. simpl. split; [exact Nb|]. split; [lra|].
    split; [|split].
    + intros j' s' Nj'. pose proof (T1 s' (nth_error_In _ _ Nj')) as Ts'.
      specialize (R j' s' Nj'). simpl in R. split.
      * intros [<-|I].
        -- assert (s' = t) by congruence. subst s'. lra.
        -- apply R in I. lra.
      * intros [A B]. destruct (Qlt_le_dec (eta_b s) (eta_b s')) as [L|L].
        -- left. destruct (Qlt_le_dec (eta_a s') (eta_a t)).
           ++ apply (covers_unique seg (eta_a t) nb j' t s'); auto; split; lra.
           ++ apply (covers_unique seg (eta_a s') nb j' t s'); auto; split; lra.
        -- right. apply R. auto.
    + constructor; [|exact ND]. intro I.
      change (In nb (map r_idx (mkRow j xa xd ha hd :: rs))) in I.
      apply (R nb t Nb) in I. lra.
    + intros j' [<-|I]; [eauto|]. apply V. exact I.
Qed.

End Chain.

Lemma chain_transfer line seg seg2 i1 x1 h1 rows x2 h2 :
  chain line seg i1 x1 h1 rows x2 h2 ->
  forall last rs r, rows = r :: rs -> r_idx r = last -> ~ In last (map r_idx rs) ->
  (forall j s, j <> last -> nth_error seg j = Some s ->
     exists s', nth_error seg2 j = Some s' /\ eta_a s' = eta_a s /\ eta_b s' = eta_b s) ->
  (forall s, nth_error seg last = Some s ->
     exists s', nth_error seg2 last = Some s' /\ eta_a s' = eta_a s) ->
  chain line seg2 i1 x1 h1 rows x2 h2.
Proof.
  intro H.
  assert (GEN : forall (ok : nat -> Prop),
    (forall j s, nth_error seg j = Some s -> ok j ->
       exists s', nth_error seg2 j = Some s' /\ eta_a s' = eta_a s /\ eta_b s' = eta_b s) ->
    (forall r rs, rows = r :: rs ->
       (forall s, nth_error seg (r_idx r) = Some s ->
          exists s', nth_error seg2 (r_idx r) = Some s' /\ eta_a s' = eta_a s) ->
       (forall r', In r' rs -> ok (r_idx r')) -> chain line seg2 i1 x1 h1 rows x2 h2)).
  { intros ok OK. induction H as [x2 h2|j xa ha xd hd rs nb s t x2 h2 H IH Nj Nb E LN];
      intros r rs0 Er TOP REST.
    - constructor.
    - injection Er as <- <-. simpl in TOP.
      destruct (OK j s Nj (REST (mkRow j xa xd ha hd) (or_introl eq_refl))) as (s' & Ns' & A1 & B1).
      destruct (TOP t Nb) as (t' & Nt' & A2).
      apply chain_cons with (s := s') (t := t'); auto; [|rewrite A2, B1; exact E|rewrite B1; exact LN].
      apply (IH (mkRow j xa xd ha hd) rs eq_refl).
      + simpl. intros s0 N0. assert (s0 = s) by congruence. subst. eauto.
      + intros r' I. apply REST. right. exact I. }
  intros last rs r Er El NI OTH TOP.
  apply (GEN (fun j => j <> last)) with (r := r) (rs := rs); auto.
  - intros s N. rewrite El in *. auto.
  - intros r' I C. apply NI. rewrite <- C. apply in_map. exact I.
Qed.

(** ** Effect of [add_rows] *)

Lemma add_rows_ok c k rows : ct_type c = Some k -> forall seg seg',
  all_chord seg -> add_rows seg c rows = (seg', Ok tt) ->
  map quad seg' = map quad seg /\
  (forall j s k' c' y1 y2 g1 g2, nth_error seg j = Some s -> has_device s k' c' y1 y2 g1 g2 ->
     exists s', nth_error seg' j = Some s' /\ has_device s' k' c' y1 y2 g1 g2) /\
  (forall r, In r rows -> exists s', nth_error seg' (r_idx r) = Some s' /\
     has_device s' k c (r_x1 r) (r_x2 r) (r_h1 r) (r_h2 r)) /\
  (forall j, ~ In j (map r_idx rows) -> nth_error seg' j = nth_error seg j).
Proof.
  intro Tk. induction rows as [|r rows IH]; intros seg seg' AC H.
  - simpl in H. injection H as <-. repeat split; eauto. intros r [].
  - simpl in H. destruct (nth_error seg (r_idx r)) as [s|] eqn:E; [|discriminate].
    pose proof (AC s (nth_error_In _ _ E)) as CI.
    destruct (add_subarea_decision s c (r_x1 r) (r_x2 r) (Some (r_h1 r)) (Some (r_h2 r)) CI) as [DA DR].
    pose proof (add_subarea_chord_inv s c (r_x1 r) (r_x2 r) (Some (r_h1 r)) (Some (r_h2 r)) CI) as CI'.
    pose proof (add_subarea_quad s c (r_x1 r) (r_x2 r) (Some (r_h1 r)) (Some (r_h2 r))) as Qs.
    pose proof CI as (os & of & F & L).
    assert (MA : may_add s c k (r_x1 r) (r_x2 r) (r_h1 r) (r_h2 r)).
    { apply (may_add_acceptable s os of); [exact F|]. split; [exact Tk|].
      destruct (acceptable_dec os of k (r_x1 r) (r_x2 r) (r_h1 r) (r_h2 r)) as [A|A]; [exact A|].
      exfalso. rewrite (add_subarea_rejects s os of c (r_x1 r) (r_x2 r) (Some (r_h1 r)) (Some (r_h2 r))
        (r_h1 r) (r_h2 r) F eq_refl eq_refl) in H;
        [discriminate|]. intros k' Tk'. assert (k' = k) by congruence. subst. exact A. }
    destruct (DA k MA) as (s' & Ea & HD & KEEP & _). simpl in HD.
    rewrite Ea in H, CI', Qs. simpl in CI', Qs.
    assert (AC' : all_chord (set_nth seg (r_idx r) s')) by (apply set_nth_chord; auto).
    destruct (IH _ _ AC' H) as (Q & P1 & P2 & P3).
    pose proof (nth_error_lt _ _ _ E) as Lt.
    assert (P1' : forall j s0 k' c' y1 y2 g1 g2, nth_error seg j = Some s0 -> has_device s0 k' c' y1 y2 g1 g2 ->
      exists s1, nth_error (set_nth seg (r_idx r) s') j = Some s1 /\ has_device s1 k' c' y1 y2 g1 g2).
    { intros j s0 k' c' y1 y2 g1 g2 Nj HD0.
      destruct (Nat.eq_dec j (r_idx r)) as [->|NE].
      - rewrite nth_error_set_nth_same by exact Lt. exists s'. split; [reflexivity|].
        assert (s0 = s) by congruence. subst s0.
        apply KEEP; [|exact HD0]. intro C. subst k'.
        destruct MA as (_ & ND & _). destruct HD0 as (v & I & _). exact (ND v I).
      - rewrite nth_error_set_nth_other by auto. eauto. }
    split; [rewrite Q; apply set_nth_quad with s; auto|]. split; [|split].
    + intros j s0 k' c' y1 y2 g1 g2 Nj HD0.
      destruct (P1' _ _ _ _ _ _ _ _ Nj HD0) as (s1 & N1 & HD1). eapply P1; eauto.
    + intros r' [<-|I]; [|auto]. apply (P1 (r_idx r) s').
      * apply nth_error_set_nth_same. exact Lt.
      * exact HD.
    + intros j NI. rewrite P3 by (intro C; apply NI; right; exact C).
      apply nth_error_set_nth_other. intro C. apply NI. left. exact C.
Qed.

(** Devices after the rows were added, as an unbroken line. *)
Lemma chain_unbroken line seg seg' i1 x1 h1 rows x2 h2 c k :
  chain line seg i1 x1 h1 rows x2 h2 ->
  map quad seg' = map quad seg ->
  (forall r, In r rows -> exists s', nth_error seg' (r_idx r) = Some s' /\
     has_device s' k c (r_x1 r) (r_x2 r) (r_h1 r) (r_h2 r)) ->
  unbroken line seg' k c x1 h1 (map r_idx rows) x2 h2.
Proof.
  intros H Q. 
  assert (EQ : forall j s s', nth_error seg j = Some s -> nth_error seg' j = Some s' ->
            eta_a s' = eta_a s /\ eta_b s' = eta_b s).
  { intros j s s' N N'. apply (map_nth_error quad) in N. apply (map_nth_error quad) in N'.
    rewrite Q in N'. unfold quad in *. split; congruence. }
  induction H as [x2 h2|j xa ha xd hd rs nb s t x2 h2 H IH Nj Nb E LN]; intro D.
  - destruct (D _ (or_introl eq_refl)) as (s' & N & HD). simpl in *. exists s', x1, h1. auto.
  - destruct (D _ (or_introl eq_refl)) as (t' & Nt & HD).
    destruct (D (mkRow j xa xd ha hd) (or_intror (or_introl eq_refl))) as (s' & Ns & _).
    simpl in HD, Nt, Ns. destruct (EQ _ _ _ Nb Nt) as [E1 _]. destruct (EQ _ _ _ Nj Ns) as [_ E2].
    exists t', xd, hd. split; [exact Nt|]. split; [exact HD|]. simpl.
    split; [exists s'; split; [exact Ns|]; rewrite E1, E2; split; [rewrite E; reflexivity|exact LN]|].
    apply IH. intros r I. apply D. right. exact I.
Qed.

(** ** The loop *)

Section Loop.
Variable interp : Q * Q -> Q * Q -> Q -> res Q.

Lemma control_loop_chain seg i1 sd1 etaA b x1 h1 x2 h2 :
  let line := on_lines interp etaA x1 h1 b x2 h2 in
  tiles_span seg -> nth_error seg i1 = Some sd1 -> b <= 1 ->
  (forall u, In u seg -> eta_a sd1 <= eta_a u -> eta_a u + (1 # 1000) < eta_b u) ->
  forall k rows cur s rows' last,
  chain line seg i1 x1 h1 rows x2 h2 ->
  (exists r rs, rows = r :: rs /\ r_idx r = cur) ->
  nth_error seg cur = Some s -> eta_a s < b -> eta_a sd1 <= eta_a s ->
  control_loop interp seg etaA b x1 x2 h1 h2 k rows cur (eta_b s) = Ok (rows', last) ->
  chain line seg i1 x1 h1 rows' x2 h2 /\ (exists r rs, rows' = r :: rs /\ r_idx r = last) /\
  exists sl, nth_error seg last = Some sl /\ eta_a sl < b /\ b <= eta_b sl.
Proof.
  intros line T N1 B1 Thin. pose proof T as [T1 _].
  assert (STEP : forall k rows cur s rows' last,
    (forall rows' nb t xd hd,
       nth_error seg nb = Some t -> eta_a t == eta_b s ->
       chain line seg i1 x1 h1 (push_row rows nb xd hd x2 h2) x2 h2 ->
       (match k with
        | O => Err RuntimeError
        | S k' => control_loop interp seg etaA b x1 x2 h1 h2 k' (push_row rows nb xd hd x2 h2) nb (eta_b t)
        end) = Ok (rows', last) -> eta_b s < b ->
       chain line seg i1 x1 h1 rows' x2 h2 /\ (exists r rs, rows' = r :: rs /\ r_idx r = last) /\
       exists sl, nth_error seg last = Some sl /\ eta_a sl < b /\ b <= eta_b sl) ->
    chain line seg i1 x1 h1 rows x2 h2 ->
    (exists r rs, rows = r :: rs /\ r_idx r = cur) ->
    nth_error seg cur = Some s -> eta_a s < b -> eta_a sd1 <= eta_a s ->
    control_loop interp seg etaA b x1 x2 h1 h2 k rows cur (eta_b s) = Ok (rows', last) ->
    chain line seg i1 x1 h1 rows' x2 h2 /\ (exists r rs, rows' = r :: rs /\ r_idx r = last) /\
    exists sl, nth_error seg last = Some sl /\ eta_a sl < b /\ b <= eta_b sl).
  { intros k rows cur s rows' last REC CH TOP N Ab A1 H.
    assert (H' : (if Qltb (eta_b s) b then
        match get_outer_neighbour seg (eta_b s) with
        | None => Err AttributeError
        | Some nb =>
          match nth_error seg nb, nth_error seg cur with
          | Some snb, Some slast =>
            let? xd := interp (etaA, x1) (b, x2) (eta_b slast) in
            let? hd := interp (etaA, h1) (b, h2) (eta_b slast) in
            match k with
            | O => Err RuntimeError
            | S k' => control_loop interp seg etaA b x1 x2 h1 h2 k' (push_row rows nb xd hd x2 h2) nb (eta_b snb)
            end
          | _, _ => Err KeyError
          end
        end
      else Ok (rows, cur)) = Ok (rows', last)).
    { destruct k; exact H. }
    clear H. destruct (Qltb (eta_b s) b) eqn:E.
    - qbool. destruct (get_outer_neighbour seg (eta_b s)) as [nb|] eqn:G; [|discriminate].
      destruct (neighbour_adjacent seg cur s (eta_a sd1) nb T N) as (t & Nt & Et); auto; [lra|].
      rewrite Nt, N in H'.
      destruct (interp (etaA, x1) (b, x2) (eta_b s)) as [xd|] eqn:LX; [|discriminate]. simpl in H'.
      destruct (interp (etaA, h1) (b, h2) (eta_b s)) as [hd|] eqn:LH; [|discriminate]. simpl in H'.
      destruct TOP as (r & rs & Er & Ei).
      apply (REC rows' nb t xd hd Nt Et); auto.
      apply (chain_push line seg i1 x1 h1 rows x2 h2 r rs nb xd hd s t); auto; [rewrite Ei; exact N|unfold line, on_lines; split; assumption].
    - qbool. injection H' as <- <-. split; [exact CH|]. split; [exact TOP|]. exists s. auto. }
  induction k as [|k IH]; intros rows cur s rows' last CH TOP N Ab A1 H.
  - apply (STEP O rows cur s rows' last); auto. intros; discriminate.
  - apply (STEP (S k) rows cur s rows' last); auto.
    intros rows2 nb t xd hd Nt Et CH2 H2 L.
    pose proof (T1 s (nth_error_In _ _ N)) as Ts.
    apply (IH _ nb t _ _ CH2) with (5 := H2); auto; try lra.
    destruct TOP as (r & rs & -> & Ei). simpl. eauto.
Qed.

(** ** Main lemma: on a segment where the control starts at strip [i1] *)

Definition no_carry (seg : segment) (c : control) : Prop := forall s, In s seg -> ~ carries s c.

Lemma split_dev_carry ea eb eta o oi oo c :
  split_dev interp ea eb eta o oi oo ->
  (forall d, o = Some d -> dv_c d <> c) ->
  (forall d, oi = Some d -> dv_c d <> c) /\ (forall d, oo = Some d -> dv_c d <> c).
Proof.
  unfold split_dev. destruct o as [d|].
  - intros (xs & hs & _ & _ & _ & _ & -> & ->) H. split; intros d' E; injection E as <-; simpl;
      apply H; reflexivity.
  - intros [-> ->] _. split; discriminate.
Qed.

Lemma add_subdivision_no_carry seg a d ig seg' o c :
  all_chord seg -> no_carry seg c -> add_subdivision interp seg a d ig = (seg', Ok o) ->
  no_carry seg' c.
Proof.
  intros AC NC H. destruct (add_subdivision_ok _ _ _ _ _ _ _ AC H) as [[-> _]|[_ R]]; [exact NC|].
  destruct R as (ip & sp & os & of & sp' & sn' & osi & ofi & oso & ofo & N & _ & _ & _ & _ & F & L & N' & Nn & O
    & F' & Fn & _ & _ & SPf & SPs & L' & Ln).
  assert (NCp : forall k d0, dev_of k os of = Some d0 -> dv_c d0 <> c).
  { intros k d0 E C. apply (NC sp (nth_error_In _ _ N)). apply (form_carries sp os of); [exact F|]. eauto. }
  destruct (split_dev_carry _ _ _ _ _ _ c SPf (NCp Flap)) as [C1 C2].
  destruct (split_dev_carry _ _ _ _ _ _ c SPs (NCp Slat)) as [C3 C4].
  intros s I C. apply In_nth_error in I. destruct I as [j J].
  destruct (Nat.eq_dec j ip) as [->|J1].
  { assert (s = sp') by congruence. subst. apply (form_carries sp' osi ofi) in C; [|exact F'].
    destruct C as ([|] & d0 & E & EC); simpl in E; [eapply C3|eapply C1]; eauto. }
  destruct (Nat.eq_dec j (List.length seg)) as [->|J2].
  { assert (s = sn') by congruence. subst. apply (form_carries sn' oso ofo) in C; [|exact Fn].
    destruct C as ([|] & d0 & E & EC); simpl in E; [eapply C4|eapply C2]; eauto. }
  rewrite O in J by auto. apply (NC s); [eapply nth_error_In; eauto|exact C].
Qed.

Lemma has_device_carries s k c x1 x2 h1 h2 : has_device s k c x1 x2 h1 h2 -> carries s c.
Proof. intros (v & I & C & _). exists k, v. auto. Qed.

(** Adding the rows of a chain: the strips that carry the control are the listed ones. *)
Lemma finish line seg seg' c k i1 x1 h1 rows x2 h2 order :
  ct_type c = Some k -> all_chord seg -> no_carry seg c ->
  chain line seg i1 x1 h1 rows x2 h2 ->
  (forall r, In r order <-> In r rows) ->
  add_rows seg c order = (seg', Ok tt) ->
  unbroken line seg' k c x1 h1 (map r_idx rows) x2 h2 /\
  (forall j s, nth_error seg' j = Some s -> (carries s c <-> In j (map r_idx rows))) /\
  map quad seg' = map quad seg.
Proof.
  intros Tk AC NC CH ORD H.
  destruct (add_rows_ok c k order Tk seg seg' AC H) as (Q & P1 & P2 & P3).
  assert (D : forall r, In r rows -> exists s', nth_error seg' (r_idx r) = Some s' /\
     has_device s' k c (r_x1 r) (r_x2 r) (r_h1 r) (r_h2 r)).
  { intros r I. apply P2. apply ORD. exact I. }
  assert (IDX : forall j, In j (map r_idx order) <-> In j (map r_idx rows)).
  { intro j. rewrite !in_map_iff. split; intros (r & E & I); exists r; split; auto; apply ORD; exact I. }
  split; [eapply chain_unbroken; eauto|]. split; [|exact Q].
  intros j s N. split.
  - intro C. destruct (in_dec Nat.eq_dec j (map r_idx order)) as [I|I]; [apply IDX; exact I|].
    exfalso. rewrite P3 in N by exact I. apply (NC s); [eapply nth_error_In; eauto|exact C].
  - intro I. apply in_map_iff in I. destruct I as (r & E & I). destruct (D r I) as (s' & N' & HD).
    rewrite E in N'. assert (s' = s) by congruence. subst. eapply has_device_carries; eauto.
Qed.

(** From index range to positions. *)
Lemma carries_range (seg : segment) c lo hi :
  tiles_span seg ->
  (exists s, In s seg /\ eta_a s == lo) ->
  (hi == 1 \/ exists s, In s seg /\ eta_a s == hi) ->
  (forall s, In s seg -> (carries s c <-> lo <= eta_a s /\ eta_b s <= hi)) ->
  forall eta s, In s seg -> covers s eta -> (carries s c <-> lo <= eta /\ eta < hi).
Proof.
  intros T (sl & Il & El) HI R eta s I [C1 C2]. rewrite (R s I). pose proof T as [T1 _].
  pose proof (T1 s I) as Ts. split; [lra|].
  intros [A B]. apply In_nth_error in I. destruct I as [i Ni].
  apply In_nth_error in Il. destruct Il as [il Nl].
  pose proof (T1 sl (nth_error_In _ _ Nl)) as Tl.
  split.
  - destruct (Qlt_le_dec (eta_a s) lo) as [L|L]; [|exact L]. exfalso.
    assert (i = il) by (apply (covers_unique seg lo i il s sl); auto; split; lra).
    subst. assert (s = sl) by congruence. subst. lra.
  - destruct HI as [HI|(sh & Ih & Eh)]; [lra|].
    apply In_nth_error in Ih. destruct Ih as [ih Nh].
    pose proof (T1 sh (nth_error_In _ _ Nh)) as Th.
    destruct (Qlt_le_dec hi (eta_b s)) as [L|L]; [|exact L]. exfalso.
    assert (i = ih) by (apply (covers_unique seg hi i ih s sh); auto; split; lra).
    subst. assert (s = sh) by congruence. subst. lra.
Qed.

(** The cut at the outer edge [b] inside strip [last] really happens. *)
Lemma cut_outer seg last sl b seg2 o :
  tiles_span seg -> all_chord seg -> clear_edge seg b ->
  nth_error seg last = Some sl -> eta_a sl < b -> b < eta_b sl ->
  add_subdivision interp seg b b false = (seg2, Ok o) ->
  exists sl' sn',
    nth_error seg2 last = Some sl' /\ eta_a sl' = eta_a sl /\ eta_b sl' = b /\
    nth_error seg2 (List.length seg) = Some sn' /\ eta_a sn' = b /\ eta_b sn' = eta_b sl /\
    (forall j, j <> last -> j <> List.length seg -> nth_error seg2 j = nth_error seg j).
Proof.
  intros T AC CE N A B H. pose proof T as [T1 _]. pose proof (T1 sl (nth_error_In _ _ N)) as Tl.
  destruct (add_subdivision_ok _ _ _ _ _ _ _ AC H) as [[-> [(_ & IG & _)|(i & s & E & Ns & C & L & P0 & P1)]]|[_ R]].
  - discriminate IG.
  - exfalso. assert (i = last).
    { apply (covers_unique seg b i last s sl); auto. split; lra. }
    subst i. assert (s = sl) by congruence. subst s.
    destruct CE as [CE|[(u & Iu & Eu)|CE]]; [lra| |].
    + apply In_nth_error in Iu. destruct Iu as [ju Nu].
      pose proof (T1 u (nth_error_In _ _ Nu)) as Tu.
      assert (ju = last) by (apply (covers_unique seg b ju last u sl); auto; split; lra).
      subst ju. assert (u = sl) by congruence. subst u. lra.
    + assert (eta_a sl + (1 # 100) <= b); [|lra].
      apply CE; [|lra]. exists sl. split; [eapply nth_error_In; eauto|reflexivity].
  - destruct R as (ip & sp & os & of & sp' & sn' & osi & ofi & oso & ofo & Np & Ca & Cb & _ & _ & _ & _ & N' & Nn & O
      & _ & _ & Q1 & Q2 & _).
    assert (ip = last).
    { apply (covers_unique seg b ip last sp sl); auto; split; lra. }
    subst ip. assert (sp = sl) by congruence. subst sp.
    exists sp', sn'. unfold quad in Q1, Q2.
    split; [exact N'|]. split; [congruence|]. split; [congruence|]. split; [exact Nn|].
    split; [congruence|]. split; [congruence|]. exact O.
Qed.

(** [first0]: the strip with index 0 starts at the root. *)
Definition first0 (seg : segment) : Prop := exists s, nth_error seg 0 = Some s /\ eta_a s == 0.

Lemma add_subdivision_tiles seg a d ig : tiles_span seg ->
  tiles_span (fst (add_subdivision interp seg a d ig)).
Proof. intro T. exact (tiles_step interp seg (OpSubdiv a d ig) T). Qed.

Lemma tiles_quad (s1 s2 : segment) : map quad s1 = map quad s2 -> tiles_span s2 -> tiles_span s1.
Proof. intros E T. apply qtiles_iff. rewrite E. apply qtiles_iff. exact T. Qed.

(** Conclusion shared by all cases. *)
Definition placed (line : Q -> Q -> Q -> Prop) (seg' : segment) (k : dkind) (c : control) (lo b x1 h1 x2 h2 : Q) : Prop :=
  (exists idx, unbroken line seg' k c x1 h1 idx x2 h2 /\
     forall j s, nth_error seg' j = Some s -> (carries s c <-> In j idx)) /\
  (forall eta s, In s seg' -> covers s eta -> (carries s c <-> lo <= eta /\ eta < b)).

Lemma placed_from line seg2 seg' k c i1 x1 h1 rows x2 h2 order lo b :
  ct_type c = Some k -> tiles_span seg2 -> all_chord seg2 -> no_carry seg2 c ->
  chain line seg2 i1 x1 h1 rows x2 h2 -> (forall r, In r order <-> In r rows) ->
  (exists s, In s seg2 /\ eta_a s == lo) ->
  (b == 1 \/ exists s, In s seg2 /\ eta_a s == b) ->
  (forall j s, nth_error seg2 j = Some s ->
     (In j (map r_idx rows) <-> lo <= eta_a s /\ eta_b s <= b)) ->
  add_rows seg2 c order = (seg', Ok tt) ->
  placed line seg' k c lo b x1 h1 x2 h2.
Proof.
  intros Tk T AC NC CH ORD LO HI RNG H.
  destruct (finish line seg2 seg' c k i1 x1 h1 rows x2 h2 order Tk AC NC CH ORD H) as (U & CI & Q).
  split; [eauto|].
  assert (TR : forall x, line_at seg2 x -> line_at seg' x).
  { intros x Hx. apply line_at_In_quad in Hx. apply line_at_In_quad. rewrite Q. exact Hx. }
  apply carries_range.
  - eapply tiles_quad; eauto.
  - apply TR. exact LO.
  - destruct HI as [HI|HI]; [left; exact HI|right]. apply TR. exact HI.
  - intros s I. apply In_nth_error in I. destruct I as [j N]. rewrite (CI j s N).
    assert (N' := map_nth_error quad _ _ N). rewrite Q, nth_error_map in N'.
    destruct (nth_error seg2 j) as [s2|] eqn:N2; [|discriminate].
    injection N' as Qs. unfold quad in Qs.
    assert (Ea : eta_a s = eta_a s2) by congruence. assert (Eb : eta_b s = eta_b s2) by congruence.
    rewrite Ea, Eb. apply RNG. exact N2.
Qed.

Lemma line_or_tip seg i s : tiles_span seg -> nth_error seg i = Some s ->
  eta_b s == 1 \/ exists t, In t seg /\ eta_a t == eta_b s.
Proof.
  intros T N. pose proof T as [T1 _]. pose proof (T1 s (nth_error_In _ _ N)) as Ts.
  destruct (Qlt_le_dec (eta_b s) 1) as [L|L].
  - right. destruct (adjacent_exists seg i s T N L) as (j & t & Nt & E).
    exists t. split; [eapply nth_error_In; eauto|exact E].
  - left. lra.
Qed.

(** Everything after the first cut. *)
Lemma place_from seg1 i1 sd1 a b c k x1 x2 h1 h2 seg' :
  tiles_span seg1 -> all_chord seg1 -> no_carry seg1 c -> ct_type c = Some k ->
  nth_error seg1 i1 = Some sd1 -> eta_a sd1 <= a -> a < eta_b sd1 -> a < b -> b <= 1 ->
  (forall u, In u seg1 -> eta_a sd1 <= eta_a u -> eta_a u + (1 # 1000) < eta_b u) ->
  clear_edge seg1 b ->
  (if Qeqb b (eta_b sd1) then add_rows seg1 c [mkRow i1 x1 x2 h1 h2]
   else if Qltb b (eta_b sd1) then
     let '(seg2, r2) := add_subdivision interp seg1 b b false in
     match r2 with
     | Err e => (seg2, Err e)
     | Ok _ => add_rows seg2 c [mkRow i1 x1 x2 h1 h2]
     end
   else
     match get_outer_neighbour seg1 (eta_b sd1) with
     | None => (seg1, Err AttributeError)
     | Some nb =>
       match nth_error seg1 nb with
       | None => (seg1, Err KeyError)
       | Some snb =>
         match (let? xd := interp (a, x1) (b, x2) (eta_b sd1) in
                let? hd := interp (a, h1) (b, h2) (eta_b sd1) in
                let rows := push_row [mkRow i1 x1 x2 h1 h2] nb xd hd x2 h2 in
                control_loop interp seg1 a b x1 x2 h1 h2 100 rows nb (eta_b snb)) with
         | Err e => (seg1, Err e)
         | Ok (rows, last) =>
           match nth_error seg1 last with
           | None => (seg1, Err KeyError)
           | Some slast =>
             let '(seg2, r2) :=
               if Qltb b (eta_b slast) then add_subdivision interp seg1 b b false
               else (seg1, Ok None) in
             match r2 with
             | Err e => (seg2, Err e)
             | Ok _ => add_rows seg2 c (rev rows)
             end
           end
         end
       end
     end) = (seg', Ok tt) ->
  placed (on_lines interp a x1 h1 b x2 h2) seg' k c (eta_a sd1) b x1 h1 x2 h2.
Proof.
  set (line := on_lines interp a x1 h1 b x2 h2).
  intros T AC NC Tk N1 A1 A2 AB B1 Thin CE H.
  pose proof T as [T1 _]. pose proof (T1 sd1 (nth_error_In _ _ N1)) as Td.
  assert (LO : exists s, In s seg1 /\ eta_a s == eta_a sd1).
  { exists sd1. split; [eapply nth_error_In; eauto|reflexivity]. }
  assert (GENCUT : forall last sl rows order seg2 o,
     chain line seg1 i1 x1 h1 rows x2 h2 -> (forall r, In r order <-> In r rows) ->
     (exists r rs, rows = r :: rs /\ r_idx r = last) ->
     nth_error seg1 last = Some sl -> eta_a sl < b -> b < eta_b sl ->
     add_subdivision interp seg1 b b false = (seg2, Ok o) ->
     add_rows seg2 c order = (seg', Ok tt) ->
     placed line seg' k c (eta_a sd1) b x1 h1 x2 h2).
  { intros last sl rows order seg2 o CH ORD (r & rs & Er & Ei) Nl Al Bl Ec Hr.
    destruct (cut_outer seg1 last sl b seg2 o T AC CE Nl Al Bl Ec)
      as (sl' & sn' & Nl' & El1 & El2 & Nn & En1 & En2 & O).
    pose proof (add_subdivision_tiles seg1 b b false T) as T2. rewrite Ec in T2. simpl in T2.
    pose proof (add_subdivision_chord interp _ _ _ _ _ _ AC Ec) as AC2.
    pose proof (add_subdivision_no_carry _ _ _ _ _ _ c AC NC Ec) as NC2.
    destruct (chain_range line seg1 i1 x1 h1 rows x2 h2 sd1 T N1 CH)
      as (r' & rs' & top & Er' & Ntop & Atop & RNG & ND & V).
    rewrite Er in Er'. injection Er' as <- <-. rewrite Ei in Ntop.
    assert (top = sl) by congruence. subst top.
    assert (OLD : forall j s, j <> last -> nth_error seg1 j = Some s -> nth_error seg2 j = Some s).
    { intros j s J N. rewrite O; auto. apply nth_error_lt in N. lia. }
    assert (CH2 : chain line seg2 i1 x1 h1 rows x2 h2).
    { apply (chain_transfer line seg1 seg2 i1 x1 h1 rows x2 h2 CH last rs r Er Ei).
      - rewrite Er in ND. simpl in ND. rewrite Ei in ND. inversion ND; assumption.
      - intros j s J N. exists s. auto.
      - intros s N. exists sl'. assert (s = sl) by congruence. subst. auto. }
    apply (placed_from line seg2 seg' k c i1 x1 h1 rows x2 h2 order (eta_a sd1) b); auto.
    - destruct (Nat.eq_dec i1 last) as [->|NE].
      + assert (sd1 = sl) by congruence. subst sl. exists sl'.
        split; [eapply nth_error_In; eauto|]. rewrite El1. reflexivity.
      + exists sd1. split; [eapply nth_error_In; apply (OLD i1 sd1); auto|reflexivity].
    - right. exists sn'. split; [eapply nth_error_In; eauto|]. rewrite En1. reflexivity.
    - intros j s N.
      destruct (Nat.eq_dec j last) as [->|J1].
      + assert (s = sl') by congruence. subst s. rewrite El1, El2.
        pose proof (proj1 (RNG last sl Nl)) as R1.
        assert (In last (map r_idx rows)) by (rewrite Er; left; exact Ei).
        specialize (R1 H0). split; [intros _; lra|intros _; exact H0].
      + destruct (Nat.eq_dec j (List.length seg1)) as [->|J2].
        * assert (s = sn') by congruence. subst s. rewrite En1, En2. split.
          -- intro I. destruct (V _ I) as (s & Ns). apply nth_error_lt in Ns. lia.
          -- intros [_ C]. lra.
        * rewrite O in N by auto. rewrite (RNG j s N).
          pose proof (T1 s (nth_error_In _ _ N)) as Ts. split; [|lra].
          intros [C1 C2]. split; [exact C1|].
          destruct (Qlt_le_dec b (eta_b s)) as [L|L]; [|exact L]. exfalso. apply J1.
          destruct (Qlt_le_dec (eta_a s) (eta_a sl)).
          -- apply (covers_unique seg1 (eta_a sl) j last s sl); auto; split; lra.
          -- apply (covers_unique seg1 (eta_a s) j last s sl); auto; split; lra. }
  assert (GENEND : forall last sl rows order,
     chain line seg1 i1 x1 h1 rows x2 h2 -> (forall r, In r order <-> In r rows) ->
     (exists r rs, rows = r :: rs /\ r_idx r = last) ->
     nth_error seg1 last = Some sl -> b == eta_b sl ->
     add_rows seg1 c order = (seg', Ok tt) ->
     placed line seg' k c (eta_a sd1) b x1 h1 x2 h2).
  { intros last sl rows order CH ORD (r & rs & Er & Ei) Nl Bl Hr.
    destruct (chain_range line seg1 i1 x1 h1 rows x2 h2 sd1 T N1 CH)
      as (r' & rs' & top & Er' & Ntop & Atop & RNG & ND & V).
    rewrite Er in Er'. injection Er' as <- <-. rewrite Ei in Ntop.
    assert (top = sl) by congruence. subst top.
    apply (placed_from line seg1 seg' k c i1 x1 h1 rows x2 h2 order (eta_a sd1) b); auto.
    - destruct (line_or_tip seg1 last sl T Nl) as [E|(t & I & E)]; [left; lra|right].
      exists t. split; [exact I|lra].
    - intros j s N. rewrite (RNG j s N). split; intros [C1 C2]; split; lra. }
  destruct (Qeqb b (eta_b sd1)) eqn:E1.
  { qbool. apply (GENEND i1 sd1 [mkRow i1 x1 x2 h1 h2] [mkRow i1 x1 x2 h1 h2]); auto.
    - constructor.
    - tauto.
    - eauto. }
  destruct (Qltb b (eta_b sd1)) eqn:E2.
  { qbool. destruct (add_subdivision interp seg1 b b false) as [seg2 [o|e]] eqn:Ec; [|discriminate].
    apply (GENCUT i1 sd1 [mkRow i1 x1 x2 h1 h2] [mkRow i1 x1 x2 h1 h2] seg2 o); auto.
    - constructor.
    - tauto.
    - eauto.
    - lra. }
  qbool.
  destruct (get_outer_neighbour seg1 (eta_b sd1)) as [nb|] eqn:G; [|discriminate].
  assert (BL : eta_b sd1 < b) by (destruct (Qlt_le_dec (eta_b sd1) b); [assumption|exfalso; apply E1; lra]).
  destruct (neighbour_adjacent seg1 i1 sd1 (eta_a sd1) nb T N1) as (t & Nt & Et); auto; [lra|lra|].
  rewrite Nt in H.
  destruct (interp (a, x1) (b, x2) (eta_b sd1)) as [xd|] eqn:LX; [|discriminate].
  destruct (interp (a, h1) (b, h2) (eta_b sd1)) as [hd|] eqn:LH; [|discriminate].
  cbn [bind] in H. cbv zeta in H.
  destruct (control_loop interp seg1 a b x1 x2 h1 h2 100 _ nb (eta_b t)) as [[rows last]|] eqn:EL;
    [|discriminate].
  assert (CH0 : chain line seg1 i1 x1 h1 (push_row [mkRow i1 x1 x2 h1 h2] nb xd hd x2 h2) x2 h2).
  { apply (chain_push line seg1 i1 x1 h1 [mkRow i1 x1 x2 h1 h2] x2 h2 (mkRow i1 x1 x2 h1 h2) [] nb xd hd sd1 t);
      auto; [constructor|unfold line, on_lines; split; assumption]. }
  destruct (control_loop_chain seg1 i1 sd1 a b x1 h1 x2 h2 T N1 B1 Thin 100 _ nb t rows last CH0)
    as (CH & TOP & sl & Nl & Al & Bl); auto; try lra.
  { simpl. eauto. }
  rewrite Nl in H.
  assert (ORD : forall r, In r (rev rows) <-> In r rows) by (intro r; symmetry; apply in_rev).
  destruct (Qltb b (eta_b sl)) eqn:E3.
  - qbool. destruct (add_subdivision interp seg1 b b false) as [seg2 [o|e]] eqn:Ec; [|discriminate].
    apply (GENCUT last sl rows (rev rows) seg2 o); auto.
  - qbool. apply (GENEND last sl rows (rev rows)); auto. lra.
Qed.

Lemma place_control seg a b c k x1 x2 o1 o2 seg' :
  tiles_span seg -> all_chord seg -> first0 seg -> no_carry seg c -> ct_type c = Some k ->
  0 <= a -> a + (1 # 100) <= b -> b <= 1 ->
  not_thin seg -> (forall y, line_at seg y -> a < y -> a + (1 # 1000) < y) ->
  clear_edge seg b ->
  add_subdivision_for_control interp seg a b c x1 x2 o1 o2 = (seg', Ok tt) ->
  exists lo, lo <= a /\ a < lo + (1 # 100) /\
    ((forall y, line_at seg y -> y < a -> y + (1 # 100) <= a) -> lo == a) /\
    placed (on_lines interp a x1 (default_to o1 x1) b x2 (default_to o2 x2)) seg' k c lo b x1 (default_to o1 x1) x2 (default_to o2 x2).
Proof.
  intros T AC F0 NC Tk A0 AB B1 Thin ThinA CE H. pose proof T as [T1 _].
  unfold add_subdivision_for_control in H.
  change (match o1 with Some h => h | None => x1 end) with (default_to o1 x1) in H.
  change (match o2 with Some h => h | None => x2 end) with (default_to o2 x2) in H.
  cbv zeta in H. destruct (Qeqb a 0) eqn:E0.
  - qbool. destruct F0 as (s0 & N0 & Z0). rewrite N0 in H. pose proof (T1 s0 (nth_error_In _ _ N0)) as Ts.
    exists (eta_a s0). split; [lra|]. split; [lra|]. split; [intros; lra|].
    apply (place_from seg 0 s0 a b c k x1 x2 (default_to o1 x1) (default_to o2 x2) seg'); auto; try lra.
  - qbool. assert (A0' : 0 < a) by (destruct (Qlt_le_dec 0 a); [assumption|exfalso; apply E0; lra]).
    destruct (add_subdivision interp seg a a false) as [seg1 [[i1|]|]] eqn:Ec; try discriminate.
    pose proof (add_subdivision_tiles seg a a false T) as T2. rewrite Ec in T2. simpl in T2.
    pose proof (add_subdivision_chord interp _ _ _ _ _ _ AC Ec) as AC2.
    pose proof (add_subdivision_no_carry _ _ _ _ _ _ c AC NC Ec) as NC2.
    destruct (add_subdivision_frame interp _ _ _ _ _ _ Ec) as (FR & LN & _).
    assert (CE2 : clear_edge seg1 b).
    { destruct CE as [CE|[(u & Iu & Eu)|CE]]; [left; exact CE|right; left|right; right].
      - apply In_nth_error in Iu. destruct Iu as [ju Nu]. destruct (FR ju u Nu) as (u' & Nu' & Eu').
        exists u'. split; [eapply nth_error_In; eauto|rewrite Eu'; exact Eu].
      - intros y Ly Yb. destruct (LN y Ly) as [Lo|Ea]; [auto|lra]. }
    destruct (add_subdivision_ok _ _ _ _ _ _ _ AC Ec) as [[-> [(_ & IG & _)|(i & s & E & Ns & C & L & P0 & P1)]]|[Ei R]].
    + discriminate IG.
    + injection E as <-. rewrite Ns in H. destruct C as [C1 C2].
      exists (eta_a s). split; [exact C1|]. split; [exact L|]. split.
      { intro Hc. destruct (Qlt_le_dec (eta_a s) a) as [La|La]; [|lra].
        assert (eta_a s + (1#100) <= a); [|lra].
        apply Hc; [|exact La]. exists s. split; [eapply nth_error_In; eauto|reflexivity]. }
      apply (place_from seg i1 s a b c k x1 x2 (default_to o1 x1) (default_to o2 x2) seg'); auto; try lra.
    + injection Ei as ->.
      destruct R as (ip & sp & os & of & sp' & sn' & osi & ofi & oso & ofo & Np & Ca & Cb & _ & _ & _ & _ & N' & Nn & O
        & _ & _ & Q1 & Q2 & _).
      unfold quad in Q1, Q2. injection Q1 as Q1a Q1b Q1c Q1d. injection Q2 as Q2a Q2b Q2c Q2d.
      rewrite Nn in H. exists (eta_a sn').
      split; [rewrite Q2a; lra|]. split; [rewrite Q2a; lra|]. split; [intros; rewrite Q2a; lra|].
      apply (place_from seg1 (List.length seg) sn' a b c k x1 x2 (default_to o1 x1) (default_to o2 x2) seg');
        try assumption; try (rewrite ?Q2a, ?Q2b; lra).
      intros u Iu Au. apply In_nth_error in Iu. destruct Iu as [ju Nu].
      destruct (Nat.eq_dec ju ip) as [->|J1].
      { assert (u = sp') by congruence. subst u. rewrite Q1a, Q2a in Au. exfalso. lra. }
      destruct (Nat.eq_dec ju (List.length seg)) as [->|J2].
      { assert (u = sn') by congruence. subst u. rewrite Q2a, Q2b.
        destruct (line_or_tip seg ip sp T Np) as [E|(t & It & Et)]; [lra|].
        rewrite <- Et. apply ThinA; [exists t; split; [exact It|reflexivity]|lra]. }
      rewrite O in Nu by auto. apply Thin. eapply nth_error_In; eauto.
Qed.

Lemma first0_run ops : first0 (run interp ops).
Proof.
  unfold run. apply (fold_inv interp first0 (fun _ => True)).
  - intros seg o _ (s & N & Z).
    assert (STEP : forall q x d q', cut_step q x d q' ->
      (exists t, nth_error q 0 = Some t /\ q_a t == 0) -> exists t, nth_error q' 0 = Some t /\ q_a t == 0).
    { intros q x d q' HC (t & Nt & Et). destruct HC as [|x d ip sp Nip]; [eauto|].
      rewrite nth_error_cut by (eapply nth_error_lt; eauto).
      destruct (Nat.eqb_spec ip 0) as [->|NE].
      - eexists. split; [reflexivity|]. simpl. congruence.
      - destruct (Nat.eqb_spec 0 (List.length q)) as [E|E]; [|eauto].
        apply nth_error_lt in Nt. lia. }
    assert (Q0 : exists t, nth_error (map quad seg) 0 = Some t /\ q_a t == 0).
    { exists (quad s). split; [apply map_nth_error; exact N|exact Z]. }
    assert (BACK : forall seg' : segment, (exists t, nth_error (map quad seg') 0 = Some t /\ q_a t == 0) -> first0 seg').
    { intros seg' (t & Nt & Et). rewrite nth_error_map in Nt.
      destruct (nth_error seg' 0) as [s'|] eqn:E; [|discriminate]. injection Nt as <-. exists s'. auto. }
    apply BACK. destruct o as [a d ig|a b c x1 x2 o1 o2]; simpl.
    + eapply STEP; [apply add_subdivision_cut|exact Q0].
    + destruct (add_control_cut interp seg a b c x1 x2 o1 o2) as (q1 & C1 & C2).
      eapply STEP; [exact C2|]. eapply STEP; [exact C1|exact Q0].
  - exists (new_strip 0 1 1 0). split; reflexivity.
  - apply Forall_forall. auto.
Qed.

Lemma sound_chord ops : sound_session interp ops -> all_chord (run interp ops).
Proof.
  intros [IO|AA]; [apply run_chord_interp_ok; exact IO|apply run_chord_accepted; exact AA].
Qed.

End Loop.

(** ** The interpolation hypothesis holds for planar trapezoids *)

Lemma trap_weights c1 c2 e1 e2 e : 0 < c1 -> 0 < c2 -> 0 <= e1 -> e1 < e -> e < e2 -> e2 <= 1 ->
  let t := (e - e1) / (e2 - e1) in
  0 < (1 - t) * ((1 - e1) * c1 + e1 * c2) /\ 0 < t * ((1 - e2) * c1 + e2 * c2).
Proof.
  intros P1 P2 A B C D t.
  assert (T0 : 0 < t). { unfold t. apply Qlt_shift_div_l; lra. }
  assert (T1 : t < 1). { unfold t. apply Qlt_shift_div_r; lra. }
  clearbody t.
  assert (K1 : 0 < (1 - e1) * c1 + e1 * c2) by nra.
  assert (K2 : 0 < (1 - e2) * c1 + e2 * c2).
  { destruct (Qlt_le_dec e2 1) as [L|L]; [nra|]. assert (E : e2 == 1) by lra. rewrite E. lra. }
  split; nra.
Qed.

Lemma wavg_between w1 w2 x1 x2 : 0 < w1 -> 0 < w2 ->
  let x := (w1 * x1 + w2 * x2) / (w1 + w2) in
  (x1 <= x /\ x <= x2) \/ (x2 <= x /\ x <= x1).
Proof.
  intros P1 P2 x. unfold x.
  destruct (Qlt_le_dec x1 x2) as [L|L]; [left|right]; split;
    (apply Qle_shift_div_l || apply Qle_shift_div_r); nra.
Qed.

Lemma wavg_gap w1 w2 x1 x2 y1 y2 g : 0 < w1 -> 0 < w2 -> x1 + g <= y1 -> x2 + g <= y2 ->
  (w1 * x1 + w2 * x2) / (w1 + w2) + g <= (w1 * y1 + w2 * y2) / (w1 + w2).
Proof.
  intros P1 P2 H1 H2.
  assert (E : (w1 * x1 + w2 * x2) / (w1 + w2) + g ==
              (w1 * (x1 + g) + w2 * (x2 + g)) / (w1 + w2)) by (field; lra).
  rewrite E. apply Qle_shift_div_l; [lra|].
  assert (F : (w1 * (x1 + g) + w2 * (x2 + g)) / (w1 + w2) * (w1 + w2) ==
              w1 * (x1 + g) + w2 * (x2 + g)) by (field; lra).
  rewrite F. nra.
Qed.

Lemma trap_interp_ok c1 c2 : 0 < c1 -> 0 < c2 -> interp_ok (trap_interp c1 c2).
Proof.
  intros P1 P2.
  assert (VAL : forall e1 e2 e x1 x2, 0 <= e1 -> e1 < e -> e < e2 -> e2 <= 1 ->
    exists w1 w2, 0 < w1 /\ 0 < w2 /\
      w1 = (1 - (e - e1) / (e2 - e1)) * ((1 - e1) * c1 + e1 * c2) /\
      w2 = (e - e1) / (e2 - e1) * ((1 - e2) * c1 + e2 * c2) /\
      trap_interp c1 c2 (e1, x1) (e2, x2) e = Ok ((w1 * x1 + w2 * x2) / (w1 + w2))).
  { intros e1 e2 e x1 x2 A B C D.
    destruct (trap_weights c1 c2 e1 e2 e P1 P2 A B C D) as [W1 W2].
    eexists _, _. split; [exact W1|]. split; [exact W2|]. split; [reflexivity|]. split; [reflexivity|].
    unfold trap_interp.
    assert (F1 : Qeqb e1 e2 = false) by (apply Qeqb_false; lra). rewrite F1.
    cbv zeta. 
    match goal with |- (if ?b then _ else _) = _ => destruct b eqn:F2 end; [|reflexivity].
    apply Qeqb_true in F2. exfalso. lra. }
  split.
  - intros e1 e2 e x1 x2 A B C D. destruct (VAL e1 e2 e x1 x2 A B C D) as (w1 & w2 & W1 & W2 & _ & _ & E).
    eexists. split; [exact E|]. apply wavg_between; assumption.
  - intros e1 e2 e x1 x2 y1 y2 x y A B C D G1 G2 E1 E2.
    destruct (VAL e1 e2 e x1 x2 A B C D) as (w1 & w2 & W1 & W2 & V1 & V2 & E).
    destruct (VAL e1 e2 e y1 y2 A B C D) as (v1 & v2 & _ & _ & V3 & V4 & F).
    rewrite E in E1. injection E1 as <-. rewrite F in E2. injection E2 as <-.
    rewrite <- V1 in V3. rewrite <- V2 in V4. subst v1 v2.
    apply wavg_gap; assumption.
Qed.

(** Deciding [all_accepted] (for examples). *)
Fixpoint acceptedb (interp : Q * Q -> Q * Q -> Q -> res Q) (seg : segment) (ops : list op) : bool :=
  match ops with
  | [] => true
  | OpSubdiv a d ig :: rest =>
      match add_subdivision interp seg a d ig with
      | (seg', Ok _) => acceptedb interp seg' rest
      | (_, Err _) => false
      end
  | OpControl a b c x1 x2 o1 o2 :: rest =>
      match add_subdivision_for_control interp seg a b c x1 x2 o1 o2 with
      | (seg', Ok _) => acceptedb interp seg' rest
      | (_, Err _) => false
      end
  end.

Lemma acceptedb_ok interp ops seg : acceptedb interp seg ops = true -> all_accepted interp seg ops.
Proof.
  revert seg. induction ops as [|o ops IH]; intros seg H; [exact I|].
  destruct o as [a d ig|a b c x1 x2 o1 o2]; cbn [acceptedb all_accepted] in *.
  - destruct (add_subdivision interp seg a d ig) as [seg' [o|e]]; [|discriminate].
    cbn [fst snd]. eauto.
  - destruct (add_subdivision_for_control interp seg a b c x1 x2 o1 o2) as [seg' [[]|e]]; [|discriminate].
    cbn [fst snd]. auto.
Qed.
