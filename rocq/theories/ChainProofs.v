(** From the loaded aircraft to the numbered panels: automatic panel counts, placement of the
    controls and lines, panel bookkeeping. *)
From Coq Require Import List String ZArith QArith Bool Lia Lqa.
From Verif Require Import PyBase PyFacts StripModel StripSpec StripSpan StripRun StripControl AircraftModel LatticeModel LatticeSpec WingModel WingSpec WingProofs
  PrePanelModel PrePanelSpec PrePanelProofs LineProofs.
Import ListNotations.
Open Scope Q_scope.

Lemma dict_rel_keys {V} (R : V -> V -> Prop) d d' : dict_rel R d d' -> dkeys d' = dkeys d.
Proof. induction 1 as [|x y d d' (E & _) H IH]; [reflexivity|]. cbn. unfold dkeys in IH. rewrite IH, E. reflexivity. Qed.

Lemma filled_fresh nc ns a a' : fresh a -> dict_rel (wing_filled nc ns) (a_wings a) (a_wings a') -> fresh a'.
Proof.
  intros F D wn w' I. destruct (dict_rel_In _ _ _ _ _ D I) as (w & Iw & (_ & _ & S & C)). destruct (F wn w Iw) as (N1 & N2 & F1 & F2).
  split; [rewrite (dict_rel_keys _ _ _ S); exact N1|]. split; [rewrite (dict_rel_keys _ _ _ C); exact N2|]. split.
  - intros sn s' Is. destruct (dict_rel_In _ _ _ _ _ S Is) as (s & I0 & (_ & _ & E & _)). rewrite E. exact (F1 sn s I0).
  - intros cn c' Ic. destruct (dict_rel_In _ _ _ _ _ C Ic) as (c & I0 & (_ & E & _)). rewrite E. exact (F2 cn c I0).
Qed.

Lemma filled_counts nc ns a a' : (1 <= nc)%Z -> given_counts_ok a -> dict_rel (wing_filled nc ns) (a_wings a) (a_wings a') -> counts_set a'.
Proof.
  intros NC G D wn w' I. destruct (dict_rel_In _ _ _ _ _ D I) as (w & Iw & (_ & _ & S & C)). destruct (G wn w Iw) as (G1 & G2). split.
  - intros sn s' Is. destruct (dict_rel_In _ _ _ _ _ S Is) as (s & I0 & (_ & _ & _ & E & _)). unfold given_or in E.
    destruct (ws_num_c s) as [n|] eqn:Q; [exists n; split; [exact E|]; exact (G1 sn s n I0 (or_introl Q))|exists nc; auto].
  - intros cn c' Ic. destruct (dict_rel_In _ _ _ _ _ C Ic) as (c & I0 & (E & _)). unfold given_or in E.
    destruct (wc_num_c c) as [n|] eqn:Q; [exists n; split; [exact E|]; exact (G2 cn c n I0 Q)|exists nc; auto].
Qed.

Lemma filled_spanwise nc ns a a' : (1 <= ns)%Z -> given_counts_ok a -> positive_spans a ->
  dict_rel (wing_filled nc ns) (a_wings a) (a_wings a') ->
  forall wn w sn s, In (wn, w) (a_wings a') -> In (sn, s) (w_segs w) -> exists n, ws_num_s s = Some n /\ (1 <= n)%Z.
Proof.
  intros NS G P D wn w' sn s' I Is. destruct (dict_rel_In _ _ _ _ _ D I) as (w & Iw & WF). pose proof WF as (_ & _ & S & _).
  destruct (dict_rel_In _ _ _ _ _ S Is) as (s & I0 & (_ & _ & _ & _ & E)). destruct (G wn w Iw) as (G1 & _).
  destruct (ws_num_s s) as [n|] eqn:Q; [exists n; split; [exact E|exact (G1 sn s n I0 (or_intror Q))]|].
  destruct E as (k & E & Sh). exists k. split; [exact E|].
  exact (proj1 (share_bounds _ _ _ _ (P wn w sn s Iw I0) (span_le_total w sn s I0) NS Sh)).
Qed.

Lemma Forall2_In_r {A B} (R : A -> B -> Prop) l l' y : Forall2 R l l' -> In y l' -> exists x, In x l /\ R x y.
Proof. induction 1 as [|x y0 l l' H1 H IH]; [intros []|]. intros [<-|I]; [exists x; split; [left; reflexivity|exact H1]|]. destruct (IH I) as (z & ? & ?). exists z. split; [right|]; assumption. Qed.

Lemma strips_counts a a' : same_but_strips a a' -> counts_set a -> counts_set a'.
Proof.
  intros (_ & D) C wn w' I. destruct (Forall2_In_r _ _ _ _ D I) as ([wn0 w] & Iw & (_ & _ & _ & E & S)). cbn [fst snd] in *. destruct (C wn0 w Iw) as (C1 & C2). split.
  - intros sn s' Is. destruct (Forall2_In_r _ _ _ _ S Is) as ([sn0 s] & I0 & (_ & _ & Q & _)). cbn [fst snd] in *. rewrite Q. exact (C1 sn0 s I0).
  - rewrite E. exact C2.
Qed.

Lemma chain interp dist oc os a : fresh a -> positive_spans a -> given_counts_ok a ->
  (1 <= or_one oc)%Z -> (1 <= or_one os)%Z ->
  exists a1, set_autopanels oc os a = (a1, Ok tt) /\
    forall a2, pre_panelling interp dist a1 = (a2, Ok tt) -> panelled a2 /\ counts_set a2 /\ same_but_strips a1 a2.
Proof.
  intros F P G NC NS. destruct (autopanels_ok oc os a (positive_total a P)) as (a1 & E & _ & D). exists a1. split; [exact E|].
  intros a2 H. destruct (pre_panelled interp dist a1 a2 (filled_fresh _ _ _ _ F D) H) as (H1 & H2).
  split; [exact H1|]. split; [|exact H2]. exact (strips_counts _ _ H2 (filled_counts _ _ _ _ NC G D)).
Qed.

(** ** Without controls *)

Lemma even_equal ip n : (1 <= n)%Z -> (n <= 100)%Z ->
  exists etas l, linspace_etas n = Ok etas /\ add_lines ip new_segment etas = (l, Ok tt) /\ equal_strips n l.
Proof.
  intros N1 N2. destruct (even_division ip n N1 N2) as (etas & l & E & A & L & H). exists etas, l. split; [exact E|]. split; [exact A|].
  split; [exact L|]. intros i s N. destruct (H i s N) as (H1 & H2 & H3). split; [exact H1|]. split; [exact H2|].
  intros k v I. rewrite H3 in I. destruct I as [I|[]]. discriminate.
Qed.

Section Plain.
Variable interp : string -> string -> Q * Q -> Q * Q -> Q -> res Q.
Variable dist : string -> string -> Q * Q -> Q * Q -> Q.

Lemma divide_plain wuid k s n : ws_strips s = new_segment -> ws_num_s s = Some n -> (1 <= n <= 100)%Z ->
  exists l, divide_segment interp wuid k s = (set_strips s l, Ok tt) /\ equal_strips n l.
Proof.
  intros F N B. unfold divide_segment. rewrite N, F. destruct (even_equal (interp wuid k) n (proj1 B) (proj2 B)) as (etas & l & E & A & Q).
  rewrite E, A. exists l. auto.
Qed.

Lemma divide_all_plain wuid l : (forall k s, In (k, s) l -> ws_strips s = new_segment /\ exists n, ws_num_s s = Some n /\ (1 <= n <= 100)%Z) ->
  exists l', divide_segments interp wuid l = (l', Ok tt) /\
    Forall2 (fun p q => fst q = fst p /\ exists n x, ws_num_s (snd p) = Some n /\ snd q = set_strips (snd p) x /\ equal_strips n x) l l'.
Proof.
  induction l as [|[k s] l IH]; intro H; [exists []; split; [reflexivity|constructor]|]. cbn [divide_segments].
  destruct (H k s (or_introl eq_refl)) as (F & n & N & B). destruct (divide_plain wuid k s n F N B) as (x & E & Q). rewrite E.
  destruct (IH (fun k' s' I => H k' s' (or_intror I))) as (l' & E' & Q'). rewrite E'. eexists. split; [reflexivity|].
  constructor; [|exact Q']. cbn [fst snd]. split; [reflexivity|]. exists n, x. auto.
Qed.

Lemma each_wing_all (R : wing -> wing -> Prop) f l : (forall k w, In (k, w) l -> exists w', f k w = (w', Ok tt) /\ R w w') ->
  exists l', each_wing f l = (l', Ok tt) /\ dict_rel R l l'.
Proof.
  induction l as [|[k w] l IH]; intro H; [exists []; split; [reflexivity|constructor]|]. cbn [each_wing].
  destruct (H k w (or_introl eq_refl)) as (w' & E & Q). rewrite E. destruct (IH (fun k' w0 I => H k' w0 (or_intror I))) as (l' & E' & Q'). rewrite E'.
  eexists. split; [reflexivity|]. constructor; [|exact Q']. split; [reflexivity|exact Q].
Qed.

Lemma pre_panelling_plain a : fresh a -> (forall wn w, In (wn, w) (a_wings a) -> w_ctls w = []) ->
  (forall wn w sn s, In (wn, w) (a_wings a) -> In (sn, s) (w_segs w) -> exists n, ws_num_s s = Some n /\ (1 <= n <= 100)%Z) ->
  exists a', pre_panelling interp dist a = (a', Ok tt) /\ a_uid a' = a_uid a /\ dict_rel divided (a_wings a) (a_wings a').
Proof.
  intros F C N. unfold pre_panelling.
  assert (E1 : each_wing (fun k w => place_controls interp dist k w (dvalues (w_ctls w))) (a_wings a) = (a_wings a, Ok tt)).
  { clear N F. induction (a_wings a) as [|[k w] l IH]; [reflexivity|]. cbn [each_wing]. rewrite (C k w (or_introl eq_refl)). cbn [dvalues map place_controls].
    rewrite IH; [reflexivity|]. intros wn w0 I. exact (C wn w0 (or_intror I)). }
  rewrite E1. destruct (each_wing_all divided (fun k w => let '(l, r) := divide_segments interp k (w_segs w) in (set_segs w l, r)) (a_wings a)) as (l' & E & D).
  - intros k w I. destruct (F k w I) as (_ & _ & F1 & _).
    destruct (divide_all_plain k (w_segs w)) as (l' & E & Q); [intros sn s Is; split; [exact (F1 sn s Is)|exact (N k w sn s I Is)]|].
    rewrite E. eexists. split; [reflexivity|]. repeat (split; [reflexivity|]). exact Q.
  - rewrite E. eexists. split; [reflexivity|]. split; [reflexivity|exact D].
Qed.
End Plain.

(** ** With controls: every requested line is there up to 1/100 *)

Lemma divide_near interp wuid k s n s' ops : ws_strips s = run (interp wuid k) ops -> ws_num_s s = Some n -> (1 <= n)%Z ->
  divide_segment interp wuid k s = (s', Ok tt) ->
  (forall i, (0 < i < n)%Z -> exists y, line_at (ws_strips s') y /\ y <= inject_Z i / inject_Z n /\ inject_Z i / inject_Z n < y + (1 # 100)) /\
  (forall y, line_at (ws_strips s) y -> line_at (ws_strips s') y) /\
  (forall y, line_at (ws_strips s') y -> line_at (ws_strips s) y \/ exists i, (0 <= i <= n)%Z /\ y == inject_Z i / inject_Z n).
Proof.
  intros R N B. unfold divide_segment. rewrite N. destruct (linspace_In n B) as (etas & E & I). rewrite E.
  destruct (add_lines _ _ _) as [l o] eqn:A. intros [= <- ->]. cbn [ws_strips set_strips].
  destruct (add_lines_near (interp wuid k) etas (ws_strips s) l) as (A1 & A2 & A3); [rewrite R; apply run_tiles|exact A|].
  assert (NP : 0 < inject_Z n) by (change 0 with (inject_Z 0); rewrite <- Zlt_Qlt; lia).
  split; [|split; [exact A2|]].
  - intros i Bi. apply A1; [apply I; exists i; split; [lia|reflexivity]| |].
    + apply Qlt_shift_div_l; [exact NP|]. rewrite Qmult_0_l. change 0 with (inject_Z 0). rewrite <- Zlt_Qlt. lia.
    + apply Qlt_shift_div_r; [exact NP|]. rewrite Qmult_1_l. rewrite <- Zlt_Qlt. lia.
  - intros y L. destruct (A3 y L) as [|(e & Ie & Q)]; [left; assumption|right]. apply I in Ie. destruct Ie as (i & Bi & ->). exists i. auto.
Qed.

Lemma add_lines_total ip etas : interp_ok ip -> forall ops, (forall e, In e etas -> 0 <= e /\ e <= 1) ->
  exists l, add_lines ip (run ip ops) etas = (l, Ok tt).
Proof.
  intro IO. induction etas as [|e etas IH]; intros ops H; cbn [add_lines]; [eexists; reflexivity|].
  destruct (Qeqb e 0 || Qeqb e 1)%bool eqn:B; [apply IH; intros x I; apply H; right; exact I|].
  apply orb_false_iff in B. destruct B as (B0 & B1). apply Qeqb_false in B0, B1. destruct (H e (or_introl eq_refl)) as (P0 & P1).
  destruct (add_subdivision_inside ip (run ip ops) e e true IO (run_tiles ip ops) (run_chord_interp_ok ip ops IO) ltac:(lra) ltac:(lra)) as (seg' & i & E).
  rewrite E. replace seg' with (run ip (ops ++ [OpSubdiv e e true])).
  2:{ unfold run. rewrite fold_left_app. cbn [fold_left step]. fold (run ip ops). rewrite E. reflexivity. }
  apply IH. intros x I; apply H; right; exact I.
Qed.

Lemma divide_total interp wuid k s n ops : interp_ok (interp wuid k) -> ws_strips s = run (interp wuid k) ops -> ws_num_s s = Some n -> (1 <= n)%Z ->
  exists s', divide_segment interp wuid k s = (s', Ok tt).
Proof.
  intros IO R N B. unfold divide_segment. rewrite N, R. destruct (linspace_In n B) as (etas & E & I). rewrite E.
  assert (NP : 0 < inject_Z n) by (change 0 with (inject_Z 0); rewrite <- Zlt_Qlt; lia).
  destruct (add_lines_total (interp wuid k) etas IO ops) as (l & A); [|rewrite A; eexists; reflexivity].
  intros e Ie. apply I in Ie. destruct Ie as (i & Bi & ->). split.
  - apply Qle_shift_div_l; [exact NP|]. rewrite Qmult_0_l. change 0 with (inject_Z 0). rewrite <- Zle_Qle. lia.
  - apply Qle_shift_div_r; [exact NP|]. rewrite Qmult_1_l. rewrite <- Zle_Qle. lia.
Qed.

(** ** What stops the run (C42, C58) *)

Lemma same_opt_iff a b : same_opt a b = true <-> a = b.
Proof.
  destruct a as [x|], b as [y|]; cbn [same_opt]; try (split; congruence). rewrite String.eqb_eq. split; congruence.
Qed.
Lemma same_opt_not a b : a <> b -> same_opt a b = false.
Proof. intro N. destruct (same_opt a b) eqn:E; [|reflexivity]. apply same_opt_iff in E. contradiction. Qed.

Section Stops.
Variable interp : string -> string -> Q * Q -> Q * Q -> Q -> res Q.
Variable dist : string -> string -> Q * Q -> Q * Q -> Q.

Lemma on_segment_keys wuid w o e1 e2 c x1 x2 h1 h2 : dkeys (w_segs (fst (on_segment interp wuid w o e1 e2 c x1 x2 h1 h2))) = dkeys (w_segs w).
Proof.
  unfold on_segment. destruct o as [k|]; [|reflexivity]. destruct (dget (w_segs w) k) eqn:E; [|reflexivity].
  destruct (add_subdivision_for_control _ _ _ _ _ _ _ _ _) as [l r]. cbn [fst set_segs w_segs]. apply dset_keys_mem. congruence.
Qed.
Lemma place_rows_keys wuid c rows : forall w, dkeys (w_segs (fst (place_rows interp wuid w c rows))) = dkeys (w_segs w).
Proof.
  induction rows as [|r rs IH]; intro w; cbn [place_rows]; [reflexivity|].
  pose proof (on_segment_keys wuid w (Some (p_seg r)) (p_eta1 r) (p_eta2 r) c (p_x1 r) (p_x2 r) (Some (p_h1 r)) (Some (p_h2 r))) as K.
  destruct (on_segment _ _ _ _ _ _ _ _ _ _ _) as [w1 [[]|e]]; cbn [fst] in *; [|exact K]. rewrite IH. exact K.
Qed.
Lemma place_wing_control_keys wuid w c : dkeys (w_segs (fst (place_wing_control interp dist wuid w c))) = dkeys (w_segs w).
Proof.
  unfold place_wing_control. destruct (same_opt _ _); [apply on_segment_keys|]. destruct (wc_h_inner c), (wc_h_outer c); try reflexivity.
  destruct (case_b_rows _ _ _ _ _ _); [apply place_rows_keys|reflexivity].
Qed.
Lemma place_controls_stop wuid c l : In c l -> wc_inner c = wc_outer c ->
  forall w, (forall k, wc_inner c = Some k -> ~ In k (dkeys (w_segs w))) -> forall w', place_controls interp dist wuid w l <> (w', Ok tt).
Proof.
  intros I S. induction l as [|c0 l IH]; [destruct I|]. intros w U w'. cbn [place_controls]. destruct I as [->|I].
  - rewrite unknown_same; [discriminate|apply same_opt_iff; exact S|exact U].
  - pose proof (place_wing_control_keys wuid w c0) as K. destruct (place_wing_control _ _ _ _ _) as [w1 [[]|e]]; cbn [fst] in K; [|discriminate].
    apply (IH I). rewrite K. exact U.
Qed.
Lemma pre_panelling_stop a wn w cn c : In (wn, w) (a_wings a) -> In (cn, c) (w_ctls w) -> wc_inner c = wc_outer c ->
  (forall k, wc_inner c = Some k -> ~ In k (dkeys (w_segs w))) -> forall a', pre_panelling interp dist a <> (a', Ok tt).
Proof.
  intros Iw Ic S U a' H. unfold pre_panelling in H.
  destruct (each_wing (fun k w => place_controls interp dist k w (dvalues (w_ctls w))) (a_wings a)) as [ws [[]|e]] eqn:E; [|discriminate].
  apply each_wing_ok in E. clear H. induction E as [|[k v] y l l' [_ H] E IH]; [destruct Iw|]. destruct Iw as [X|Iw]; [|exact (IH Iw)].
  injection X as -> ->. cbn [fst snd] in H. revert H. apply (place_controls_stop wn c); [|exact S|exact U].
  unfold dvalues. change c with (snd (cn, c)). apply in_map. exact Ic.
Qed.
Lemma pre_panelling_key a pre wn w post cn c rest : a_wings a = pre ++ (wn, w) :: post -> (forall k v, In (k, v) pre -> w_ctls v = []) ->
  w_ctls w = (cn, c) :: rest -> wc_inner c = wc_outer c -> (forall k, wc_inner c = Some k -> ~ In k (dkeys (w_segs w))) ->
  pre_panelling interp dist a = (a, Err KeyError).
Proof.
  intros A P C S U. unfold pre_panelling.
  assert (E : each_wing (fun k w => place_controls interp dist k w (dvalues (w_ctls w))) (a_wings a) = (a_wings a, Err KeyError)).
  { rewrite A. clear A. induction pre as [|[k v] pre IH]; cbn [app each_wing].
    - rewrite C. cbn [dvalues map snd place_controls]. rewrite unknown_same; [reflexivity|apply same_opt_iff; exact S|exact U].
    - rewrite (P k v (or_introl eq_refl)). cbn [dvalues map place_controls]. rewrite IH; [reflexivity|]. intros k' v' I. exact (P k' v' (or_intror I)). }
  rewrite E. destruct a. reflexivity.
Qed.

(** The number of strips. *)
Lemma divide_bad wuid k s : bad_count s -> divide_segment interp wuid k s = (s, count_error (ws_num_s s)).
Proof.
  unfold bad_count, divide_segment, count_error. destruct (ws_num_s s) as [n|]; [|reflexivity]. intro B. unfold linspace_etas.
  assert (T : Z.ltb (n + 1) 0 = true) by (apply Z.ltb_lt; lia). rewrite T. reflexivity.
Qed.
Lemma divide_all_bad wuid pre sn s post : (forall k x, In (k, x) pre -> ws_strips x = new_segment /\ good_count x) -> bad_count s ->
  exists l, divide_segments interp wuid (pre ++ (sn, s) :: post) = (l, count_error (ws_num_s s)).
Proof.
  intros G B. induction pre as [|[k x] pre IH]; cbn [app divide_segments].
  - rewrite (divide_bad wuid sn s B). unfold count_error. destruct (ws_num_s s); eexists; reflexivity.
  - destruct (G k x (or_introl eq_refl)) as (F & n & N & R). destruct (divide_plain interp wuid k x n F N R) as (y & E & _). rewrite E.
    destruct IH as [l El]; [intros k' x' I; exact (G k' x' (or_intror I))|]. rewrite El. eexists. reflexivity.
Qed.
Lemma pre_panelling_bad_count a pre wn w post spre sn s spost : fresh a -> (forall k v, In (k, v) (a_wings a) -> w_ctls v = []) ->
  a_wings a = pre ++ (wn, w) :: post -> (forall k v k' x, In (k, v) pre -> In (k', x) (w_segs v) -> good_count x) ->
  w_segs w = spre ++ (sn, s) :: spost -> (forall k' x, In (k', x) spre -> good_count x) -> bad_count s ->
  exists a', pre_panelling interp dist a = (a', count_error (ws_num_s s)).
Proof.
  intros F C A GP W GS B. unfold pre_panelling.
  assert (E1 : each_wing (fun k w => place_controls interp dist k w (dvalues (w_ctls w))) (a_wings a) = (a_wings a, Ok tt)).
  { clear A F. induction (a_wings a) as [|[k v] l IH]; [reflexivity|]. cbn [each_wing]. rewrite (C k v (or_introl eq_refl)). cbn [dvalues map place_controls].
    rewrite IH; [reflexivity|]. intros wn' w0 I. exact (C wn' w0 (or_intror I)). }
  rewrite E1. assert (FN : forall k v k' x, In (k, v) (pre ++ (wn, w) :: post) -> In (k', x) (w_segs v) -> ws_strips x = new_segment).
  { rewrite <- A. intros k v k' x I J. destruct (F k v I) as (_ & _ & F1 & _). exact (F1 k' x J). }
  rewrite A. clear A C E1 F. set (g := fun k w => let '(l, r) := divide_segments interp k (w_segs w) in (set_segs w l, r)).
  assert (E : exists ws, each_wing g (pre ++ (wn, w) :: post) = (ws, count_error (ws_num_s s))).
  { induction pre as [|[k v] pre IH]; cbn [app each_wing].
    - unfold g at 1. rewrite W. destruct (divide_all_bad wn spre sn s spost) as [l El]; [|exact B|].
      + intros k' x I. split; [|exact (GS k' x I)]. apply (FN wn w k' x); [left; reflexivity|]. rewrite W. apply in_or_app. left. exact I.
      + rewrite El. unfold count_error. destruct (ws_num_s s); eexists; reflexivity.
    - unfold g at 1. destruct (divide_all_plain interp k (w_segs v)) as (l & El & _).
      + intros k' x I. split; [exact (FN k v k' x (or_introl eq_refl) I)|]. exact (GP k v k' x (or_introl eq_refl) I).
      + rewrite El. destruct IH as [ws Ews].
        * intros k0 v0 k1 x I J. exact (GP k0 v0 k1 x (or_intror I) J).
        * intros k0 v0 k1 x I J. exact (FN k0 v0 k1 x (or_intror I) J).
        * rewrite Ews. eexists. reflexivity. }
  destruct E as [ws ->]. eexists. reflexivity.
Qed.
End Stops.
