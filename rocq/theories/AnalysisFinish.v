(** Proofs about runs that finish (C88). *)
From Coq Require Import Reals Qreals Lra Lia List String Ascii Arith ZArith QArith Bool.
From Verif Require Import PyBase PyFacts PyVal StateModel StripModel StripSpec StripChord StripControl AircraftModel EnumProofs LatticeModel LatticeSpec LatticeProofs Vec PanelModel
  GeomModel GeomProofs NormalModel NormalSpec NormalProofs VlmModel PrePanelModel PrePanelSpec PrePanelProofs ChainProofs SchemaModel SettingsModel SettingsSpec
  AnalysisModel AnalysisSpec AnalysisProofs AnalysisTables.
From Verif Require RunModel RunSpec RunProofs StripSpan.
Import List ListNotations.
Open Scope string_scope.

(** ** Loops *)
Section Loop.
Variable V T world : Type.
Variable base : string.
Variable draw : nat -> string -> res unit.
Variable str_of : pyval -> string.
Variable compute : world -> bool -> dict num -> world * res (RunModel.out V T).
Variable save_cpacs : world -> dict (list V) -> res world.
Hypothesis drawn : forall i n, draw i n = Ok tt.
Variable J : world -> Prop.

Lemma loop_next s rows i w r : settings_ok s -> (0 < i)%nat -> J w ->
  (forall w a, J w -> In a rows -> exists w' o, compute w false a = (w', Ok o) /\ J w') ->
  exists t x, RunModel.loop V T world base draw str_of compute s rows (Ok tt) i w r = (t, Ok x).
Proof.
  intros S. revert i w r. induction rows as [|a rows IH]; intros i w r I W N; [cbn; eauto|]. rewrite RunProofs.loop_cons.
  destruct i; [lia|]. cbn [Nat.eqb]. destruct (N w a W (or_introl eq_refl)) as (w' & o & -> & W').
  eapply RunProofs.andthen_total; [reflexivity|]. destruct (RunProofs.save_all_ok V T world base draw str_of compute save_cpacs s (Datatypes.S i) a o S) as (t & E & _). eapply RunProofs.andthen_total; [exact E|].
  destruct (RunProofs.make_all_ok V T world base draw str_of compute drawn s (Datatypes.S i) S) as [t' E']. eapply RunProofs.andthen_total; [exact E'|].
  apply IH; [lia|exact W'|]. intros w1 a1 W1 I1. exact (N w1 a1 W1 (or_intror I1)).
Qed.

Lemma run_finishes parse cpacs s st w : settings_ok s -> (cpacs = true -> forall w r, exists w', save_cpacs w r = Ok w') ->
  snd (iter_states parse st) = Ok tt -> fst (iter_states parse st) <> [] ->
  (forall a, In a (fst (iter_states parse st)) -> exists w' o, compute w true a = (w', Ok o) /\ J w') ->
  (forall w a, J w -> In a (fst (iter_states parse st)) -> exists w' o, compute w false a = (w', Ok o) /\ J w') ->
  exists t w', RunModel.run V T world base draw str_of compute save_cpacs parse cpacs s st w = (t, Ok w').
Proof.
  intros S C L NE H0 HN. unfold RunModel.run. destruct (iter_states parse st) as [rows last]. cbn [fst snd] in *. subst last.
  assert (E : exists t x, RunModel.loop V T world base draw str_of compute s rows (Ok tt) 0 w (RunModel.new_results V) = (t, Ok x)).
  { destruct rows as [|a rows]; [congruence|]. rewrite RunProofs.loop_cons. cbn [Nat.eqb]. destruct (H0 a (or_introl eq_refl)) as (w' & o & -> & W').
    eapply RunProofs.andthen_total; [reflexivity|]. destruct (RunProofs.save_all_ok V T world base draw str_of compute save_cpacs s 0 a o S) as (t & E & _). eapply RunProofs.andthen_total; [exact E|].
    destruct (RunProofs.make_all_ok V T world base draw str_of compute drawn s 0 S) as [t' E']. eapply RunProofs.andthen_total; [exact E'|].
    apply loop_next; [exact S|lia|exact W'|]. intros w1 a1 W1 I1. exact (HN w1 a1 W1 (or_intror I1)). }
  destruct E as (t & [w1 r1] & E). eapply RunProofs.andthen_total; [exact E|].
  assert (X : exists w2, (if cpacs then RunModel.lift V T (save_cpacs (fst (w1, r1)) (snd (w1, r1))) else RunModel.ret V T (fst (w1, r1))) = ([], Ok w2)).
  { destruct cpacs; [destruct (C eq_refl w1 r1) as [w2 E2]; cbn; rewrite E2; unfold RunModel.lift; eauto|unfold RunModel.ret; cbn; eauto]. }
  destruct X as [w2 X]. eapply RunProofs.andthen_total; [exact X|].
  destruct (RunProofs.when_flag V T world base draw str_of compute s (RunModel.save_map V T base st (snd (w1, r1))) _ S eq_refl) as (tw & W & _). eapply RunProofs.andthen_total; [exact W|].
  destruct rows; [congruence|]. unfold RunModel.ret. eauto.
Qed.
End Loop.

(** ** Panels *)
Lemma Forall2_In_l {A B} (P : A -> B -> Prop) l l' x : Forall2 P l l' -> In x l -> exists y, In y l' /\ P x y.
Proof.
  induction 1 as [|x0 y l l' H1 H IH]; [intros []|]. intros [<-|I]; [exists y; split; [left; reflexivity|exact H1]|].
  destruct (IH I) as (z & ? & ?). exists z. split; [right|]; assumption.
Qed.

Lemma strips_segment a a' : same_but_strips a a' -> has_segment a <-> has_segment a'.
Proof.
  intros [_ F]. split; intros (wn & w & sn & s & I & I').
  - destruct (Forall2_In_l _ _ _ _ F I) as ([wn' w'] & J & _ & _ & _ & _ & F'). cbn [snd] in F'.
    destruct (Forall2_In_l _ _ _ _ F' I') as ([sn' s'] & J' & _). exists wn', w', sn', s'. auto.
  - destruct (Forall2_In_r _ _ _ _ F I) as ([wn' w'] & J & _ & _ & _ & _ & F'). cbn [snd] in F'.
    destruct (Forall2_In_r _ _ _ _ F' I') as ([sn' s'] & J' & _). exists wn', w', sn', s'. auto.
Qed.
Lemma strips_flags a a' : same_but_strips a a' -> flags_ok a -> flags_ok a'.
Proof.
  intros [_ F] C wn w' I. destruct (Forall2_In_r _ _ _ _ F I) as ([wn0 w] & Iw & (_ & _ & E & _)). cbn [fst snd] in *. rewrite E. exact (C wn0 w Iw).
Qed.

Lemma some_subarea a : panelled a -> has_segment a <-> all_subareas a <> [].
Proof.
  intro P. split.
  - intros (wn & w & sn & s & I & I'). destruct (P _ _ _ _ I I') as [(ip & ops & SS & E) _].
    destruct (StripSpan.run_tiles ip ops) as [_ T]. destruct (T 0%Q) as (k & d & N & _); [apply Qle_refl|reflexivity|]. rewrite <- E in N.
    assert (CI : chord_inv d) by (apply (sound_chord ip ops SS); rewrite <- E; exact (nth_error_In _ _ N)).
    destruct (chord_inv_main d CI) as (v & V & _). apply In_nth_error in V as [na V]. apply In_nth_error in I as [nw I]. apply In_nth_error in I' as [ns I'].
    assert (X : In ((na, ASegment, v), (k, k, d), (ns, sn, s), (nw, wn, w)) (all_subareas a)) by (apply all_subareas_In; auto).
    intro Z. rewrite Z in X. exact X.
  - intro NE. destruct (all_subareas a) as [|x l] eqn:E; [congruence|]. clear NE.
    assert (X : In x (all_subareas a)) by (rewrite E; left; reflexivity).
    destruct x as [[[[[na ka] v] [[nd kd] d]] [[ns ks] s]] [[nw kw] w]]. apply all_subareas_In in X as (I & I' & _).
    exists kw, w, ks, s. split; eapply nth_error_In; eassumption.
Qed.

Lemma zsum_pos l : (forall n, In n l -> 1 <= n)%Z -> (l <> [] -> 1 <= zsum l)%Z /\ (0 <= zsum l)%Z.
Proof.
  induction l as [|x l IH]; intro H; [split; [congruence|reflexivity]|]. cbn [zsum fold_right]. assert (1 <= x)%Z by (apply H; left; reflexivity).
  destruct IH as [_ B]; [intros n I; apply H; right; exact I|]. unfold zsum in B. split; [intros _|]; lia.
Qed.
Lemma counted a : panelled a -> counts_set a -> exists n, num_panels a = Ok n /\ (n <> O <-> has_segment a).
Proof.
  intros P C. destruct (panel_count_inv a P C) as (st & E & (_ & RC & _ & _ & PO & CP & _)). unfold num_panels. rewrite E. cbn [bind].
  eexists. split; [reflexivity|]. rewrite (some_subarea a P). destruct (zsum_pos (map e_num_c (bk_list (c_book st)))) as [Z1 Z2].
  { intros n I. apply in_map_iff in I as (e & <- & I). exact (proj1 (proj2 (PO e I))). }
  rewrite <- CP in *. split.
  - intros N Z. rewrite Z in RC. inversion RC as [X Y| |]. rewrite <- Y in CP. cbn in CP. lia.
  - intro NE. assert (bk_list (c_book st) <> []) by (intro Z; rewrite Z in RC; inversion RC; congruence).
    assert (map e_num_c (bk_list (c_book st)) <> []) by (destruct (bk_list (c_book st)); [congruence|discriminate]). specialize (Z1 H0). lia.
Qed.

Lemma lattice_exists geo camber rot alpha beta a : panelled a -> counts_set a -> flags_ok a -> exists pn, NormalModel.gen_lattice geo camber rot alpha beta a = Ok pn.
Proof.
  intros P C F. destruct (final_normals geo camber alpha beta a P C F) as (st & pans & n & E & G & _). destruct rot; [eauto|].
  unfold NormalModel.gen_lattice in *. rewrite E in *. cbn [bind] in *. destruct (entry_rows geo (bk_list (c_book st))) as [rows|]; [cbn [bind]; eauto|discriminate].
Qed.

Section Finish.
Variable interp : string -> string -> Q * Q -> Q * Q -> Q -> res Q.
Variable seg_dist : string -> string -> Q * Q -> Q * Q -> Q.
Variable geo : string -> string -> quad.
Variable camber : subarea_visit -> R -> R.
Variable solve : option (list (list R)) -> option (list R) -> option (list R).
Local Notation analyse := (AnalysisModel.analyse interp seg_dist geo camber solve).
Variable base : string.
Variable draw : nat -> string -> res unit.
Variable str_of : pyval -> string.
Variable save_cpacs : world -> dict (list (option R)) -> res world.
Local Notation run s := (RunModel.run (option R) table world base draw str_of (analyse s) save_cpacs).

Lemma lattice_made s st a : settings_ok s -> panelled a -> counts_set a -> flags_ok a -> exists l, make_lattice geo camber s st a = Ok l.
Proof.
  intros S P C F. destruct S as (_ & _ & _ & _ & _ & _ & SR & _ & (eps & SE & _)).
  apply RunProofs.typed_bool in SR as [rot SR]. unfold make_lattice. cbn [getitem]. rewrite SE, SR. cbn [bind].
  assert (X : forall al be, exists pn, NormalModel.gen_lattice geo camber (PyVal.truthy (PBool rot)) al be a = Ok pn) by (intros; apply lattice_exists; assumption).
  destruct st as [[f|]|c].
  - destruct (X (f_alpha f) (f_beta f)) as [pn E]. cbv zeta. rewrite E. cbn [bind]. eauto.
  - destruct (X 0%R 0%R) as [pn E]. cbv zeta. rewrite E. cbn [bind]. eauto.
  - destruct (X 0%R 0%R) as [pn E]. cbv zeta. rewrite E. cbn [bind]. eauto.
Qed.

(** One analysis of a panelled aircraft. *)
Lemma analyse_panelled s w (first : bool) row a : settings_ok s ->
  (if first then pre_panelling interp seg_dist (x_aircraft w) else (x_aircraft w, Ok tt)) = (a, Ok tt) ->
  panelled a -> counts_set a -> flags_ok a ->
  (has_segment a -> exists w' o, analyse s w first row = (w', Ok o) /\ x_aircraft w' = a) /\
  (~ has_segment a -> snd (analyse s w first row) = Err LibError).
Proof.
  intros S E P C F. destruct (counted a P C) as (n & N & NZ). unfold AnalysisModel.analyse. rewrite E.
  destruct (lattice_made s (get_state (map (fun kx => (fst kx, PFlt (snd kx))) row)) a S P C F) as [l L]. cbv zeta. rewrite N. cbn [bind]. rewrite L. cbn [bind].
  split; intro H.
  - apply NZ in H. apply Nat.eqb_neq in H. rewrite H. eauto.
  - assert (Z : n = O) by (destruct n; [reflexivity|exfalso; apply H, NZ; discriminate]). rewrite Z. reflexivity.
Qed.

Theorem finishes parse cpacs s st w a : settings_ok s -> fresh (x_aircraft w) -> counts_set (x_aircraft w) -> flags_ok (x_aircraft w) ->
  pre_panelling interp seg_dist (x_aircraft w) = (a, Ok tt) -> (forall i n, draw i n = Ok tt) ->
  (cpacs = true -> forall w r, exists w', save_cpacs w r = Ok w') ->
  snd (iter_states parse st) = Ok tt -> fst (iter_states parse st) <> [] ->
  (has_segment (x_aircraft w) -> exists t w', run s parse cpacs s st w = (t, Ok w')) /\
  (~ has_segment (x_aircraft w) -> run s parse cpacs s st w = ([], Err LibError)).
Proof.
  intros S F C FL PP D CP L NE. destruct (pre_panelled interp seg_dist _ _ F PP) as [PA SB].
  assert (C' := strips_counts _ _ SB C). assert (FL' := strips_flags _ _ SB FL). assert (HS := strips_segment _ _ SB). split; intro H.
  - apply (run_finishes _ _ _ base draw str_of (analyse s) save_cpacs D (fun w => x_aircraft w = a) parse cpacs s st w S CP L NE).
    + intros row _. exact (proj1 (analyse_panelled s w true row a S PP PA C' FL') (proj1 HS H)).
    + intros w1 row W _. exact (proj1 (analyse_panelled s w1 false row a S (f_equal (fun x => (x, Ok tt)) W) PA C' FL') (proj1 HS H)).
  - unfold RunModel.run. destruct (iter_states parse st) as [rows last]. cbn [fst snd] in *. destruct rows as [|row rows]; [congruence|].
    rewrite RunProofs.loop_cons. cbn [Nat.eqb].
    assert (E := proj2 (analyse_panelled s w true row a S PP PA C' FL') (fun X => H (proj2 HS X))).
    destruct (analyse s w true row) as [w' r]. cbn [snd] in E. subst r. reflexivity.
Qed.
End Finish.
