(** Proofs about the analysis of a flight state (C85, C86, C87). *)
From Coq Require Import Reals Qreals Lra Lia List String Ascii Arith ZArith QArith Bool.
From Verif Require Import PyBase PyFacts PyVal StrFacts StateModel AircraftModel LatticeModel LatticeSpec LatticeProofs Vec PanelModel
  GeomProofs NormalModel VlmModel PrePanelModel PrePanelSpec PrePanelProofs SettingsModel SettingsSpec AnalysisModel AnalysisSpec.
From Verif Require RunModel RunSpec RunProofs AircraftIOModel.
Import List ListNotations.
Open Scope string_scope.

(** ** Dictionaries with fixed keys *)
Lemma keys_cons {V} (d : dict V) k ks : dkeys d = k :: ks -> exists v d', d = (k, v) :: d' /\ dkeys d' = ks.
Proof. destruct d as [|[k' v] d]; [discriminate|]. intro H. injection H as -> H. eauto. Qed.
Lemma keys_nil {V} (d : dict V) : dkeys d = [] -> d = [].
Proof. destruct d; [reflexivity|discriminate]. Qed.
Ltac explode H :=
  repeat (apply keys_cons in H; let v := fresh "v" in destruct H as (v & ? & -> & H)); apply keys_nil in H; subst.

Definition LOADS := ["x"; "y"; "z"; "D"; "C"; "L"; "l"; "m"; "n"].
Definition PANEL := ["gamma"; "vx"; "vy"; "vz"; "vmag"; "fx"; "fy"; "fz"; "fmag"; "cp"].
Definition keyed (d : vlmdata) : Prop := dkeys (d_panel d) = PANEL /\ dkeys (d_forces d) = LOADS /\ dkeys (d_coeffs d) = LOADS.

Lemma rows_keys parse a : forall k i rows last, iter_from parse a i k = (rows, last) -> forall row, In row rows -> dkeys row = STATE_PRIMARY_PARAMS.
Proof.
  assert (X : forall i ps l, read_all parse a ps i = Ok l -> dkeys l = ps).
  { intros i. induction ps as [|p ps IH]; intros l H; cbn [read_all] in H; [injection H as <-; reflexivity|].
    destruct (read parse a p i) as [x|]; [cbn [bind] in H|discriminate]. destruct (read_all parse a ps i) as [l'|]; [cbn [bind] in H|discriminate].
    injection H as <-. unfold dkeys. cbn [map fst]. f_equal. exact (IH _ eq_refl). }
  induction k as [|k IH]; intros i rows last H row I; cbn [iter_from] in H; [injection H as <- _; destruct I|].
  destruct (read_all parse a STATE_PRIMARY_PARAMS i) as [r|] eqn:E; [|injection H as <- _; destruct I].
  destruct (iter_from parse a (S i) k) as [rs l] eqn:F. injection H as <- _. destruct I as [<-|I]; [exact (X _ _ _ E)|exact (IH _ _ _ F _ I)].
Qed.

Lemma state_got row : dkeys row = STATE_PRIMARY_PARAMS -> exists f, get_state (map (fun kx => (fst kx, PFlt (snd kx))) row) = Got f.
Proof. intro H. explode H. eexists. reflexivity. Qed.

Lemma state_got_values row f : state_values row f -> dkeys row = STATE_PRIMARY_PARAMS ->
  get_state (map (fun kx => (fst kx, PFlt (snd kx))) row) = Got (Some f).
Proof.
  intros (v & rho & a & b & p & q & r & H1 & H2 & H3 & H4 & H5 & H6 & H7 & ->) H. explode H. cbn in H1, H2, H3, H4, H5, H6, H7.
  repeat match goal with X : Some _ = Some _ |- _ => injection X as -> end. reflexivity.
Qed.

Section Analysis.
Variable interp : string -> string -> Q * Q -> Q * Q -> Q -> res Q.
Variable seg_dist : string -> string -> Q * Q -> Q * Q -> Q.
Variable geo : string -> string -> quad.
Variable camber : subarea_visit -> R -> R.
Variable solve : option (list (list R)) -> option (list R) -> option (list R).
Local Notation steps := (AnalysisModel.steps solve).
Local Notation analyse := (AnalysisModel.analyse interp seg_dist geo camber solve).

(** ** One state does not depend on the earlier ones *)
Lemma steps_same eps f rf lat n d1 d2 : keyed d1 -> keyed d2 ->
  (forall e g, eps = Got e -> rf = Got g -> False) -> d_forces d1 = d_forces d2 -> d_coeffs d1 = d_coeffs d2 ->
  steps eps (Got f) rf lat n d1 = steps eps (Got f) rf lat n d2.
Proof.
  intros (K1 & _ & _) (K2 & _ & _) X E1 E2. unfold AnalysisModel.steps. destruct d1 as [m1 b1 p1 f1 c1], d2 as [m2 b2 p2 f2 c2].
  cbn [d_panel d_forces d_coeffs] in *. subst f2 c2. explode K1. explode K2. unfold calc_results. cbn.
  destruct eps as [e|e]; [|reflexivity]. destruct rf as [g|g]; [|reflexivity]. destruct (X e g eq_refl eq_refl).
Qed.
Lemma steps_forget e f g lat n d1 d2 : keyed d1 -> keyed d2 ->
  steps (Got e) (Got f) (Got g) lat n d1 = steps (Got e) (Got f) (Got g) lat n d2.
Proof.
  intros (K1 & F1 & C1) (K2 & F2 & C2). unfold AnalysisModel.steps. destruct d1 as [m1 b1 p1 f1 c1], d2 as [m2 b2 p2 f2 c2].
  cbn [d_panel d_forces d_coeffs] in *. explode K1. explode K2. explode F1. explode F2. explode C1. explode C2. reflexivity.
Qed.
Lemma steps_keyed eps f rf lat n d : keyed d -> keyed (steps eps (Got f) rf lat n d).
Proof.
  intros (K & F & C). unfold AnalysisModel.steps. destruct d as [m b p fs cs]. cbn [d_panel d_forces d_coeffs] in *.
  explode K. explode F. explode C. unfold calc_results, keyed. destruct eps; [|repeat split; reflexivity]. destruct rf; repeat split; reflexivity.
Qed.
Lemma steps_failed eps f rf lat n d : (forall e g, eps = Got e -> rf = Got g -> False) ->
  d_forces (steps eps (Got f) rf lat n d) = d_forces d /\ d_coeffs (steps eps (Got f) rf lat n d) = d_coeffs d.
Proof.
  intro X. unfold AnalysisModel.steps, calc_results. destruct eps as [e|e]; [|split; reflexivity].
  destruct rf as [g|g]; [destruct (X e g eq_refl eq_refl)|split; reflexivity].
Qed.

Definition inv (eps : cres (option R)) (rf : cres (option refs)) (d : vlmdata) : Prop :=
  keyed d /\ ((forall e g, eps = Got e -> rf = Got g -> False) -> d_forces d = new_loads /\ d_coeffs d = new_loads).
Lemma inv_new eps rf : inv eps rf new_data.
Proof. split; [repeat split; reflexivity|]. intros _. split; reflexivity. Qed.
Lemma inv_steps eps f rf lat n d : inv eps rf d ->
  inv eps rf (steps eps (Got f) rf lat n d) /\ steps eps (Got f) rf lat n d = steps eps (Got f) rf lat n new_data.
Proof.
  intros [K N]. assert (K0 : keyed new_data) by (repeat split; reflexivity). split.
  - split; [exact (steps_keyed _ _ _ _ _ _ K)|]. intro X. destruct (steps_failed eps f rf lat n d X) as [-> ->]. exact (N X).
  - destruct eps as [e|e], rf as [g|g]; [exact (steps_forget _ _ _ _ _ _ _ K K0)|..];
      (edestruct N as [A B]; [intros e' g' P1 P2; (discriminate P1 || discriminate P2)|]);
      apply steps_same; try assumption; [intros e' g' P1 P2; (discriminate P1 || discriminate P2)..].
Qed.

Lemma analyse_next s w row w' o : dkeys row = STATE_PRIMARY_PARAMS -> inv (get_epsilon s) (get_refs (x_refs w)) (x_data w) ->
  analyse s w false row = (w', Ok o) ->
  x_aircraft w' = x_aircraft w /\ x_refs w' = x_refs w /\ inv (get_epsilon s) (get_refs (x_refs w)) (x_data w') /\
  analyse s (mkWorld (x_aircraft w) (x_refs w) new_data) false row = (w', Ok o).
Proof.
  intros K I H. destruct (state_got row K) as [f F]. unfold AnalysisModel.analyse in *. cbn [x_aircraft x_refs x_data] in *. rewrite F in *.
  destruct (num_panels (x_aircraft w)) as [n|]; [cbn [bind] in *|discriminate].
  destruct (make_lattice geo camber s (Got f) (x_aircraft w)) as [lat|]; [cbn [bind] in *|discriminate].
  destruct (Nat.eqb n 0); [discriminate|]. destruct (inv_steps _ f _ lat n _ I) as [I' E]. rewrite E in *.
  assert (W : w' = mkWorld (x_aircraft w) (x_refs w) (steps (get_epsilon s) (Got f) (get_refs (x_refs w)) lat n new_data)) by (injection H as <- _; reflexivity).
  subst w'. cbn [x_aircraft x_refs x_data]. split; [reflexivity|]. split; [reflexivity|]. split; [exact I'|exact H].
Qed.
Lemma analyse_first s w row a : pre_panelling interp seg_dist (x_aircraft w) = (a, Ok tt) ->
  analyse s w true row = analyse s (mkWorld a (x_refs w) (x_data w)) false row.
Proof. intro H. unfold AnalysisModel.analyse. rewrite H. reflexivity. Qed.
Lemma analyse_first_ok s w row w' o : analyse s w true row = (w', Ok o) -> exists a, pre_panelling interp seg_dist (x_aircraft w) = (a, Ok tt).
Proof.
  unfold AnalysisModel.analyse. destruct (pre_panelling interp seg_dist (x_aircraft w)) as [a [[]|e]]; [eauto|discriminate].
Qed.

Lemma computes_next s : forall rows i w outs w', RunSpec.computes _ _ _ (analyse s) (S i) w rows outs w' ->
  (forall row, In row rows -> dkeys row = STATE_PRIMARY_PARAMS) -> inv (get_epsilon s) (get_refs (x_refs w)) (x_data w) ->
  forall k row o, nth_error rows k = Some row -> nth_error outs k = Some o ->
  exists w1, analyse s (mkWorld (x_aircraft w) (x_refs w) new_data) false row = (w1, Ok o).
Proof.
  induction rows as [|r rows IH]; intros i w outs w' C K I k row o N1 N2; [destruct k; discriminate|].
  inversion C as [|i' w0 r' rows' o' outs' w1 w2 A B]; subst. cbn [Nat.eqb] in A.
  destruct (analyse_next s w r w1 o' (K r (or_introl eq_refl)) I A) as (E1 & E2 & I' & A').
  destruct k as [|k]; cbn in N1, N2; [injection N1 as <-; injection N2 as <-; eauto|].
  rewrite <- E1, <- E2. rewrite <- E2 in I'. exact (IH _ _ _ _ B (fun x X => K x (or_intror X)) I' k row o N1 N2).
Qed.
Lemma computes_each s rows w outs w' : RunSpec.computes _ _ _ (analyse s) 0 w rows outs w' -> x_data w = new_data ->
  (forall row, In row rows -> dkeys row = STATE_PRIMARY_PARAMS) ->
  forall k row o, nth_error rows k = Some row -> nth_error outs k = Some o -> exists w1, analyse s w true row = (w1, Ok o).
Proof.
  intros C D K k row o N1 N2. inversion C as [|i' w0 r' rows' o' outs' w1 w2 A B]; subst; [destruct k; discriminate|].
  cbn [Nat.eqb] in A. destruct k as [|k]; cbn in N1, N2; [injection N1 as <-; injection N2 as <-; eauto|].
  destruct (analyse_first_ok _ _ _ _ _ A) as [a P]. rewrite (analyse_first _ _ _ _ P) in A. rewrite (analyse_first _ _ _ _ P).
  assert (I : inv (get_epsilon s) (get_refs (x_refs w)) (x_data w)) by (rewrite D; apply inv_new).
  destruct (analyse_next s (mkWorld a (x_refs w) (x_data w)) r' w1 o' (K r' (or_introl eq_refl)) I A) as (E1 & E2 & I' & A').
  cbn [x_aircraft x_refs] in E1, E2, I', A'. rewrite <- E2 in I'. rewrite D, <- E1, <- E2.
  exact (computes_next s _ _ _ _ _ B (fun x X => K x (or_intror X)) I' k row o N1 N2).
Qed.
End Analysis.

(** ** Files of one state *)
Section Files.
Variable V T world : Type.
Variable base : string.
Variable draw : nat -> string -> res unit.
Variable str_of : pyval -> string.
Variable compute : world -> bool -> dict num -> world * res (RunModel.out V T).
Variable save_cpacs : world -> dict (list V) -> res world.
Local Notation run := (RunModel.run V T world base draw str_of compute save_cpacs).

Lemma has_state_file s st rows outs files d i name c :
  (forall p c, In (p, c) files <-> RunSpec.result_file V T base s rows outs p c \/ RunSpec.map_file V T base s st outs p c) ->
  RunSpec.three_digits d i ->
  has_file files base d name c <->
  exists aero o key, nth_error rows i = Some aero /\ nth_error outs i = Some o /\ RunSpec.state_file V T aero o key name c /\ RunSpec.requested s key.
Proof.
  intros F D. unfold has_file. rewrite F. split.
  - intros [(j & aero & o & key & name' & d' & N1 & N2 & S & Q & D' & E)|(_ & E & _)].
    + apply app_inj_s, app_inj_s, app_inj_s in E. destruct (RunProofs.three_digits_inj d d' i j name name' D D' E) as [-> ->]. eauto 10.
    + exfalso. apply app_inj_s, app_inj_s in E. destruct D as [R L].
      apply RunProofs.reading_digits in R. destruct d as [|a d]; [cbn in L; destruct L as [L|[L _]]; lia|].
      cbn in E. injection E as -> _. destruct R as [R _]. vm_compute in R. congruence.
  - intros (aero & o & key & N1 & N2 & S & Q). left. exists i, aero, o, key, name, d. auto 10.
Qed.

Lemma run_single parse st row s w w1 o : (forall i n, draw i n = Ok tt) -> settings_ok s -> iter_states parse st = ([row], Ok tt) ->
  compute w true row = (w1, Ok o) -> exists t, run parse false s st w = (t, Ok w1).
Proof.
  intros D S I C. unfold RunModel.run. rewrite I.
  rewrite (RunProofs.loop_cons V T world base draw str_of compute). cbn [Nat.eqb]. rewrite C.
  destruct (RunProofs.save_all_ok V T world base draw str_of compute save_cpacs s 0%nat row o S) as (t1 & E1 & _).
  assert (M : exists t, RunModel.make_all V T draw str_of s 0 = (t, Ok tt)).
  { apply (RunProofs.make_all_ok V T world base _ _ compute); assumption. }
  destruct M as [t2 E2]. unfold RunModel.lift at 1. cbn [RunModel.andthen]. rewrite E1. cbn [RunModel.andthen]. rewrite E2.
  cbn [RunModel.andthen RunModel.loop RunModel.lift RunModel.ret app fst snd].
  destruct (RunProofs.when_flag V T world base draw str_of compute s (RunModel.save_map V T base st (RunModel.append_all V T (RunModel.new_results V) o)) _ S eq_refl) as (tw & W & _).
  rewrite W. cbn [RunModel.andthen RunModel.ret]. eauto.
Qed.
End Files.

Lemma table_nth V T outs r k l (i : nat) o : RunSpec.table V T outs r -> dget r k = Some l -> nth_error outs i = Some o ->
  forall r1, RunSpec.table V T [o] r1 -> exists x, dget r1 k = Some [x] /\ nth_error l i = Some x.
Proof.
  intros (K & A) G N r1 (_ & B). assert (I : In k (dkeys r)) by (apply dget_In in G; apply (in_map fst) in G; exact G). rewrite K in I. cbn in I.
  decompose [and] A. decompose [and] B. clear A B.
  repeat destruct I as [<-|I]; [..|destruct I]; eexists; (split; [eassumption|]);
    match goal with X : dget r _ = Some (map ?f outs) |- _ => rewrite X in G; injection G as <-; exact (map_nth_error f _ _ N) end.
Qed.

Section Runs.
Variable interp : string -> string -> Q * Q -> Q * Q -> Q -> res Q.
Variable seg_dist : string -> string -> Q * Q -> Q * Q -> Q.
Variable geo : string -> string -> quad.
Variable camber : subarea_visit -> R -> R.
Variable solve : option (list (list R)) -> option (list R) -> option (list R).
Variable base : string.
Variable draw : nat -> string -> res unit.
Variable str_of : pyval -> string.
Variable save_cpacs : world -> dict (list (option R)) -> res world.
Local Notation analyse := (AnalysisModel.analyse interp seg_dist geo camber solve).
Local Notation run s := (RunModel.run (option R) table world base draw str_of (analyse s) save_cpacs).
Local Notation written := (RunSpec.written (option R) table).

Lemma iter_keys parse st row i : nth_error (fst (iter_states parse st)) i = Some row -> dkeys row = STATE_PRIMARY_PARAMS.
Proof.
  unfold iter_states. destruct (iter_from parse (f_aero st) 0 (f_num st)) as [rows last] eqn:E. cbn [fst]. intro H.
  exact (rows_keys _ _ _ _ _ _ E _ (nth_error_In _ _ H)).
Qed.

Theorem independent parse cpacs s st w t w' : settings_ok s -> x_data w = new_data -> (forall i n, draw i n = Ok tt) ->
  run s parse cpacs s st w = (t, Ok w') ->
  forall i row d, nth_error (fst (iter_states parse st)) i = Some row -> RunSpec.three_digits d i ->
  forall parse1 st1, iter_states parse1 st1 = ([row], Ok tt) ->
  exists t1 w1, run s parse1 false s st1 w = (t1, Ok w1) /\
    (forall name c, has_file (written t) base d name c <-> has_file (written t1) base "000" name c) /\
    (forall p a r, In (p, RunModel.CMap a r) (written t) -> exists a1 r1, In (p, RunModel.CMap a1 r1) (written t1) /\
       forall k l, dget r k = Some l -> exists x, dget r1 k = Some [x] /\ nth_error l i = Some x).
Proof.
  intros S D DR H i row d N DD parse1 st1 I1.
  destruct (RunProofs.run_files _ _ _ _ _ _ _ _ _ _ _ _ _ _ _ S H) as (outs & w1 & C & _ & _ & _ & F & _).
  assert (K : forall r, In r (fst (iter_states parse st)) -> dkeys r = STATE_PRIMARY_PARAMS).
  { intros r R. apply In_nth_error in R as [j J]. exact (iter_keys _ _ _ _ J). }
  assert (O : exists o, nth_error outs i = Some o).
  { assert (L : List.length outs = List.length (fst (iter_states parse st))) by (clear - C; induction C; cbn; congruence).
    destruct (nth_error outs i) as [o|] eqn:E; [eauto|]. apply nth_error_None in E. rewrite L in E.
    apply nth_error_None in E. congruence. }
  destruct O as [o O]. destruct (computes_each _ _ _ _ _ _ _ _ _ _ C D K i row o N O) as [w2 A].
  destruct (run_single (option R) table world base draw str_of (analyse s) save_cpacs parse1 st1 row s w w2 o DR S I1 A) as [t1 R1].
  exists t1, w2. split; [exact R1|].
  destruct (RunProofs.run_files _ _ _ _ _ _ _ _ _ _ _ _ _ _ _ S R1) as (outs1 & w3 & C1 & _ & _ & _ & F1 & _).
  rewrite I1 in C1, F1. cbn [fst] in C1, F1. inversion C1 as [|i' w0 r' rows' o' outs' w4 w5 A' B']; subst. cbn [Nat.eqb] in A'. rewrite A in A'.
  injection A' as <- <-. inversion B'; subst. split.
  - intros name c. rewrite (has_state_file _ _ _ _ _ _ _ _ _ i name c F DD). rewrite (has_state_file _ _ _ _ _ _ _ _ _ 0%nat name c F1 (RunProofs.dec3_ok 0)).
    split; intros (aero & o' & key & N1 & N2 & X).
    + rewrite N1 in N. injection N as E. rewrite N2 in O. injection O as E'. subst. do 3 eexists. split; [reflexivity|]. split; [reflexivity|]. exact X.
    + cbn in N1, N2. injection N1 as E. injection N2 as E'. subst. do 3 eexists. split; [exact N|]. split; [exact O|]. exact X.
  - intros p a r M. apply F in M as [(j & aero & o' & key & name & d' & _ & _ & X & _)|(Q & P & r' & TT & E)]; [inversion X|].
    injection E as -> ->. assert (M1 : RunSpec.map_file (option R) table base s st1 [o] p (RunModel.CMap (f_aero st1) (RunModel.append_all _ _ (RunModel.new_results _) o))).
    { split; [exact Q|]. split; [exact P|]. eexists. split; [|reflexivity]. apply (RunProofs.table_add _ _ [] _ o). apply RunProofs.table_new. }
    exists (f_aero st1). eexists. split; [apply F1; right; exact M1|]. intros k l G. destruct M1 as (_ & _ & r1 & T1 & E1). injection E1 as <-.
    exact (table_nth _ _ _ _ _ _ _ _ TT G O _ T1).
Qed.
End Runs.
