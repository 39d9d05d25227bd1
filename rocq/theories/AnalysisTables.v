(** Proofs about the tables of an analysis (C86, C87). *)
From Coq Require Import Reals Qreals Lra Lia List String Ascii Arith ZArith QArith Bool.
From Verif Require Import PyBase PyFacts PyVal StateModel StripModel AircraftModel LatticeModel LatticeSpec LatticeProofs Vec PanelModel
  GeomModel GeomProofs NormalModel VlmModel VlmProofs VlmLaws PrePanelModel PrePanelSpec PrePanelProofs ChainProofs SchemaModel ControlModel SettingsModel SettingsSpec
  AnalysisModel AnalysisSpec AnalysisProofs.
From Verif Require RunModel RunSpec RunProofs AircraftIOModel.
Import List ListNotations.
Open Scope string_scope.

(** ** Number of panels *)
Lemma rows_length geo : forall es rows, entry_rows geo es = Ok rows ->
  map (fun x => (fst (snd x) * snd (snd x))%Z) rows = map e_num_c es.
Proof.
  induction es as [|e es IH]; intros rows H; cbn [entry_rows] in H; [injection H as <-; reflexivity|].
  destruct (entry_vertices geo e) as [q|]; [cbn [bind] in H|discriminate]. destruct (entry_rows geo es) as [r|]; [cbn [bind] in H|discriminate].
  injection H as <-. cbn [map fst snd]. rewrite (IH _ eq_refl). f_equal. lia.
Qed.
Lemma lattice_length dir rows : (forall n, In n (map (fun x : quad * (Z * Z) => (fst (snd x) * snd (snd x))%Z) rows) -> (0 <= n)%Z) ->
  Z.of_nat (List.length (lattice dir rows)) = zsum (map (fun x => (fst (snd x) * snd (snd x))%Z) rows).
Proof.
  unfold lattice, zsum. induction rows as [|x rows IH]; intro H; [reflexivity|]. cbn [flat_map map fold_right]. rewrite app_length, sub_panels_length, Nat2Z.inj_add, IH.
  - rewrite Z2Nat.id; [reflexivity|]. apply H. left. reflexivity.
  - intros n I. apply H. right. exact I.
Qed.
Lemma upd_all_length f : forall l n n', upd_all n l f = Ok n' -> List.length n' = List.length n.
Proof.
  induction l as [|i l IH]; intros n n' H; cbn [upd_all] in H; [injection H as <-; reflexivity|].
  destruct (upd n i (f i)) as [n1|] eqn:E; [cbn [bind] in H|discriminate]. rewrite (IH _ _ H). unfold upd in E.
  destruct (nth_error n (Z.to_nat i)) as [x|] eqn:N; [|discriminate].
  assert (n1 = (firstn (Z.to_nat i) n ++ f i x :: skipn (S (Z.to_nat i)) n)%list) as -> by congruence.
  assert (L : (Z.to_nat i < List.length n)%nat) by (apply nth_error_Some; congruence).
  rewrite app_length, firstn_length, Nat.min_l by lia.
  match goal with |- context [List.length (?x :: ?l)] => change (List.length (x :: l)) with (S (List.length l)) end. rewrite skipn_length. lia.
Qed.
Lemma rotate_length geo camber : forall es n n', rotate_loop geo camber es n = Ok n' -> List.length n' = List.length n.
Proof.
  induction es as [|e es IH]; intros n n' H; cbn [rotate_loop] in H; [injection H as <-; reflexivity|].
  destruct (deflect geo e n) as [n1|] eqn:E1; [cbn [bind] in H|discriminate]. destruct (camber_rot geo camber e n1) as [n2|] eqn:E2; [cbn [bind] in H|discriminate].
  rewrite (IH _ _ H). transitivity (List.length n1).
  - unfold camber_rot in E2. destruct (entry_vertices geo e); [cbn [bind] in E2|discriminate]. exact (upd_all_length _ _ _ _ E2).
  - unfold deflect in E1. destruct (sa_ctrl _); [|injection E1 as <-; reflexivity]. destruct (dget _ _) as [wc|]; [|discriminate].
    destruct (entry_hinge geo e); [cbn [bind] in E1|discriminate]. destruct (entry_deflection e wc); [|injection E1 as <-; reflexivity].
    destruct (truthy _); [exact (upd_all_length _ _ _ _ E1)|injection E1 as <-; reflexivity].
Qed.
Lemma gen_length geo camber b al be a pn n : panelled a -> counts_set a -> NormalModel.gen_lattice geo camber b al be a = Ok pn -> num_panels a = Ok n ->
  List.length (fst pn) = n /\ List.length (snd pn) = n.
Proof.
  intros P C G N. destruct (panel_count_inv a P C) as (st & E & I). unfold num_panels in N. unfold NormalModel.gen_lattice in G. rewrite E in N, G.
  cbn [bind] in N, G. injection N as <-. destruct I as (_ & _ & _ & _ & I5 & I6 & _).
  destruct (entry_rows geo _) as [rows|] eqn:R; [cbn [bind] in G|discriminate].
  assert (L : Z.of_nat (List.length (lattice (trail_dir al be) rows)) = c_p st).
  { rewrite I6, <- (rows_length _ _ _ R). apply lattice_length. intros n I. rewrite (rows_length _ _ _ R) in I. apply in_map_iff in I as (e & <- & I).
    destruct (I5 e I) as (_ & X & _). lia. }
  destruct (if b then _ else _) as [ns|] eqn:Q; [cbn [bind] in G|discriminate]. injection G as <-. cbn [fst snd].
  assert (LN : List.length ns = List.length (lattice (trail_dir al be) rows)).
  { destruct b; [rewrite (rotate_length _ _ _ _ _ Q)|injection Q as <-]; apply map_length. }
  rewrite LN. split; lia.
Qed.
Lemma lattice_size geo camber s st a l n : panelled a -> counts_set a -> make_lattice geo camber s st a = Ok (Some l) -> num_panels a = Ok n -> List.length l = n.
Proof.
  intros P C M N. unfold make_lattice in M. destruct (getitem (PDict s) "_epsilon") as [eps|]; [cbn [bind] in M|discriminate].
  destruct (getitem (PDict s) "_do_normal_rotations") as [rot|]; [cbn [bind] in M|discriminate]. cbv zeta in M.
  assert (Z : forall al be, (let? pn := NormalModel.gen_lattice geo camber (PyVal.truthy rot) al be a in Ok (Some (map (fun _ => zero_panel) (fst pn)))) = Ok (Some l) -> List.length l = n).
  { intros al be X. destruct (NormalModel.gen_lattice _ _ _ al be a) as [pn|] eqn:G; [cbn [bind] in X|discriminate]. injection X as <-. rewrite map_length.
    exact (proj1 (gen_length _ _ _ _ _ _ _ _ P C G N)). }
  destruct eps; try exact (Z _ _ M). destruct st as [[f|]|c]; [| |exact (Z _ _ M)].
  - destruct (NormalModel.gen_lattice _ _ _ _ _ a) as [pn|] eqn:G; [cbn [bind] in M|discriminate]. injection M as <-. destruct (gen_length _ _ _ _ _ _ _ _ P C G N) as [A B].
    unfold set_normals. rewrite map_length, combine_length, A, B. apply Nat.min_id.
  - destruct (NormalModel.gen_lattice _ _ _ _ _ a) as [pn|]; discriminate.
Qed.

(** ** Tables *)
Lemma stack_column n cols j c : nth_error cols j = Some c -> List.length c = n -> map (fun row => nth_error row j) (stack n cols) = map Some c.
Proof.
  intros H L. unfold stack. rewrite map_map. transitivity (map (fun i => Some (nth i c None)) (seq 0 n)).
  - apply map_ext. intro i. exact (map_nth_error (fun c => nth i c None) _ _ H).
  - rewrite <- (map_map (fun i => nth i c None) Some). f_equal. subst n. clear H. apply nth_ext with (d := None) (d' := None); [rewrite map_length, seq_length; reflexivity|].
    intros k K. rewrite map_length, seq_length in K. rewrite (nth_indep _ None (nth 0 c None)); [|rewrite map_length, seq_length; exact K].
    rewrite (map_nth (fun i => nth i c None)), seq_nth by exact K. reflexivity.
Qed.
Lemma stack_numbers n cols j c xs : nth_error cols j = Some c -> List.length c = n -> (numbers (stack n cols) j xs <-> c = map Some xs).
Proof.
  intros H L. unfold numbers. rewrite (stack_column _ _ _ _ H L), <- (map_map Some Some). split; [|intros ->; reflexivity].
  intro E. revert E. generalize (map Some xs). induction c as [|x c IH]; intros [|y l] E; try discriminate; [reflexivity|]. cbn in E. injection E as E1 E2. f_equal; [congruence|].
  assert (X : forall (c l : list (option R)), map Some c = map Some l -> c = l).
  { induction c0 as [|x0 c0 IHc]; intros [|y0 l0] Q; try discriminate; [reflexivity|]. cbn in Q. injection Q as -> Q. f_equal. auto. }
  exact (X _ _ E2).
Qed.
Lemma stack_length n cols : List.length (stack n cols) = n.
Proof. unfold stack. rewrite map_length. apply seq_length. Qed.
Lemma stack_row n cols row : In row (stack n cols) -> exists i, (i < n)%nat /\ row = map (fun c => nth i c None) cols.
Proof. unfold stack. intro I. apply in_map_iff in I as (i & <- & I). apply in_seq in I. exists i. split; [lia|reflexivity]. Qed.

Lemma rsum_zero k : rsum (repeat 0%R k) = 0%R.
Proof. induction k as [|k IH]; [reflexivity|]. cbn. unfold rsum in IH. rewrite IH. lra. Qed.
Lemma map_some_inj (l l' : list R) : map Some l = map Some l' -> l = l'.
Proof. revert l'. induction l as [|x l IH]; intros [|y l'] H; try discriminate; [reflexivity|]. cbn in H. injection H as -> H. f_equal. auto. Qed.
Lemma repeat_none n (xs : list R) : repeat None n = map Some xs -> n = O.
Proof. destruct n as [|k]; [reflexivity|]. destruct xs; discriminate. Qed.
Lemma repeat_some n xs : repeat (Some 0%R) n = map Some xs -> xs = repeat 0%R n.
Proof. intro H. apply map_some_inj. rewrite <- H. clear. induction n as [|k IH]; [reflexivity|]. cbn. f_equal. exact IH. Qed.

Lemma nth_map_some {A} (h : A -> option R) l (i : nat) p : nth_error l i = Some p -> nth i (map h l) None = h p.
Proof. intro H. apply nth_error_nth. exact (map_nth_error h _ _ H). Qed.
Lemma nth_repeat_in {A} (x y : A) n i : (i < n)%nat -> nth i (repeat x n) y = x.
Proof. revert i. induction n as [|n IH]; intros [|i] L; [lia|lia|reflexivity|]. cbn. apply IH. lia. Qed.

Section Solved.
Variable solve : option (list (list R)) -> option (list R) -> option (list R).
Hypothesis SOLVE : solver_ok solve.
Local Notation steps := (AnalysisModel.steps solve).
Definition gammas (n : nat) (g : option (list R)) : list (option R) := match g with Some g => map Some g | None => repeat None n end.
Definition outcome (e : option R) (lat : option (list panel)) (f : option flow) (r : option refs) (g : option (list R)) : option results :=
  match e, lat, f, r, g with Some e, Some l, Some f, Some r, Some g => vlm_results e l f r g | _, _, _, _, _ => None end.
Lemma outcome_some e lat f r g o : outcome e lat f r g = Some o ->
  exists e' l f' r' g', e = Some e' /\ lat = Some l /\ f = Some f' /\ r = Some r' /\ g = Some g' /\ vlm_results e' l f' r' g' = Some o.
Proof.
  unfold outcome. destruct e as [e|]; [|discriminate]. destruct lat as [l|]; [|discriminate]. destruct f as [f|]; [|discriminate].
  destruct r as [r|]; [|discriminate]. destruct g as [g|]; [|discriminate]. intro H. exists e, l, f, r, g. auto 10.
Qed.

Section Step.
Variable eps : cres (option R).
Variable f : option flow.
Variable rf : cres (option refs).
Variable lat : option (list panel).
Variable n : nat.
Hypothesis POS : n <> O.
Hypothesis SIZE : forall l, lat = Some l -> List.length l = n.
Let m := calc_downwash eps lat n.
Let b := calc_boundary eps lat n (Got f) rf.
Let g := solve m b.
Let d := steps eps (Got f) rf lat n new_data.

Lemma data_matrix : d_matrix d = m /\ d_rhs d = b.
Proof.
  unfold d, AnalysisModel.steps, calc_results, set_results, m, b. destruct eps as [e|e]; [|split; reflexivity].
  destruct rf as [r|r]; split; reflexivity.
Qed.
Definition zero_items : list (string * list (option R)) :=
  map (fun k => (k, repeat (Some 0%R) n)) ["vx"; "vy"; "vz"; "vmag"; "fx"; "fy"; "fz"; "fmag"; "cp"].
(** Either C has computed something, or nothing has happened. *)
Lemma data_cases :
  (exists e r, eps = Got e /\ rf = Got r /\
     d_panel d = ("gamma", gammas n g) :: panel_items n (outcome e lat f r g) /\
     d_forces d = force_items (outcome e lat f r g) /\ d_coeffs d = coeff_items (outcome e lat f r g)) \/
  (d_panel d = ("gamma", gammas n g) :: zero_items /\ d_forces d = new_loads /\ d_coeffs d = new_loads).
Proof.
  unfold d, AnalysisModel.steps, calc_results. destruct eps as [e|e]; [|right; repeat split; reflexivity].
  destruct rf as [r|r]; [left; exists e, r; repeat split; reflexivity|right; repeat split; reflexivity].
Qed.

Lemma rhs_length x : b = Some x -> List.length x = n.
Proof.
  unfold b, calc_boundary. destruct eps as [e|e]; [|intro H; injection H as <-; apply repeat_length].
  destruct rf as [r|r]; [|intro H; injection H as <-; apply repeat_length].
  destruct lat as [l|]; [|discriminate]. destruct f as [f'|]; [|discriminate]. destruct r as [r'|]; [|discriminate]. intro H. injection H as <-.
  unfold boundary. rewrite map_length. exact (SIZE l eq_refl).
Qed.
Lemma gamma_length x : g = Some x -> List.length x = n.
Proof. intro H. destruct (SOLVE _ _ _ H) as (rhs & B & L & _). rewrite L. exact (rhs_length _ B). Qed.
Lemma gammas_length : List.length (gammas n g) = n.
Proof. destruct g as [x|] eqn:E; cbn [gammas]; [rewrite map_length; apply gamma_length; exact E|apply repeat_length]. Qed.
Lemma matrix_shape x : m = Some x -> List.length x = n /\ forall row, In row x -> List.length row = n.
Proof.
  unfold m, calc_downwash. destruct eps as [e|e].
  - destruct e as [e|]; [|discriminate]. destruct lat as [l|]; [|discriminate]. intro H. destruct (downwash_inv _ _ _ H) as [-> _]. rewrite map_length.
    split; [exact (SIZE l eq_refl)|]. intros row I. apply in_map_iff in I as (i & <- & _). rewrite map_length. exact (SIZE l eq_refl).
  - intro H. injection H as <-. split; [apply repeat_length|]. intros row I. apply repeat_spec in I. subst row. apply repeat_length.
Qed.
Lemma outcome_panels e r o : outcome e lat f r g = Some o -> List.length (o_panels o) = n /\ o_F o = vsum (map o_f (o_panels o)).
Proof.
  intro H. apply outcome_some in H as (e' & l & f' & r' & x & _ & L & _ & _ & G & H).
  assert (E : List.length x = List.length l) by (rewrite (SIZE l L); apply gamma_length; exact G).
  destruct (panel_results _ _ _ _ _ _ H E) as (A & _). split; [rewrite A; exact (SIZE l L)|]. exact (proj1 (total_loads _ _ _ _ _ _ H E)).
Qed.

Lemma items_length items : d_panel d = ("gamma", gammas n g) :: items ->
  (items = zero_items \/ exists e r, items = panel_items n (outcome e lat f r g)) -> forall c, In c (map snd items) -> List.length c = n.
Proof.
  intros _ [->|(e & r & ->)] c I.
  - apply in_map_iff in I as (kx & <- & I). apply in_map_iff in I as (k & <- & _). apply repeat_length.
  - destruct (outcome e lat f r g) as [o|] eqn:O.
    + destruct (outcome_panels e r o O) as [L _]. cbn in I. repeat destruct I as [<-|I]; [..|destruct I]; rewrite map_length; exact L.
    + cbn in I. repeat destruct I as [<-|I]; [..|destruct I]; apply repeat_length.
Qed.

Lemma table_shape : well_shaped (panel_table n d) (matrix_table n d).
Proof.
  unfold well_shaped, panel_table. rewrite stack_length. split.
  - intro E. apply (f_equal (@List.length _)) in E. rewrite stack_length in E. exact (POS E).
  - destruct data_matrix as [M B]. unfold matrix_table. rewrite M, B. split; [|split].
    + destruct m as [x|] eqn:E; [|apply repeat_length]. destruct b as [y|] eqn:E'; [|apply repeat_length].
      rewrite map_length, combine_length, (proj1 (matrix_shape x E)), (rhs_length y E'). apply Nat.min_id.
    + intros row I. apply stack_row in I as (i & _ & ->). reflexivity.
    + intros row I. destruct m as [x|] eqn:E; [|apply repeat_spec in I; subst row; apply repeat_length].
      destruct b as [y|] eqn:E'; [|apply repeat_spec in I; subst row; apply repeat_length].
      apply in_map_iff in I as ([r z] & <- & I). apply in_combine_l in I. cbn [fst snd]. rewrite app_length, map_length, (proj2 (matrix_shape x E) r I). cbn. lia.
Qed.

Lemma table_forces : forces_add_up (look (d_forces d)) (panel_table n d).
Proof.
  unfold forces_add_up, panel_table. destruct data_cases as [(e & r & _ & _ & P & F & _)|(P & F & _)]; rewrite F; unfold column; rewrite P.
  - assert (L := items_length _ P (or_intror (ex_intro _ e (ex_intro _ r eq_refl)))).
    destruct (outcome e lat f r g) as [o|] eqn:O.
    + destruct (outcome_panels e r o O) as [Lo S].
      cbn [panel_items map dget String.eqb Ascii.eqb Bool.eqb force_items look option_map].
      split; [|split]; intros xs H; (eapply stack_numbers in H; [|reflexivity|rewrite map_length; exact Lo]); cbn [look dget String.eqb Ascii.eqb Bool.eqb force_items option_map];
        rewrite <- (map_map _ Some) in H; apply map_some_inj in H; subst xs; rewrite S.
      * rewrite vsum_x, map_map. reflexivity.
      * rewrite vsum_y, map_map. reflexivity.
      * rewrite vsum_z, map_map. reflexivity.
    + cbn [panel_items map dget String.eqb Ascii.eqb Bool.eqb].
      split; [|split]; intros xs H; (eapply stack_numbers in H; [|reflexivity|apply repeat_length]); apply repeat_none in H; contradiction.
  - cbn [zero_items map dget String.eqb Ascii.eqb Bool.eqb].
    split; [|split]; intros xs H; (eapply stack_numbers in H; [|reflexivity|apply repeat_length]); apply repeat_some in H; subst xs; rewrite rsum_zero; reflexivity.
Qed.

Lemma table_magnitudes : magnitudes (panel_table n d).
Proof.
  intros row I. unfold panel_table in I. apply stack_row in I as (i & Li & ->).
  destruct data_cases as [(e & r & _ & _ & P & _)|(P & _)]; unfold column; rewrite P.
  - destruct (outcome e lat f r g) as [o|] eqn:O.
    + destruct (outcome_panels e r o O) as [Lo _]. destruct (nth_error (o_panels o) i) as [p|] eqn:N; [|apply nth_error_None in N; lia].
      cbn [panel_items map dget String.eqb Ascii.eqb Bool.eqb]. rewrite !(nth_map_some _ _ _ _ N).
      unfold magnitude, number. cbn [nth_error Nat.add]. split; intros x y z X Y Z; injection X as <-; injection Y as <-; injection Z as <-; reflexivity.
    + cbn [panel_items map dget String.eqb Ascii.eqb Bool.eqb]. rewrite !nth_repeat. unfold magnitude, number. cbn [nth_error Nat.add]. split; discriminate.
  - cbn [zero_items map dget String.eqb Ascii.eqb Bool.eqb]. rewrite !(nth_repeat_in _ _ _ _ Li). unfold magnitude, number. cbn [nth_error Nat.add].
    split; intros x y z X Y Z; injection X as <-; injection Y as <-; injection Z as <-; do 2 f_equal; (replace (0 * 0 + 0 * 0 + 0 * 0)%R with 0%R by ring); symmetry; exact sqrt_0.
Qed.

Lemma table_solved : system_solved (panel_table n d) (matrix_table n d).
Proof.
  intros gs eqs G I RG a x EQ. assert (Q : gammas n g = map Some gs).
  { unfold panel_table in G. eapply stack_numbers in G; [exact G| |].
    - unfold column. destruct data_cases as [(e & r & _ & _ & P & _)|(P & _)]; rewrite P; reflexivity.
    - exact gammas_length. }
  destruct data_matrix as [M B]. unfold matrix_table in I. rewrite M, B in I.
  assert (X : forall k eqs, Forall2 (fun row (ab : list R * R) => equation row (fst ab) (snd ab)) (repeat (repeat None (S n)) k) eqs -> eqs = []).
  { intros [|k] l J; inversion J as [|r ab l0 l1 J1 J2]; [reflexivity|]. exfalso. apply (f_equal (fun l => last l None)) in J1. rewrite last_last in J1.
    assert (Y : forall j (c : option R), last (repeat None j) None = c -> c = None) by (clear; intros j c <-; induction j as [|[|j] IH]; [reflexivity|reflexivity|exact IH]).
    apply (Y (S n)) in J1. discriminate. }
  destruct m as [mm|] eqn:E1; [|apply X in I; subst eqs; destruct EQ]. destruct b as [bb|] eqn:E2; [|apply X in I; subst eqs; destruct EQ].
  destruct (g) as [gg|] eqn:E5; cbn [gammas] in Q; [|apply repeat_none in Q; contradiction]. apply map_some_inj in Q. subst gs.
  destruct (SOLVE _ _ _ E5) as (rhs & B1 & _ & S). assert (rhs = bb) by congruence. subst rhs.
  assert (LL : List.length mm = List.length bb) by (rewrite (rhs_length _ E2); exact (proj1 (matrix_shape _ E1))).
  assert (EE : eqs = combine mm bb).
  { clear - I. revert eqs I. generalize (combine mm bb) as l. induction l as [|[r z] l IH]; intros eqs H; inversion H as [|? [a b] ? l' E H']; subst; [reflexivity|].
    cbn [fst snd] in E. unfold equation in E. apply app_inj_tail in E as [E3 E4]. apply map_some_inj in E3. injection E4 as ->. subst r. f_equal. apply IH. exact H'. }
  assert (FM : map fst eqs = mm) by (rewrite EE; clear - LL; revert bb LL; induction mm as [|r mm IH]; intros [|z bb] L; try discriminate; cbn; [reflexivity|f_equal; apply IH; cbn in L; congruence]).
  rewrite FM in RG. destruct (S mm eq_refl LL RG) as [_ D].
  rewrite EE, <- D in EQ. clear - EQ. induction mm as [|r mm IH]; [destruct EQ|]. cbn in EQ. destruct EQ as [EQ|EQ]; [injection EQ as <- <-; reflexivity|auto].
Qed.
End Step.
End Solved.

(** ** Values that C gets *)
Lemma real_float v x : real_value v x -> exists q, number_of v = Some (Some q) /\ x = Q2R q /\ forall pf, AircraftIOModel.py_float pf v = Ok (PFlt (Some q)).
Proof.
  intros [(q & -> & ->)|(z & -> & ->)]; [exists q; auto|]. exists (inject_Z z). split; [reflexivity|]. split; [|reflexivity].
  unfold Q2R. cbn. rewrite Rinv_1. ring.
Qed.
Lemma real_array v p : real_point v p -> exists x y z,
  AircraftIOModel.np_array v = PList [PFlt (Some x); PFlt (Some y); PFlt (Some z)] /\ AircraftIOModel.py_list v = Ok v /\
  p = mkV (Q2R x) (Q2R y) (Q2R z).
Proof.
  intros (a & b & c & -> & X & Y & Z). destruct (real_float _ _ X) as (x & X1 & X2 & _). destruct (real_float _ _ Y) as (y & Y1 & Y2 & _).
  destruct (real_float _ _ Z) as (z & Z1 & Z2 & _). exists x, y, z. split; [|split; [reflexivity|destruct p; cbn in *; congruence]].
  cbn [AircraftIOModel.np_array map]. unfold to_flt. rewrite X1, Y1, Z1. reflexivity.
Qed.
Lemma modify_ok h d k v : dget d k = Some v -> AircraftIOModel.modify h d k = (let? v' := h v in Ok (dset d k v')).
Proof. intro H. unfold AircraftIOModel.modify. cbn [getitem]. rewrite H. reflexivity. Qed.

Lemma refs_got none_ok int_ok pf d d' r : AircraftIOModel.generate_refs none_ok int_ok pf d = Ok d' -> reference_values d r -> get_refs d' = Got (Some r).
Proof.
  intros G (a & s & c & g & m & A1 & A2 & S1 & S2 & C1 & C2 & G1 & G2 & M1 & M2).
  destruct (real_float _ _ A2) as (qa & _ & Ea & Fa). destruct (real_float _ _ S2) as (qs & _ & Es & Fs). destruct (real_float _ _ C2) as (qc & _ & Ec & Fc).
  destruct (real_array _ _ G2) as (gx & gy & gz & Ng & Lg & Eg). destruct (real_array _ _ M2) as (mx & my & mz & Nm & Lm & Em).
  unfold AircraftIOModel.generate_refs in G.
  rewrite (modify_ok _ _ _ _ A1), Fa in G. cbn [bind] in G.
  rewrite (modify_ok _ _ "chord" c) in G by (rewrite !dget_dset_other by discriminate; exact C1). rewrite Fc in G. cbn [bind] in G.
  rewrite (modify_ok _ _ "span" s) in G by (rewrite !dget_dset_other by discriminate; exact S1). rewrite Fs in G. cbn [bind] in G.
  rewrite (modify_ok _ _ "gcenter" g) in G by (rewrite !dget_dset_other by discriminate; exact G1). rewrite Lg in G. cbn [bind] in G.
  rewrite (modify_ok _ _ "rcenter" m) in G by (rewrite !dget_dset_other by discriminate; exact M1). rewrite Lm in G. cbn [bind] in G.
  destruct (validate _ _ _ _) as [u|]; [cbn [bind] in G|discriminate].
  rewrite (modify_ok _ _ "gcenter" g) in G by (rewrite !dget_dset_other by discriminate; apply dget_dset_same). rewrite Ng in G. cbn [bind] in G.
  rewrite (modify_ok _ _ "rcenter" m) in G by (rewrite !dget_dset_other by discriminate; apply dget_dset_same). rewrite Nm in G. cbn [bind] in G.
  assert (E : dget d' "area" = Some (PFlt (Some qa)) /\ dget d' "span" = Some (PFlt (Some qs)) /\ dget d' "chord" = Some (PFlt (Some qc)) /\
              dget d' "gcenter" = Some (PList [PFlt (Some gx); PFlt (Some gy); PFlt (Some gz)]) /\
              dget d' "rcenter" = Some (PList [PFlt (Some mx); PFlt (Some my); PFlt (Some mz)])).
  { assert (d' = dset _ "rcenter" _) as -> by (symmetry; injection G as G; exact G).
    repeat split; repeat first [rewrite dget_dset_same; reflexivity | rewrite dget_dset_other by discriminate]. }
  destruct E as (E1 & E2 & E3 & E4 & E5). unfold get_refs, get_float, get_array. rewrite E1, E2, E3, E4, E5. cbn.
  destruct r as [ra rs rc rg rr]. cbn in *. subst. reflexivity.
Qed.

Section Run.
Variable interp : string -> string -> Q * Q -> Q * Q -> Q -> res Q.
Variable seg_dist : string -> string -> Q * Q -> Q * Q -> Q.
Variable geo : string -> string -> quad.
Variable camber : subarea_visit -> R -> R.
Variable solve : option (list (list R)) -> option (list R) -> option (list R).
Local Notation analyse := (AnalysisModel.analyse interp seg_dist geo camber solve).

(** What an analysis that does not fail consists of. *)
Lemma analyse_ok s w first row w' o : analyse s w first row = (w', Ok o) -> dkeys row = STATE_PRIMARY_PARAMS ->
  exists f n lat, get_state (map (fun kx => (fst kx, PFlt (snd kx))) row) = Got f /\
    (if first then pre_panelling interp seg_dist (x_aircraft w) else (x_aircraft w, Ok tt)) = (x_aircraft w', Ok tt) /\
    num_panels (x_aircraft w') = Ok n /\ n <> O /\ make_lattice geo camber s (Got f) (x_aircraft w') = Ok lat /\
    let d := AnalysisModel.steps solve (get_epsilon s) (Got f) (get_refs (x_refs w)) lat n (x_data w) in
    o = RunModel.mkOut (look (d_forces d)) (look (d_coeffs d)) (panel_table n d) (matrix_table n d).
Proof.
  intros H K. destruct (state_got row K) as [f F]. unfold AnalysisModel.analyse in H. rewrite F in H.
  destruct (if first then _ else _) as [a [[]|e]]; [|discriminate].
  destruct (num_panels a) as [n|] eqn:N; [cbn [bind] in H|discriminate].
  destruct (make_lattice geo camber s (Got f) a) as [lat|] eqn:L; [cbn [bind] in H|discriminate].
  destruct (Nat.eqb n 0) eqn:Z; [discriminate|]. apply Nat.eqb_neq in Z. apply pair_equal_spec in H as [H1 H2].
  exists f, n, lat. subst w'. cbn [x_aircraft]. split; [exact F|]. split; [reflexivity|]. split; [exact N|]. split; [exact Z|]. split; [exact L|].
  cbv zeta. congruence.
Qed.

Lemma analyse_tables s w row w' o : solver_ok solve -> fresh (x_aircraft w) -> counts_set (x_aircraft w) -> x_data w = new_data ->
  dkeys row = STATE_PRIMARY_PARAMS -> analyse s w true row = (w', Ok o) ->
  well_shaped (RunModel.o_panel o) (RunModel.o_matrix o) /\ forces_add_up (RunModel.o_forces o) (RunModel.o_panel o) /\
  magnitudes (RunModel.o_panel o) /\ system_solved (RunModel.o_panel o) (RunModel.o_matrix o).
Proof.
  intros S F C D K H. destruct (analyse_ok _ _ _ _ _ _ H K) as (f & n & lat & G & P & N & NZ & L & E). cbv zeta in E. rewrite D in E. subst o.
  cbn [RunModel.o_panel RunModel.o_matrix RunModel.o_forces]. destruct (pre_panelled interp seg_dist _ _ F P) as [PA SB].
  assert (C' := strips_counts _ _ SB C).
  assert (SZ : forall l, lat = Some l -> List.length l = n) by (intros l ->; exact (lattice_size _ _ _ _ _ _ _ PA C' L N)).
  split; [apply table_shape; assumption|]. split; [apply table_forces; assumption|].
  split; [apply table_magnitudes; assumption|]. apply table_solved; assumption.
Qed.

Variable base : string.
Variable draw : nat -> string -> res unit.
Variable str_of : pyval -> string.
Variable save_cpacs : world -> dict (list (option R)) -> res world.
Local Notation run s := (RunModel.run (option R) table world base draw str_of (analyse s) save_cpacs).
Local Notation written := (RunSpec.written (option R) table).

Theorem files_agree parse cpacs s st w t w' : solver_ok solve -> settings_ok s ->
  fresh (x_aircraft w) -> counts_set (x_aircraft w) -> x_data w = new_data -> run s parse cpacs s st w = (t, Ok w') ->
  forall i d, RunSpec.three_digits d i ->
  let file := has_file (written t) base d in
  (forall aero forces coeffs p, file "global.json" (RunModel.CGlobal aero forces coeffs) -> file "panelwise.dat" (RunModel.CTable p) -> forces_add_up forces p) /\
  (forall p, file "panelwise.dat" (RunModel.CTable p) -> magnitudes p) /\
  (forall p m, file "panelwise.dat" (RunModel.CTable p) -> file "matrix.dat" (RunModel.CTable m) -> well_shaped p m /\ system_solved p m).
Proof.
  intros SO S F C D H i d DD.
  destruct (RunProofs.run_files _ _ _ _ _ _ _ _ _ _ _ _ _ _ _ S H) as (outs & w1 & CO & _ & _ & _ & FI & _).
  assert (K : forall r, In r (fst (iter_states parse st)) -> dkeys r = STATE_PRIMARY_PARAMS).
  { intros r R. apply In_nth_error in R as [j J]. exact (iter_keys _ _ _ _ J). }
  assert (X : forall name c, has_file (written t) base d name c -> exists aero o key, RunSpec.state_file _ _ aero o key name c /\ nth_error outs i = Some o /\
     well_shaped (RunModel.o_panel o) (RunModel.o_matrix o) /\ forces_add_up (RunModel.o_forces o) (RunModel.o_panel o) /\
     magnitudes (RunModel.o_panel o) /\ system_solved (RunModel.o_panel o) (RunModel.o_matrix o)).
  { intros name c I. rewrite (has_state_file _ _ _ _ _ _ _ _ _ i name c FI DD) in I. destruct I as (aero & o & key & N1 & N2 & Y & _).
    exists aero, o, key. split; [exact Y|]. split; [exact N2|]. destruct (computes_each _ _ _ _ _ _ _ _ _ _ CO D K i aero o N1 N2) as [w2 A].
    exact (analyse_tables s w aero w2 o SO F C D (iter_keys _ _ _ _ N1) A). }
  cbv zeta. split; [|split].
  - intros aero fs cs p G P. destruct (X _ _ G) as (a1 & o1 & k1 & Y1 & N1 & _). destruct (X _ _ P) as (a2 & o2 & k2 & Y2 & N2 & _ & A & _).
    inversion Y1; subst. inversion Y2; subst. assert (o1 = o2) by congruence. subst o2. exact A.
  - intros p P. destruct (X _ _ P) as (a2 & o2 & k2 & Y2 & _ & _ & _ & A & _). inversion Y2; subst. exact A.
  - intros p m P M. destruct (X _ _ P) as (a1 & o1 & k1 & Y1 & N1 & _). destruct (X _ _ M) as (a2 & o2 & k2 & Y2 & N2 & A & _ & _ & B).
    inversion Y1; subst. inversion Y2; subst. assert (o1 = o2) by congruence. subst o2. split; [exact A|exact B].
Qed.

Lemma panel_rows n (gs : list R) x : List.length gs = n -> List.length (o_panels x) = n ->
  stack n (map Some gs :: map snd (panel_items n (Some x))) =
  map (fun gx => panel_row (fst gx) (snd gx)) (combine gs (o_panels x)).
Proof.
  cbn [panel_items map snd]. generalize (o_panels x) as ps. intros ps <-. unfold stack. revert ps. induction gs as [|y gs IH]; intros [|p ps] L; try discriminate; [reflexivity|].
  cbn [List.length seq map combine fst snd nth]. f_equal. rewrite <- seq_shift, map_map. rewrite <- (IH ps) by (cbn in L; congruence). apply map_ext. intro i. reflexivity.
Qed.

Theorem interface none_ok int_ok pf refdict r parse cpacs s st w t w' : solver_ok solve -> settings_ok s ->
  fresh (x_aircraft w) -> counts_set (x_aircraft w) -> x_data w = new_data ->
  AircraftIOModel.generate_refs none_ok int_ok pf refdict = Ok (x_refs w) -> reference_values refdict r ->
  run s parse cpacs s st w = (t, Ok w') ->
  exists eps rot a,
    dget s "_epsilon" = Some (PFlt (Some eps)) /\ dget s "_do_normal_rotations" = Some (PBool rot) /\
    pre_panelling interp seg_dist (x_aircraft w) = (a, Ok tt) /\
    forall i row d f, nth_error (fst (iter_states parse st)) i = Some row -> RunSpec.three_digits d i -> state_values row f ->
    exists pans ns, NormalModel.gen_lattice geo camber rot (f_alpha f) (f_beta f) a = Ok (pans, ns) /\
      let lat := set_normals pans ns in
      let b := boundary lat f r in
      let file := has_file (written t) base d in
      forall m g x, downwash (Q2R eps) lat = Some m -> solve (Some m) (Some b) = Some g -> vlm_results (Q2R eps) lat f r g = Some x ->
      (forall c, file "global.json" c -> exists forces coeffs, c = RunModel.CGlobal row forces coeffs /\ named_loads forces coeffs x) /\
      (forall c, file "panelwise.dat" c -> c = RunModel.CTable (map (fun gx => panel_row (fst gx) (snd gx)) (combine g (o_panels x)))) /\
      (forall c, file "matrix.dat" c -> c = RunModel.CTable (map (fun mb => matrix_row (fst mb) (snd mb)) (combine m b))).
Proof.
  intros SO S F C D GR RV H. assert (S0 := S). destruct S0 as (_ & _ & _ & _ & _ & _ & SR & _ & (eps & SE & _)).
  apply RunProofs.typed_bool in SR as [rot SR].
  destruct (RunProofs.run_files _ _ _ _ _ _ _ _ _ _ _ _ _ _ _ S H) as (outs & w1 & CO & NE & _ & _ & FI & _).
  assert (K : forall x, In x (fst (iter_states parse st)) -> dkeys x = STATE_PRIMARY_PARAMS).
  { intros x I. apply In_nth_error in I as [j J]. exact (iter_keys _ _ _ _ J). }
  assert (A : exists a, pre_panelling interp seg_dist (x_aircraft w) = (a, Ok tt)).
  { destruct (fst (iter_states parse st)) as [|r0 rs]; [congruence|]. inversion CO; subst. eapply analyse_first_ok. eassumption. }
  destruct A as [a PP]. exists eps, rot, a. split; [exact SE|]. split; [exact SR|]. split; [exact PP|].
  intros i row d f N DD SV. assert (KR := iter_keys _ _ _ _ N). assert (SG := state_got_values _ _ SV KR).
  assert (O : exists o, nth_error outs i = Some o).
  { assert (L : List.length outs = List.length (fst (iter_states parse st))) by (clear - CO; induction CO; cbn; congruence).
    destruct (nth_error outs i) as [o|] eqn:E; [eauto|]. apply nth_error_None in E. rewrite L in E. apply nth_error_None in E. congruence. }
  destruct O as [o O]. destruct (computes_each _ _ _ _ _ _ _ _ _ _ CO D K i row o N O) as [w2 AN].
  destruct (analyse_ok _ _ _ _ _ _ AN KR) as (f' & n & lat & G & P & NP & NZ & L & E). rewrite SG in G. injection G as <-.
  rewrite PP in P. assert (a = x_aircraft w2) by congruence. subst a. clear P. cbv zeta in E. rewrite D in E.
  destruct (pre_panelled interp seg_dist _ _ F PP) as [PA SB]. assert (C' := strips_counts _ _ SB C).
  assert (L0 := L). unfold make_lattice in L. cbn [getitem] in L. rewrite SE, SR in L. cbn [bind PyVal.truthy] in L.
  destruct (NormalModel.gen_lattice geo camber rot (f_alpha f) (f_beta f) (x_aircraft w2)) as [[pans ns]|] eqn:GL; [cbn [bind fst snd] in L|discriminate].
  assert (lat = Some (set_normals pans ns)) as -> by congruence. clear L. assert (SZ := lattice_size _ _ _ _ _ _ _ PA C' L0 NP).
  exists pans, ns. split; [reflexivity|]. cbv zeta. intros m g x DW SV' VR. set (lt := set_normals pans ns) in *.
  assert (GE : get_epsilon s = Got (Some (Q2R eps))) by (unfold get_epsilon, get_float; rewrite SE; reflexivity).
  rewrite (refs_got _ _ _ _ _ _ GR RV), GE in E.
  assert (LG : List.length g = n).
  { destruct (SO _ _ _ SV') as (rhs & E1 & E2 & _). injection E1 as <-. rewrite E2. unfold boundary. rewrite map_length. exact SZ. }
  assert (LP : List.length (o_panels x) = n) by (rewrite <- SZ; exact (proj1 (panel_results _ _ _ _ _ _ VR (eq_trans LG (eq_sym SZ))))).
  assert (X : forall name c, has_file (written t) base d name c -> exists key, RunSpec.state_file _ _ row o key name c).
  { intros name c I. rewrite (has_state_file _ _ _ _ _ _ _ _ _ i name c FI DD) in I. destruct I as (aero & o' & key & N1 & N2 & Y & _).
    exists key. congruence. }
  assert (ST : steps solve (Got (Some (Q2R eps))) (Got (Some f)) (Got (Some r)) (Some lt) n new_data =
    mkVD (Some m) (Some (boundary lt f r)) (("gamma", map Some g) :: panel_items n (Some x)) (force_items (Some x)) (coeff_items (Some x))).
  { unfold AnalysisModel.steps, calc_downwash, calc_boundary, calc_results. rewrite DW, SV', VR. reflexivity. }
  rewrite ST in E. subst o. split; [|split].
  - intros c I. destruct (X _ _ I) as [key Y]. inversion Y; subst. do 2 eexists. split; [reflexivity|]. unfold named_loads. repeat split; reflexivity.
  - intros c I. destruct (X _ _ I) as [key Y]. inversion Y; subst. f_equal. cbn [RunModel.o_panel]. rewrite <- (panel_rows (List.length lt)) by assumption. reflexivity.
  - intros c I. destruct (X _ _ I) as [key Y]. inversion Y; subst. reflexivity.
Qed.
End Run.
