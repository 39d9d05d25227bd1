(** Proofs for the standard run (C36, C63, C64). *)
From Coq Require Import List String Ascii Arith ZArith QArith Bool Lia Decimal DecimalString DecimalFacts DecimalNat.
From Verif Require Import PyBase PyFacts PyVal StateModel SettingsModel SettingsSpec SettingsProofs RunModel RunSpec StrFacts.
Import List ListNotations.
Open Scope string_scope.

(** ** Numerals *)
Lemma reading_cons c d acc s : digit c = Some d -> reading acc (String c s) = reading (10 * acc + d)%nat s.
Proof. intro D. cbn [reading]. rewrite D. reflexivity. Qed.
Lemma reading_uint u : forall acc, reading acc (NilEmpty.string_of_uint u) = Some (Nat.of_uint_acc u acc).
Proof.
  induction u as [|u IH|u IH|u IH|u IH|u IH|u IH|u IH|u IH|u IH|u IH]; intro acc; [reflexivity|..];
    cbn [NilEmpty.string_of_uint Nat.of_uint_acc]; rewrite Nat.tail_mul_spec;
    (erewrite reading_cons; [|vm_compute; reflexivity]); rewrite IH; do 2 f_equal; lia.
Qed.

Lemma to_uint_nil i : Nat.to_uint i <> Nil.
Proof.
  intro H. assert (X := Unsigned.to_of (Nat.to_uint i)). rewrite Unsigned.of_to, H in X. discriminate.
Qed.
Lemma nz_empty i : NilZero.string_of_uint (Nat.to_uint i) = NilEmpty.string_of_uint (Nat.to_uint i).
Proof. unfold NilZero.string_of_uint. destruct (Nat.to_uint i) eqn:E; try reflexivity. destruct (to_uint_nil i E). Qed.
Lemma reading_zeros k s : reading 0 (zeros k ++ s) = reading 0 s.
Proof. induction k as [|k IH]; [reflexivity|]. exact IH. Qed.
Lemma length_zeros k : String.length (zeros k) = k.
Proof. induction k as [|k IH]; cbn; congruence. Qed.

Lemma no_leading i d : Nat.to_uint i = D0 d -> d = Nil.
Proof.
  intro H. assert (X := Unsigned.to_of (Nat.to_uint i)). rewrite Unsigned.of_to, H in X.
  unfold unorm in X. cbn [nzhead] in X. destruct (nzhead d) eqn:E; try discriminate; [injection X as ->; reflexivity|].
  exfalso. exact (nzhead_nonzero _ _ E).
Qed.

Lemma dec3_ok i : three_digits (dec3 i) i.
Proof.
  unfold three_digits, dec3. rewrite nz_empty. set (s := NilEmpty.string_of_uint (Nat.to_uint i)).
  assert (R : reading 0 s = Some i) by (unfold s; rewrite reading_uint; f_equal; apply Unsigned.of_to).
  split; [rewrite reading_zeros; exact R|]. rewrite length_app_s, length_zeros.
  destruct (Nat.leb_spec (String.length s) 3) as [L|L]; [left; lia|right]. split; [lia|].
  replace (3 - String.length s)%nat with 0%nat by lia. cbn [zeros append]. intros r E.
  destruct (Nat.to_uint i) eqn:U; cbn in s; unfold s in E; try discriminate.
  apply no_leading in U. subst u. unfold s in L. cbn in L. lia.
Qed.

Fixpoint digits (s : string) : Prop := match s with EmptyString => True | String c r => digit c <> None /\ digits r end.
Lemma reading_digits s : forall acc i, reading acc s = Some i -> digits s.
Proof.
  induction s as [|c s IH]; intros acc i H; cbn; [exact I|]. cbn [reading] in H. destruct (digit c); [|discriminate].
  split; [discriminate|eauto].
Qed.
Lemma split_slash a : forall b x y, digits a -> digits b -> a ++ "/" ++ x = b ++ "/" ++ y -> a = b /\ x = y.
Proof.
  induction a as [|c a IH]; intros [|c' b] x y A B E; cbn in E.
  - injection E as ->. auto.
  - injection E as <- _. destruct B as [B _]. contradiction.
  - injection E as -> _. destruct A as [A _]. contradiction.
  - injection E as -> E. destruct A, B. destruct (IH b x y) as [-> ->]; auto.
Qed.
Lemma three_digits_inj d d' i j x y : three_digits d i -> three_digits d' j -> d ++ "/" ++ x = d' ++ "/" ++ y -> i = j /\ x = y.
Proof.
  intros [R _] [R' _] E. destruct (split_slash d d' x y) as [-> ->]; eauto using reading_digits. split; congruence.
Qed.

Lemma digit_inj c c' d : digit c = Some d -> digit c' = Some d -> c = c'.
Proof.
  unfold digit. destruct ((48 <=? nat_of_ascii c) && (nat_of_ascii c <=? 57))%nat eqn:E; [|discriminate].
  destruct ((48 <=? nat_of_ascii c') && (nat_of_ascii c' <=? 57))%nat eqn:E'; [|discriminate].
  apply andb_true_iff in E as [E1 E2]. apply andb_true_iff in E' as [E3 E4]. apply Nat.leb_le in E1, E2, E3, E4.
  intros H H'. injection H as H. injection H' as H'. rewrite <- (ascii_nat_embedding c), <- (ascii_nat_embedding c'). f_equal. lia.
Qed.
Lemma digit_small c d : digit c = Some d -> (d < 10)%nat.
Proof.
  unfold digit. destruct ((48 <=? nat_of_ascii c) && (nat_of_ascii c <=? 57))%nat eqn:E; [|discriminate].
  apply andb_true_iff in E as [E1 E2]. apply Nat.leb_le in E1, E2. intro H. injection H as H. lia.
Qed.
Lemma reading_bounds s : forall acc v, reading acc s = Some v -> (acc * 10 ^ String.length s <= v < (acc + 1) * 10 ^ String.length s)%nat.
Proof.
  induction s as [|c s IH]; intros acc v H; cbn [reading String.length] in *; [injection H as <-; cbn; lia|].
  destruct (digit c) as [d|] eqn:D; [|discriminate]. apply digit_small in D. apply IH in H. rewrite Nat.pow_succ_r'. nia.
Qed.
Lemma reading_inj s : forall s' acc acc' v, String.length s = String.length s' -> reading acc s = Some v -> reading acc' s' = Some v -> acc = acc' /\ s = s'.
Proof.
  induction s as [|c s IH]; intros [|c' s'] acc acc' v L H H'; cbn [reading String.length] in *; try discriminate; [split; congruence|].
  destruct (digit c) as [d|] eqn:D; [|discriminate]. destruct (digit c') as [d'|] eqn:D'; [|discriminate].
  assert (B := digit_small _ _ D). assert (B' := digit_small _ _ D'). destruct (IH s' _ _ v ltac:(congruence) H H') as [E ->].
  assert (d = d') by lia. subst d'. split; [lia|]. f_equal. exact (digit_inj _ _ _ D D').
Qed.
Lemma reading_lead s v : (0 < String.length s)%nat -> reading 0 s = Some v -> (forall r, s <> String "0" r) -> (10 ^ (String.length s - 1) <= v)%nat.
Proof.
  destruct s as [|c s]; cbn [String.length]; [lia|]. intros _ H N. cbn [reading] in H. destruct (digit c) as [d|] eqn:D; [|discriminate].
  apply reading_bounds in H. replace (S (String.length s) - 1)%nat with (String.length s) by lia.
  assert (d <> 0)%nat. { intros ->. apply (N s). f_equal. apply (digit_inj _ _ 0 D). reflexivity. } nia.
Qed.
Lemma three_digits_unique d d' i : three_digits d i -> three_digits d' i -> d = d'.
Proof.
  assert (K : forall d d', three_digits d i -> three_digits d' i -> (String.length d <= String.length d')%nat).
  { clear. intros d d' [R L] [R' L']. destruct L as [L|[L N]]; [destruct L' as [L'|[L' _]]; lia|].
    destruct (Nat.le_gt_cases (String.length d) (String.length d')) as [X|X]; [exact X|exfalso].
    assert (A := reading_lead d i ltac:(lia) R N). assert (B := reading_bounds _ _ _ R').
    assert (C : (10 ^ String.length d' <= 10 ^ (String.length d - 1))%nat) by (apply Nat.pow_le_mono_r; lia). lia. }
  intros H H'. assert (A := K _ _ H H'). assert (B := K _ _ H' H). destruct H as [R _], H' as [R' _].
  apply (reading_inj d d' 0 0 i); [lia|exact R|exact R'].
Qed.

(** ** Programs *)
Section Run.
Variable V T world : Type.
Notation out := (out V T).
Notation event := (event V T).
Notation prog := (prog V T).

Lemma andthen_ok {A B} (m : prog A) (f : A -> prog B) t b : andthen _ _ m f = (t, Ok b) ->
  exists t1 a t2, m = (t1, Ok a) /\ f a = (t2, Ok b) /\ t = (t1 ++ t2)%list.
Proof.
  destruct m as [t1 [a|e]]; cbn; [|discriminate]. destruct (f a) as [t2 r] eqn:E. intro H. injection H as <- ->. eauto 10.
Qed.
Lemma andthen_any {A B} (m : prog A) (f : A -> prog B) t r : andthen _ _ m f = (t, r) ->
  (exists t1 a t2, m = (t1, Ok a) /\ f a = (t2, r) /\ t = (t1 ++ t2)%list) \/ (exists e, m = (t, Err e) /\ r = Err e).
Proof.
  destruct m as [t1 [a|e]]; cbn; [destruct (f a) as [t2 r'] eqn:E|]; intro H; injection H as <- <-; eauto 10.
Qed.

Lemma written_app (t1 t2 : list event) : written _ _ (t1 ++ t2)%list = (written _ _ t1 ++ written _ _ t2)%list.
Proof. apply flat_map_app. Qed.

(** Only figures. *)
Definition no_file (t : list event) : Prop := written _ _ t = [].
Lemma no_file_app t1 t2 : no_file t1 -> no_file t2 -> no_file (t1 ++ t2)%list.
Proof. unfold no_file. rewrite written_app. intros -> ->. reflexivity. Qed.

Definition quiet {A} (m : prog A) : Prop := no_file (fst m).
Lemma quiet_andthen {A B} (m : prog A) (f : A -> prog B) : quiet m -> (forall a, quiet (f a)) -> quiet (andthen _ _ m f).
Proof.
  unfold quiet. intros M F. destruct m as [t [a|e]]; cbn; [|exact M]. specialize (F a). destruct (f a) as [t' r]. cbn in *.
  apply no_file_app; assumption.
Qed.
Lemma quiet_lift {A} (r : res A) : quiet (lift _ _ r).
Proof. reflexivity. Qed.

Variable base : string.
Variable draw : nat -> string -> res unit.
Variable str_of : pyval -> string.
Variable compute : world -> bool -> dict num -> world * res out.
Variable save_cpacs : world -> dict (list V) -> res world.

Let make_all := make_all V T draw str_of.
Let save_all := save_all V T base.
Let loop := loop V T world base draw str_of compute.
Let run := run V T world base draw str_of compute save_cpacs.
Let append_all := append_all V T.

Lemma quiet_emit_plots i l : quiet (emit_plots V T i l).
Proof. induction l as [|n l IH]; [reflexivity|]. cbn [emit_plots]. apply quiet_andthen; [reflexivity|]. intros _. exact IH. Qed.
Lemma quiet_show p i l : quiet (show_and_save V T p i l).
Proof.
  unfold show_and_save. apply quiet_andthen; [apply quiet_lift|]. intro sv. apply quiet_andthen; [destruct (truthy sv); [apply quiet_emit_plots|reflexivity]|].
  intros _. apply quiet_andthen; [apply quiet_lift|]. intro sh. destruct (truthy sh); reflexivity.
Qed.
Lemma quiet_2d3d p i n : quiet (plot2d3d V T draw p i n).
Proof. unfold plot2d3d. apply quiet_andthen; [apply quiet_show|]. intros _. apply quiet_lift. Qed.
Lemma quiet_if s n m : (forall p, quiet (m p)) -> quiet (plot_if V T s n m).
Proof.
  intro M. unfold plot_if. apply quiet_andthen; [apply quiet_lift|]. intro p. apply quiet_andthen; [apply quiet_lift|]. intro sv.
  apply quiet_andthen; [apply quiet_lift|]. intro sh. destruct (_ || _); [apply M|reflexivity].
Qed.
Lemma quiet_results p i l : quiet (plot_results V T draw str_of p i l).
Proof. induction l as [|k l IH]; [reflexivity|]. cbn [plot_results]. apply quiet_andthen; [apply quiet_2d3d|]. intros _. exact IH. Qed.
Lemma quiet_make_all s i : quiet (make_all s i).
Proof.
  unfold make_all, RunModel.make_all. apply quiet_andthen; [apply quiet_if; intro p; apply quiet_andthen; [apply quiet_lift|intros _; apply quiet_show]|].
  intros _. apply quiet_andthen; [apply quiet_if; intro p; apply quiet_2d3d|]. intros _. apply quiet_andthen; [apply quiet_if; intro p; apply quiet_2d3d|].
  intros _. apply quiet_if. intro p. apply quiet_andthen; [apply quiet_lift|]. intro k. apply quiet_results.
Qed.

(** ** Flags of accepted settings *)
Lemma typed_bool d k : typed d k TyBool -> exists b, dget d k = Some (PBool b).
Proof. intros (x & G & O). inversion O; subst. eauto. Qed.

Lemma save_flag s key : settings_ok s -> In key ["global"; "panelwise"; "aeroperformance"; "matrix_system"] ->
  exists b, flag s "save_results" key = Ok b /\ (b = true <-> requested s key).
Proof.
  intros (_ & _ & _ & _ & (r & G & A) & _) I.
  assert (TY : typed r key TyBool) by (cbn in I; decompose [or] I; subst; tauto).
  apply typed_bool in TY as [b B]. exists b. unfold flag. cbn [getitem]. rewrite G. cbn [bind getitem]. rewrite B. cbn. split; [reflexivity|].
  unfold requested. cbn [at_path]. split.
  - intros ->. exists (PDict r). split; [apply item_dict, G|]. exists (PBool true). split; [apply item_dict, B|reflexivity].
  - intros (y & E1 & z & E2 & ->). apply item_dict in E1. assert (y = PDict r) by congruence. subst y. apply item_dict in E2. congruence.
Qed.

(** Files of one state. *)
Lemma save_all_ok s i aero o : settings_ok s -> exists t, save_all s i aero o = (t, Ok tt) /\
  NoDup (map fst (written _ _ t)) /\
  forall p c, In (p, c) (written _ _ t) <->
    exists key name, state_file _ _ aero o key name c /\ requested s key /\ p = "_results/" ++ base ++ "_" ++ dec3 i ++ "/" ++ name.
Proof.
  intro S. destruct (save_flag s "global" S) as (b1 & F1 & R1); [cbn; auto|]. destruct (save_flag s "panelwise" S) as (b2 & F2 & R2); [cbn; auto|].
  destruct (save_flag s "matrix_system" S) as (b3 & F3 & R3); [cbn; auto|].
  unfold save_all, RunModel.save_all, when, lift. rewrite F1, F2, F3.
  assert (P : forall name, results_dir base i ++ "/" ++ name = "_results/" ++ base ++ "_" ++ dec3 i ++ "/" ++ name)
    by (intro name; unfold results_dir; rewrite !app_assoc_s; reflexivity).
  assert (N : forall n1 n2, results_dir base i ++ "/" ++ n1 = results_dir base i ++ "/" ++ n2 -> n1 = n2)
    by (intros n1 n2 E; apply app_inj_s in E; injection E as E; exact E).
  assert (N1 := N "global.json" "panelwise.dat"). assert (N2 := N "global.json" "matrix.dat"). assert (N3 := N "panelwise.dat" "matrix.dat").
  assert (D1 : f_results_global base i <> f_results_panelwise base i) by (intro E; specialize (N1 E); discriminate).
  assert (D2 : f_results_global base i <> f_results_matrix base i) by (intro E; specialize (N2 E); discriminate).
  assert (D3 : f_results_panelwise base i <> f_results_matrix base i) by (intro E; specialize (N3 E); discriminate).
  exists ((if b1 then [EFile (f_results_global base i) (CGlobal aero (o_forces o) (o_coeffs o))] else []) ++
          (if b2 then [EFile (f_results_panelwise base i) (CTable (o_panel o))] else []) ++
          (if b3 then [EFile (f_results_matrix base i) (CTable (o_matrix o))] else []))%list.
  split; [destruct b1, b2, b3; reflexivity|]. split.
  - clear N N1 N2 N3 P. unfold written. destruct b1, b2, b3; cbn -[f_results_global f_results_panelwise f_results_matrix]; repeat first [apply NoDup_nil|apply NoDup_cons; [cbn [In]; intuition congruence|]].
  - intros p c. rewrite !written_app, !in_app_iff. split.
    + intros [H|[H|H]]; [destruct b1|destruct b2|destruct b3]; cbn in H; try contradiction; destruct H as [H|[]]; injection H as <- <-;
        do 2 eexists; (split; [constructor|]); (split; [tauto|rewrite <- P; reflexivity]).
    + intros (key & name & F & R & ->). rewrite <- P. destruct F.
      * left. apply R1 in R. subst b1. left. reflexivity.
      * right. left. apply R2 in R. subst b2. left. reflexivity.
      * right. right. apply R3 in R. subst b3. left. reflexivity.
Qed.

(** ** The loop *)
Notation path_of i name := ("_results/" ++ base ++ "_" ++ dec3 i ++ "/" ++ name).
Lemma path_inj i j n m : path_of i n = path_of j m -> i = j /\ n = m.
Proof.
  intro E. apply app_inj_s in E. apply app_inj_s in E. apply app_inj_s in E.
  exact (three_digits_inj _ _ _ _ _ _ (dec3_ok i) (dec3_ok j) E).
Qed.

Definition file_at (s : dict pyval) (rows : list (dict num)) (outs : list out) (i : nat) (p : string) (c : content V T) : Prop :=
  exists k aero o key name, nth_error rows k = Some aero /\ nth_error outs k = Some o /\
    state_file _ _ aero o key name c /\ requested s key /\ p = path_of (i + k) name.

Lemma NoDup_app2 {A} (l1 l2 : list A) : NoDup l1 -> NoDup l2 -> (forall x, In x l1 -> ~ In x l2) -> NoDup (l1 ++ l2)%list.
Proof.
  intros N1 N2 D. induction l1 as [|a l1 IH]; [exact N2|]. cbn. inversion N1; subst. constructor.
  - rewrite in_app_iff. intros [I|I]; [contradiction|]. apply (D a); [left; reflexivity|exact I].
  - apply IH; [assumption|]. intros x I. apply D. right. exact I.
Qed.

Lemma fold_cons {A B} (f : A -> B -> A) b l a : fold_left f (b :: l) a = fold_left f l (f a b).
Proof. reflexivity. Qed.

Lemma loop_cons s aero rows last i w r : loop s (aero :: rows) last i w r =
  let '(w', ro) := compute w (i =? 0)%nat aero in
  andthen _ _ (lift _ _ ro) (fun o => andthen _ _ (save_all s i aero o) (fun _ => andthen _ _ (make_all s i) (fun _ =>
    loop s rows last (S i) w' (append_all r o)))).
Proof. reflexivity. Qed.

Lemma loop_any s : settings_ok s -> forall rows last i w r t res, loop s rows last i w r = (t, res) ->
  exists rows1 rows2 outs w1, rows = (rows1 ++ rows2)%list /\ computes _ _ _ compute i w rows1 outs w1 /\
    NoDup (map fst (written _ _ t)) /\ (forall p c, In (p, c) (written _ _ t) <-> file_at s rows1 outs i p c) /\
    (forall w' r', res = Ok (w', r') -> rows2 = [] /\ last = Ok tt /\ w' = w1 /\ r' = fold_left append_all outs r).
Proof.
  intro S. induction rows as [|aero rows IH]; intros last i w r t res H.
  - exists [], [], [], w. split; [reflexivity|]. split; [constructor|]. cbn in H.
    assert (X : t = []) by (destruct last as [[]|]; cbn in H; congruence). subst t. split; [constructor|]. split.
    + intros p c. split; [intros []|]. intros (k & a & o & key & name & E & _). destruct k; discriminate.
    + intros w' r' ->. destruct last as [[]|]; cbn in H; [injection H as <- <-|discriminate]. auto.
  - rewrite loop_cons in H. destruct (compute w (i =? 0)%nat aero) as [w0 [o|e]] eqn:C.
    2:{ cbn in H. injection H as <- <-. exists [], (aero :: rows), [], w. split; [reflexivity|]. split; [constructor|]. split; [constructor|].
        split; [|discriminate]. intros p c. split; [intros []|]. intros (k & a & o & key & name & E & _). destruct k; discriminate. }
    destruct (save_all_ok s i aero o S) as (ts & SA & N & F). unfold lift in H. cbn [andthen] in H. rewrite SA in H. cbn [andthen] in H.
    destruct (make_all s i) as [tm rm] eqn:M.
    assert (Q : no_file tm). { assert (Q := quiet_make_all s i). unfold quiet in Q. rewrite M in Q. exact Q. }
    destruct rm as [[]|e]; cbn [andthen] in H.
    + destruct (loop s rows last (Datatypes.S i) w0 (append_all r o)) as [tl rl] eqn:L.
      injection H as <- <-. destruct (IH _ _ _ _ _ _ L) as (rows1 & rows2 & outs & w1 & -> & CP & N' & F' & R').
      exists (aero :: rows1), rows2, (o :: outs), w1. split; [reflexivity|]. split; [econstructor; eassumption|].
      cbn [app] in *. rewrite written_app, written_app, Q. cbn [app]. split; [|split].
      * rewrite map_app. apply NoDup_app2; [exact N|exact N'|]. intros x I J.
        apply in_map_iff in I as ((p & c) & <- & I). apply in_map_iff in J as ((p' & c') & E & J). cbn in E. subst p'.
        apply F in I as (key & name & _ & _ & ->). apply F' in J as (k & a & o' & key' & name' & _ & _ & _ & _ & E). apply path_inj in E. lia.
      * intros p c. rewrite in_app_iff, F, F'. split.
        -- intros [(key & name & A & B & ->)|(k & a & o' & key & name & A & B & X & Y & ->)].
           ++ exists 0%nat, aero, o, key, name. rewrite Nat.add_0_r. auto 10.
           ++ exists (Datatypes.S k), a, o', key, name. rewrite Nat.add_succ_r. auto 10.
        -- intros (k & a & o' & key & name & A & B & X & Y & ->). destruct k as [|k]; cbn in A, B.
           ++ injection A as <-. injection B as <-. left. rewrite Nat.add_0_r. eauto 10.
           ++ right. exists k, a, o', key, name. rewrite Nat.add_succ_r. auto 10.
      * intros w' r' E. destruct (R' _ _ E) as (? & ? & ? & ->). split; [assumption|]. split; [assumption|]. split; [assumption|]. symmetry. apply fold_cons.
    + injection H as <- <-. exists [aero], rows, [o], w0. split; [reflexivity|]. split; [econstructor; [exact C|constructor]|].
      rewrite written_app, Q, app_nil_r. split; [exact N|]. split; [|discriminate].
      intros p c. rewrite F. split.
      * intros (key & name & A & B & ->). exists 0%nat, aero, o, key, name. rewrite Nat.add_0_r. auto 10.
      * intros (k & a & o' & key & name & A & B & X & Y & ->). destruct k as [|[|k]]; cbn in A, B; try discriminate.
        injection A as <-. injection B as <-. rewrite Nat.add_0_r. eauto 10.
Qed.


Lemma file_at_result s rows outs p c : file_at s rows outs 0 p c <-> result_file _ _ base s rows outs p c.
Proof.
  split.
  - intros (k & a & o & key & name & A & B & X & Y & ->). exists k, a, o, key, name, (dec3 k).
    split; [exact A|]. split; [exact B|]. split; [exact X|]. split; [exact Y|]. split; [apply dec3_ok|reflexivity].
  - intros (i & a & o & key & name & d & A & B & X & Y & D & ->). exists i, a, o, key, name.
    split; [exact A|]. split; [exact B|]. split; [exact X|]. split; [exact Y|]. rewrite (three_digits_unique _ _ _ D (dec3_ok i)). reflexivity.
Qed.

(** ** Results per name *)
Lemma append_same (r : dict (list V)) k x : dget (append_to V r k x) k = option_map (fun l => (l ++ [x])%list) (dget r k).
Proof. unfold append_to. destruct (dget r k) eqn:E; [apply dget_dset_same|exact E]. Qed.
Lemma append_other (r : dict (list V)) k k' x : k <> k' -> dget (append_to V r k x) k' = dget r k'.
Proof. intro N. unfold append_to. destruct (dget r k) eqn:E; [apply dget_dset_other; congruence|reflexivity]. Qed.
Lemma append_keys (r : dict (list V)) k x : dkeys (append_to V r k x) = dkeys r.
Proof. unfold append_to. destruct (dget r k) eqn:E; [apply dset_keys_mem; congruence|reflexivity]. Qed.

Ltac app_get := repeat first [rewrite append_same | rewrite append_other by discriminate].
Lemma table_add outs r o : table V T outs r -> table V T (outs ++ [o])%list (append_all r o).
Proof.
  unfold table. intros (K & (A1 & A2 & A3) & (A4 & A5 & A6) & (A7 & A8 & A9) & (B1 & B2 & B3) & (B4 & B5 & B6) & (B7 & B8 & B9)).
  unfold append_all, RunModel.append_all. split; [rewrite !append_keys; exact K|].
  repeat split; app_get; first [rewrite A1|rewrite A2|rewrite A3|rewrite A4|rewrite A5|rewrite A6|rewrite A7|rewrite A8|rewrite A9|
    rewrite B1|rewrite B2|rewrite B3|rewrite B4|rewrite B5|rewrite B6|rewrite B7|rewrite B8|rewrite B9]; cbn [option_map]; rewrite map_app; reflexivity.
Qed.
Lemma table_new : table V T [] (new_results V).
Proof. unfold table. cbn. repeat split. Qed.
Lemma table_fold outs : forall outs0 r, table V T outs0 r -> table V T (outs0 ++ outs)%list (fold_left append_all outs r).
Proof.
  induction outs as [|o outs IH]; intros outs0 r H; [rewrite app_nil_r; exact H|]. rewrite fold_cons.
  replace (outs0 ++ o :: outs)%list with ((outs0 ++ [o]) ++ outs)%list by (rewrite <- app_assoc; reflexivity). apply IH, table_add, H.
Qed.

(** ** The whole run *)
Lemma when_flag s (m : prog unit) t : settings_ok s -> m = (t, Ok tt) ->
  exists t', when V T (flag s "save_results" "aeroperformance") m = (t', Ok tt) /\
    ((t' = t /\ requested s "aeroperformance") \/ (t' = [] /\ ~ requested s "aeroperformance")).
Proof.
  intros S ->. destruct (save_flag s "aeroperformance" S) as (b & F & R); [cbn; auto|]. unfold when. rewrite F. cbn. destruct b; cbn.
  - exists t. split; [reflexivity|]. left. tauto.
  - exists []. split; [reflexivity|]. right. split; [reflexivity|]. intro X. apply R in X. discriminate.
Qed.

Lemma map_path_other i name : "_results/" ++ base ++ "_aeroperformance.json" <> path_of i name.
Proof.
  intro E. apply app_inj_s in E. apply app_inj_s in E. cbn [append] in E. injection E as E.
  destruct (dec3_ok i) as [R [L|[L _]]]; destruct (dec3 i) as [|c d]; cbn in L; try lia; cbn in E; injection E as <- _; discriminate R.
Qed.

Theorem run_any parse cpacs s st w t res : settings_ok s -> run parse cpacs s st w = (t, res) ->
  exists rows1 rows2 outs w1, fst (iter_states parse st) = (rows1 ++ rows2)%list /\ computes _ _ _ compute 0 w rows1 outs w1 /\
    NoDup (map fst (written _ _ t)) /\
    (forall p c, result_file _ _ base s rows1 outs p c -> In (p, c) (written _ _ t)) /\
    (forall p c, In (p, c) (written _ _ t) -> result_file _ _ base s rows1 outs p c \/ (rows2 = [] /\ map_file _ _ base s st outs p c)) /\
    (forall w', res = Ok w' -> rows2 = [] /\ snd (iter_states parse st) = Ok tt /\ rows1 <> [] /\
       (cpacs = false -> w' = w1) /\ (cpacs = true -> exists r, table V T outs r /\ save_cpacs w1 r = Ok w') /\
       forall p c, map_file _ _ base s st outs p c -> exists p' c', In (p', c') (written _ _ t) /\ map_file _ _ base s st outs p' c').
Proof.
  intros S H. unfold run, RunModel.run in H. destruct (iter_states parse st) as [rows last] eqn:IT. cbn [fst snd].
  assert (NM : forall outs rows1 p c, map_file V T base s st outs p c -> ~ file_at s rows1 outs 0 p c).
  { intros outs rows1 p c (_ & -> & _) (k & a & o & key & name & _ & _ & _ & _ & E). exact (map_path_other _ _ E). }
  apply andthen_any in H as [(t1 & [w1 r1] & t2 & L & H & ->)|(e & L & ->)].
  - destruct (loop_any s S _ _ _ _ _ _ _ L) as (rows1 & rows2 & outs & w2 & E & CP & N & F & R).
    destruct (R _ _ eq_refl) as (-> & -> & -> & ->). exists rows1, [], outs, w2. rewrite app_nil_r in E. subst rows.
    split; [rewrite app_nil_r; reflexivity|]. split; [exact CP|]. cbn [fst snd] in H.
    assert (TB := table_fold outs [] (new_results V) table_new). cbn [app] in TB.
    set (rr := fold_left append_all outs (new_results V)) in *.
    assert (X : (exists e, t2 = [] /\ res = Err e) \/
      exists w', ((cpacs = false /\ w' = w2) \/ (cpacs = true /\ save_cpacs w2 rr = Ok w')) /\
        ((t2 = [EFile ("_results/" ++ base ++ "_aeroperformance.json") (CMap (f_aero st) rr)] /\ requested s "aeroperformance") \/
         (t2 = [] /\ ~ requested s "aeroperformance")) /\
        res = match rows1 with [] => Err UnboundLocalError | _ => Ok w' end).
    { apply andthen_any in H as [(t3 & w' & t4 & C & H & ->)|(e & C & ->)].
      2:{ left. exists e. split; [|reflexivity]. destruct cpacs; cbn in C; [injection C as <- _; reflexivity|discriminate]. }
      right. exists w'. assert (t3 = []) by (destruct cpacs; cbn in C; injection C as <- _; reflexivity). subst t3. cbn [app].
      split; [destruct cpacs; cbn in C; [right|left]; (split; [reflexivity|]); injection C; auto|].
      destruct (when_flag s (save_map V T base st rr) _ S eq_refl) as (tw & W & TW). rewrite W in H. cbn [andthen] in H.
      destruct rows1; cbn in H; injection H as <- <-; rewrite app_nil_r; auto. }
    destruct X as [(e & -> & ->)|(w' & C & D & ->)].
    + rewrite app_nil_r. split; [exact N|]. split; [intros p c Y; apply F, file_at_result, Y|]. split; [|discriminate].
      intros p c Y. left. apply file_at_result, F, Y.
    + assert (MF : requested s "aeroperformance" -> map_file V T base s st outs ("_results/" ++ base ++ "_aeroperformance.json") (CMap (f_aero st) rr)).
      { intro Rq. split; [exact Rq|]. split; [reflexivity|]. eauto. }
      rewrite written_app, map_app. split; [|split; [|split]].
      * apply NoDup_app2; [exact N|destruct D as [[-> _]|[-> _]]; cbn; repeat constructor; intros []|].
        intros x I J. destruct D as [[-> Rq]|[-> _]]; [|destruct J]. cbn in J. destruct J as [<-|[]].
        apply in_map_iff in I as ((p & c) & E & I). cbn in E. subst p. apply F in I.
        destruct I as (k & a & o & key & name & _ & _ & _ & _ & E). exact (map_path_other _ _ E).
      * intros p c Y. apply in_or_app. left. apply F, file_at_result, Y.
      * intros p c I. apply in_app_or in I as [I|I]; [left; apply file_at_result, F, I|right].
        destruct D as [[-> Rq]|[-> _]]; [|destruct I]. cbn in I. destruct I as [I|[]]. injection I as <- <-. split; [reflexivity|exact (MF Rq)].
      * intros w0 E. destruct rows1 as [|row rows1]; [discriminate|]. injection E as <-.
        split; [reflexivity|]. split; [reflexivity|]. split; [discriminate|]. split; [|split].
        -- intros ->. destruct C as [[_ C]|[C _]]; [exact C|discriminate].
        -- intros ->. destruct C as [[C _]|[_ C]]; [discriminate|]. exists rr. auto.
        -- intros p c (Rq & _ & _). destruct D as [[-> _]|[_ D]]; [|contradiction]. do 2 eexists. split; [|exact (MF Rq)].
           apply in_or_app. right. left. reflexivity.
  - destruct (loop_any s S _ _ _ _ _ _ _ L) as (rows1 & rows2 & outs & w2 & E & CP & N & F & R).
    exists rows1, rows2, outs, w2. split; [exact E|]. split; [exact CP|]. split; [exact N|]. split; [intros p c Y; apply F, file_at_result, Y|].
    split; [|discriminate]. intros p c Y. left. apply file_at_result, F, Y.
Qed.

(** The table is determined. *)
Lemma assoc_ext {A} (d d' : dict A) : NoDup (dkeys d) -> dkeys d = dkeys d' -> (forall k, In k (dkeys d) -> dget d k = dget d' k) -> d = d'.
Proof.
  revert d'. induction d as [|[k v] d IH]; intros [|[k' v'] d'] N K G; cbn in K; try discriminate; [reflexivity|].
  injection K as <- K. cbn in N. apply NoDup_cons_iff in N as [N1 N2]. assert (E := G k (or_introl eq_refl)). cbn in E. rewrite String.eqb_refl in E. injection E as <-.
  f_equal. apply IH; [exact N2|exact K|]. intros k' I. specialize (G k' (or_intror I)). cbn in G. destruct (String.eqb k' k) eqn:Q; [|exact G].
  apply String.eqb_eq in Q. subst. contradiction.
Qed.
Lemma table_unique outs r r' : table V T outs r -> table V T outs r' -> r = r'.
Proof.
  intros (K & A) (K' & A'). apply assoc_ext; [|congruence|].
  - rewrite K. repeat constructor; cbn; intuition discriminate.
  - rewrite K. intros k I. cbn in I. decompose [and] A. decompose [and] A'. repeat destruct I as [<-|I]; [..|destruct I]; congruence.
Qed.
Theorem run_files parse cpacs s st w t w' : settings_ok s -> run parse cpacs s st w = (t, Ok w') ->
  exists outs w1, let rows := fst (iter_states parse st) in
    computes _ _ _ compute 0 w rows outs w1 /\ rows <> [] /\ snd (iter_states parse st) = Ok tt /\
    NoDup (map fst (written _ _ t)) /\
    (forall p c, In (p, c) (written _ _ t) <-> result_file _ _ base s rows outs p c \/ map_file _ _ base s st outs p c) /\
    (cpacs = false -> w' = w1) /\ (cpacs = true -> exists r, table V T outs r /\ save_cpacs w1 r = Ok w').
Proof.
  intros S R. destruct (run_any _ _ _ _ _ _ _ S R) as (rows1 & rows2 & outs & w1 & E & C & N & F1 & F2 & F3).
  destruct (F3 w' eq_refl) as (-> & L & NE & C1 & C2 & M). rewrite app_nil_r in E. exists outs, w1. cbv zeta. rewrite E.
  split; [exact C|]. split; [exact NE|]. split; [exact L|]. split; [exact N|]. split; [|split; [exact C1|exact C2]].
  intros p c. split.
  - intro I. destruct (F2 p c I) as [H|[_ H]]; auto.
  - intros [H|H]; [exact (F1 p c H)|]. destruct (M p c H) as (p' & c' & I & H'). destruct H as (_ & -> & r & Tr & ->).
    destruct H' as (_ & -> & r' & Tr' & ->). rewrite (table_unique _ _ _ Tr Tr'). exact I.
Qed.

(** ** Figures *)
Definition plot_of (s : dict pyval) (plot : string) (e : dict pyval) : Prop :=
  exists d, dget s "plot" = Some (PDict d) /\ dget d plot = Some (PDict e).
Lemma plot_opts s plot : settings_ok s -> In plot ["geometry"; "lattice"; "matrix_downwash"; "results"] ->
  exists e l b1 b2, plot_of s plot e /\ dget e "opt" = Some (PList l) /\ dget e "save" = Some (PBool b1) /\ dget e "show" = Some (PBool b2).
Proof.
  intros (_ & _ & _ & _ & _ & (d & G & A) & _) I.
  assert (X : sub d plot plot_options) by (cbn in I; decompose [or] I; subst; tauto). destruct X as (e & E & O1 & O2 & O3).
  apply typed_bool in O2 as [b2 B2]. apply typed_bool in O3 as [b1 B1]. destruct O1 as (x & X & O). inversion O; subst.
  exists e. do 3 eexists. split; [exists d; auto|]. eauto.
Qed.
Lemma plot_path s plot e k x : plot_of s plot e -> (at_path (PDict s) ["plot"; plot; k] x <-> dget e k = Some x).
Proof.
  intros (d & G & E). cbn [at_path]. split.
  - intros (y & A & z & B & v & C & <-). apply item_dict in A. assert (y = PDict d) by congruence. subst y.
    apply item_dict in B. assert (z = PDict e) by congruence. subst z. apply item_dict in C. exact C.
  - intro H. exists (PDict d). split; [apply item_dict, G|]. exists (PDict e). split; [apply item_dict, E|]. exists x. split; [apply item_dict, H|reflexivity].
Qed.

(** What [show_and_save] does for given flags. *)
Definition shown (b1 b2 : bool) (i : nat) (names : list string) : list event :=
  ((if b1 then map (EPlot i) names else []) ++ (if b2 then [EShow i] else []))%list.
Lemma emit_plots_eq i l : emit_plots V T i l = (map (EPlot i) l, Ok tt).
Proof. induction l as [|n l IH]; [reflexivity|]. cbn [emit_plots emit andthen]. rewrite IH. reflexivity. Qed.
Lemma show_eq e i names b1 b2 : dget e "save" = Some (PBool b1) -> dget e "show" = Some (PBool b2) ->
  show_and_save V T (PDict e) i names = (shown b1 b2 i names, Ok tt).
Proof.
  intros S H. unfold show_and_save, shown. cbn [getitem]. rewrite S, H. cbn [lift andthen truthy].
  destruct b1, b2; cbn [andthen emit ret]; rewrite ?emit_plots_eq; cbn [andthen emit ret app]; rewrite ?app_nil_r; reflexivity.
Qed.
Lemma plot_if_eq s plot m e b1 b2 : plot_of s plot e -> dget e "save" = Some (PBool b1) -> dget e "show" = Some (PBool b2) ->
  plot_if V T s plot m = if b1 || b2 then m (PDict e) else ([], Ok tt).
Proof.
  intros (d & G & E) S H. unfold plot_if. cbn [getitem]. rewrite G. cbn [bind getitem]. rewrite E. cbn [lift andthen getitem].
  rewrite S. cbn [lift andthen]. rewrite H. cbn [lift andthen truthy]. destruct (b1 || b2); [|reflexivity]. destruct (m (PDict e)) as [t r]. reflexivity.
Qed.

(** The events of one plot of the settings with figures [names]. *)
Lemma in_shown b1 b2 i names ev : In ev (shown b1 b2 i names) <->
  (exists n, b1 = true /\ In n names /\ ev = EPlot i n) \/ (b2 = true /\ ev = EShow i).
Proof.
  unfold shown. rewrite in_app_iff. split.
  - intros [H|H]; [left; destruct b1; [|destruct H]; apply in_map_iff in H as (n & <- & I); eauto|right; destruct b2; [|destruct H]; destruct H as [H|[]]; auto].
  - intros [(n & -> & I & ->)|(-> & ->)]; [left; apply in_map; exact I|right; left; reflexivity].
Qed.

Definition events_of (i : nat) (sv sh : Prop) (name : string -> Prop) (ev : event) : Prop :=
  (exists n, name n /\ sv /\ ev = EPlot i n) \/ (exists n, name n /\ sh /\ ev = EShow i).

Lemma results_eq e i b1 b2 : dget e "save" = Some (PBool b1) -> dget e "show" = Some (PBool b2) -> forall l t,
  plot_results V T draw str_of (PDict e) i l = (t, Ok tt) ->
  forall ev, In ev t <-> events_of i (b1 = true) (b2 = true)
    (fun n => exists o, In o l /\ (n = "results_" ++ str_of o ++ "2D" \/ n = "results_" ++ str_of o ++ "3D")) ev.
Proof.
  intros S H. induction l as [|k l IH]; intros t P ev; cbn [plot_results] in P.
  - injection P as <-. split; [intros []|]. intros [(n & (o & [] & _) & _)|(n & (o & [] & _) & _)].
  - apply andthen_ok in P as (t1 & [] & t2 & P1 & P2 & ->). unfold plot2d3d in P1. apply andthen_ok in P1 as (t3 & [] & t4 & P3 & P4 & ->).
    rewrite (show_eq _ _ _ _ _ S H) in P3. injection P3 as <-. injection P4 as <- _. rewrite app_nil_r, in_app_iff, in_shown, (IH _ P2).
    unfold events_of. split.
    + intros [[(n & B & I & ->)|(B & ->)]|[(n & (o & I & N) & B & ->)|(n & (o & I & N) & B & ->)]].
      * left. exists n. split; [exists k; split; [left; reflexivity|]; destruct I as [<-|[<-|[]]]; [right|left]; reflexivity|]. auto.
      * right. eexists. split; [exists k; split; [left; reflexivity|left; reflexivity]|]. auto.
      * left. exists n. split; [exists o; split; [right; exact I|exact N]|]. auto.
      * right. exists n. split; [exists o; split; [right; exact I|exact N]|]. auto.
    + intros [(n & (o & [->|I] & N) & B & ->)|(n & (o & [->|I] & N) & B & ->)].
      * left. left. exists n. split; [exact B|]. split; [destruct N as [->| ->]; [right; left|left]; reflexivity|reflexivity].
      * right. left. exists n. split; [exists o; auto|]. auto.
      * left. right. auto.
      * right. right. exists n. split; [exists o; auto|]. auto.
Qed.

Definition plot_events (s : dict pyval) (i : nat) (ev : event) : Prop :=
  exists plot name, figure str_of s plot name /\
    ((plot_flag s plot "save" /\ ev = EPlot i name) \/ (plot_flag s plot "show" /\ ev = EShow i)).

Lemma fixed_eq s plot (m : pyval -> prog unit) e b1 b2 i names t :
  plot_of s plot e -> dget e "save" = Some (PBool b1) -> dget e "show" = Some (PBool b2) -> names <> [] ->
  (forall t, m (PDict e) = (t, Ok tt) -> t = shown b1 b2 i names) ->
  plot_if V T s plot m = (t, Ok tt) ->
  forall ev, In ev t <-> exists name, In name names /\ ((plot_flag s plot "save" /\ ev = EPlot i name) \/ (plot_flag s plot "show" /\ ev = EShow i)).
Proof.
  intros P S H NE M E ev. unfold plot_flag. setoid_rewrite (plot_path s plot e _ _ P). rewrite S, H. rewrite (plot_if_eq _ _ _ _ _ _ P S H) in E.
  assert (X : t = shown b1 b2 i names) by (destruct b1, b2; cbn [orb] in E; [apply M, E..|injection E as <-; reflexivity]).
  rewrite X, in_shown. split.
  - intros [(n & -> & I & ->)|(-> & ->)]; [exists n; auto|]. destruct names as [|n names]; [congruence|]. exists n. split; [left; reflexivity|auto].
  - intros (n & I & [[B ->]|[B ->]]); [left; exists n; split; [congruence|auto]|right; split; [congruence|reflexivity]].
Qed.

Lemma make_all_events s i t : settings_ok s -> make_all s i = (t, Ok tt) -> forall ev, In ev t <-> plot_events s i ev.
Proof.
  intros S H. unfold make_all, RunModel.make_all in H.
  destruct (plot_opts s "matrix_downwash" S) as (e1 & l1 & a1 & b1 & P1 & O1 & S1 & H1); [cbn; auto|].
  destruct (plot_opts s "geometry" S) as (e2 & l2 & a2 & b2 & P2 & O2 & S2 & H2); [cbn; auto|].
  destruct (plot_opts s "lattice" S) as (e3 & l3 & a3 & b3 & P3 & O3 & S3 & H3); [cbn; auto|].
  destruct (plot_opts s "results" S) as (e4 & l4 & a4 & b4 & P4 & O4 & S4 & H4); [cbn; auto|].
  apply andthen_ok in H as (t1 & [] & t' & E1 & H & ->). apply andthen_ok in H as (t2 & [] & t'' & E2 & H & ->).
  apply andthen_ok in H as (t3 & [] & t4 & E3 & E4 & ->). intro ev. rewrite !in_app_iff.
  rewrite (fixed_eq s _ _ e1 a1 b1 i ["downwash"] t1 P1 S1 H1 ltac:(discriminate)) with (2 := E1).
  2:{ intros x X. apply andthen_ok in X as (x1 & [] & x2 & X1 & X2 & ->). injection X1 as <- _. rewrite (show_eq _ _ _ _ _ S1 H1) in X2. cbn [app]. congruence. }
  rewrite (fixed_eq s _ _ e2 a2 b2 i ["geometry3D"; "geometry2D"] t2 P2 S2 H2 ltac:(discriminate)) with (2 := E2).
  2:{ intros x X. apply andthen_ok in X as (x1 & [] & x2 & X1 & X2 & ->). injection X2 as <- _. rewrite (show_eq _ _ _ _ _ S2 H2) in X1. rewrite app_nil_r. cbn [append] in X1. congruence. }
  rewrite (fixed_eq s _ _ e3 a3 b3 i ["lattice3D"; "lattice2D"] t3 P3 S3 H3 ltac:(discriminate)) with (2 := E3).
  2:{ intros x X. apply andthen_ok in X as (x1 & [] & x2 & X1 & X2 & ->). injection X2 as <- _. rewrite (show_eq _ _ _ _ _ S3 H3) in X1. rewrite app_nil_r. cbn [append] in X1. congruence. }
  assert (Q4 : In ev t4 <-> events_of i (a4 = true) (b4 = true)
    (fun n => exists o, In o l4 /\ (n = "results_" ++ str_of o ++ "2D" \/ n = "results_" ++ str_of o ++ "3D")) ev).
  { rewrite (plot_if_eq _ _ _ _ _ _ P4 S4 H4) in E4. cbn [getitem] in E4. rewrite O4 in E4. cbn [bind elements lift] in E4.
    destruct (a4 || b4) eqn:Q.
    - apply andthen_ok in E4 as (x1 & l & x2 & X1 & X2 & ->). injection X1 as <- <-. cbn [app]. exact (results_eq e4 i a4 b4 S4 H4 l4 x2 X2 ev).
    - injection E4 as <-. apply orb_false_iff in Q as [-> ->]. split; [intros []|]. intros [(n & _ & B & _)|(n & _ & B & _)]; discriminate. }
  rewrite Q4. unfold plot_events, figure, events_of. unfold plot_flag at 7 8.
  assert (FA : forall k x, at_path (PDict s) ["plot"; "results"; k] x <-> dget e4 k = Some x) by (intros; apply plot_path, P4).
  split.
  - intros [(n & I & K)|[(n & I & K)|[(n & I & K)|[(n & (o & I & N) & B & ->)|(n & (o & I & N) & B & ->)]]]].
    + exists "matrix_downwash", n. split; [left; cbn in I; intuition congruence|exact K].
    + exists "geometry", n. split; [right; left; cbn in I; intuition congruence|exact K].
    + exists "lattice", n. split; [right; right; left; cbn in I; intuition congruence|exact K].
    + exists "results", n. split; [right; right; right; split; [reflexivity|]; exists l4, o; split; [apply FA, O4|auto]|].
      left. split; [apply FA; congruence|reflexivity].
    + exists "results", n. split; [right; right; right; split; [reflexivity|]; exists l4, o; split; [apply FA, O4|auto]|].
      right. split; [apply FA; congruence|reflexivity].
  - intros (plot & n & [(-> & ->)|[(-> & N)|[(-> & N)|(-> & opts & o & Op & I & N)]]] & K).
    + left. exists "downwash". split; [left; reflexivity|exact K].
    + right. left. exists n. split; [cbn; intuition congruence|exact K].
    + right. right. left. exists n. split; [cbn; intuition congruence|exact K].
    + right. right. right. apply FA in Op. assert (opts = l4) by congruence. subst opts. destruct K as [[K ->]|[K ->]]; apply FA in K; [left|right];
        exists n; (split; [exists o; auto|]); split; congruence || reflexivity.
Qed.

Definition is_file (ev : event) : Prop := match ev with EFile _ _ => True | _ => False end.
Lemma save_all_files s i aero o t r : settings_ok s -> save_all s i aero o = (t, r) -> forall ev, In ev t -> is_file ev.
Proof.
  intros S H ev I. unfold save_all, RunModel.save_all, when, lift in H.
  destruct (save_flag s "global" S) as (b1 & F1 & _); [cbn; auto|]. destruct (save_flag s "panelwise" S) as (b2 & F2 & _); [cbn; auto|].
  destruct (save_flag s "matrix_system" S) as (b3 & F3 & _); [cbn; auto|]. rewrite F1, F2, F3 in H.
  destruct b1, b2, b3; cbn -[f_results_global f_results_panelwise f_results_matrix] in H; injection H as <- _; cbn in I; decompose [or] I; subst; try exact Logic.I; contradiction.
Qed.

Lemma loop_events s : settings_ok s -> forall rows last i w r t w' r', loop s rows last i w r = (t, Ok (w', r')) ->
  forall ev, ~ is_file ev -> (In ev t <-> exists k, (i <= k < i + List.length rows)%nat /\ plot_events s k ev).
Proof.
  intro S. induction rows as [|aero rows IH]; intros last i w r t w' r' H ev NF.
  - cbn in H. destruct last as [[]|]; cbn in H; [injection H as <- <-|discriminate]. split; [intros []|]. cbn. intros (k & L & _). lia.
  - rewrite loop_cons in H. destruct (compute w (i =? 0)%nat aero) as [w0 ro]. apply andthen_ok in H as (t1 & o & t2 & E1 & H & ->).
    injection E1 as <- _. apply andthen_ok in H as (t3 & [] & t4 & E3 & H & ->). apply andthen_ok in H as (t5 & [] & t6 & E5 & E6 & ->).
    cbn [app List.length]. rewrite !in_app_iff, (make_all_events _ _ _ S E5), (IH _ _ _ _ _ _ _ E6 ev NF).
    assert (X := save_all_files _ _ _ _ _ _ S E3 ev). split.
    + intros [I|[I|(k & L & P)]]; [contradiction NF; auto|exists i; split; [lia|exact I]|exists k; split; [lia|exact P]].
    + intros (k & L & P). right. destruct (Nat.eq_dec k i) as [->|N]; [left; exact P|right]. exists k. split; [lia|exact P].
Qed.

Theorem run_events parse cpacs s st w t w' : settings_ok s -> run parse cpacs s st w = (t, Ok w') ->
  forall ev, ~ is_file ev -> (In ev t <-> exists k, (k < List.length (fst (iter_states parse st)))%nat /\ plot_events s k ev).
Proof.
  intros S H ev NF. unfold run, RunModel.run in H. destruct (iter_states parse st) as [rows last]. cbn [fst].
  apply andthen_ok in H as (t1 & [w1 r1] & t2 & L & H & ->). rewrite in_app_iff, (loop_events s S _ _ _ _ _ _ _ _ L ev NF).
  assert (X : ~ In ev t2).
  { apply andthen_ok in H as (t3 & w2 & t4 & C & H & ->). assert (t3 = []) by (destruct cpacs; cbn in C; injection C as <- _; reflexivity). subst t3.
    apply andthen_ok in H as (t5 & [] & t6 & C1 & C2 & ->). assert (t6 = []) by (destruct rows; cbn in C2; injection C2 as <- _; reflexivity). subst t6.
    rewrite app_nil_r. cbn [app]. destruct (when_flag s (save_map V T base st (snd (w1, r1))) _ S eq_refl) as (tw & W & TW).
    rewrite W in C1. injection C1 as <-. destruct TW as [[-> _]|[-> _]]; [|intros []]. intros [<-|[]]. apply NF. exact I. }
  split.
  - intros [(k & B & P)|B]; [exists k; split; [lia|exact P]|contradiction].
  - intros (k & B & P). left. exists k. split; [lia|exact P].
Qed.

Theorem run_figures parse cpacs s st w t w' : settings_ok s -> run parse cpacs s st w = (t, Ok w') ->
  (forall i name, In (EPlot i name) t <->
     (i < List.length (fst (iter_states parse st)))%nat /\ exists plot, figure str_of s plot name /\ plot_flag s plot "save") /\
  (forall i, In (EShow i) t <->
     (i < List.length (fst (iter_states parse st)))%nat /\ exists plot name, figure str_of s plot name /\ plot_flag s plot "show").
Proof.
  intros S R. split.
  - intros i name. rewrite (run_events _ _ _ _ _ _ _ S R) by (intros []). split.
    + intros (k & L & plot & n & F & [[P E]|[P E]]); [|discriminate]. injection E as -> ->. eauto.
    + intros (L & plot & F & P). exists i. split; [exact L|]. exists plot, name. auto.
  - intros i. rewrite (run_events _ _ _ _ _ _ _ S R) by (intros []). split.
    + intros (k & L & plot & n & F & [[P E]|[P E]]); [discriminate|]. injection E as ->. eauto.
    + intros (L & plot & n & F & P). exists i. split; [exact L|]. exists plot, n. auto.
Qed.

(** A finished run has drawn everything that is saved or shown. *)
Lemma plot_if_drawn s plot m e b1 b2 t : plot_of s plot e -> dget e "save" = Some (PBool b1) -> dget e "show" = Some (PBool b2) ->
  plot_if V T s plot m = (t, Ok tt) -> plot_flag s plot "save" \/ plot_flag s plot "show" -> exists t', m (PDict e) = (t', Ok tt).
Proof.
  intros P S H E F. rewrite (plot_if_eq _ _ _ _ _ _ P S H) in E. unfold plot_flag in F. rewrite !(plot_path s plot e _ _ P), S, H in F.
  replace (b1 || b2) with true in E; [eauto|]. destruct F as [[= ->]|[= ->]]; [reflexivity|symmetry; apply orb_true_r].
Qed.
Lemma plot2d3d_drawn p i n t : plot2d3d V T draw p i n = (t, Ok tt) -> draw i n = Ok tt.
Proof. intro H. apply andthen_ok in H as (t1 & [] & t2 & _ & H & _). unfold lift in H. destruct (draw i n) as [[]|]; [reflexivity|discriminate]. Qed.
Lemma results_drawn p i l : forall t, plot_results V T draw str_of p i l = (t, Ok tt) -> forall o, In o l -> draw i ("results_" ++ str_of o) = Ok tt.
Proof.
  induction l as [|k l IH]; intros t H o; [intros []|]. cbn [plot_results] in H. apply andthen_ok in H as (t1 & [] & t2 & H1 & H2 & _).
  intros [<-|I]; [exact (plot2d3d_drawn _ _ _ _ H1)|exact (IH _ H2 o I)].
Qed.
Lemma make_all_drawn s i t : settings_ok s -> make_all s i = (t, Ok tt) ->
  forall plot label, drawing str_of s plot label -> plot_flag s plot "save" \/ plot_flag s plot "show" -> draw i label = Ok tt.
Proof.
  intros S H plot label D F. unfold make_all, RunModel.make_all in H.
  destruct (plot_opts s "matrix_downwash" S) as (e1 & l1 & a1 & b1 & P1 & O1 & S1 & H1); [cbn; auto|].
  destruct (plot_opts s "geometry" S) as (e2 & l2 & a2 & b2 & P2 & O2 & S2 & H2); [cbn; auto|].
  destruct (plot_opts s "lattice" S) as (e3 & l3 & a3 & b3 & P3 & O3 & S3 & H3); [cbn; auto|].
  destruct (plot_opts s "results" S) as (e4 & l4 & a4 & b4 & P4 & O4 & S4 & H4); [cbn; auto|].
  apply andthen_ok in H as (t1 & [] & t' & E1 & H & ->). apply andthen_ok in H as (t2 & [] & t'' & E2 & H & ->).
  apply andthen_ok in H as (t3 & [] & t4 & E3 & E4 & ->).
  destruct D as [(-> & ->)|[(-> & ->)|[(-> & ->)|(-> & opts & o & Op & I & ->)]]].
  - destruct (plot_if_drawn _ _ _ _ _ _ _ P1 S1 H1 E1 F) as (x & X). apply andthen_ok in X as (x1 & [] & x2 & X & _). unfold lift in X.
    destruct (draw i "downwash") as [[]|]; [reflexivity|discriminate].
  - destruct (plot_if_drawn _ _ _ _ _ _ _ P2 S2 H2 E2 F) as (x & X). exact (plot2d3d_drawn _ _ _ _ X).
  - destruct (plot_if_drawn _ _ _ _ _ _ _ P3 S3 H3 E3 F) as (x & X). exact (plot2d3d_drawn _ _ _ _ X).
  - destruct (plot_if_drawn _ _ _ _ _ _ _ P4 S4 H4 E4 F) as (x & X). cbn [getitem] in X. rewrite O4 in X. cbn [bind elements] in X.
    apply andthen_ok in X as (x1 & l & x2 & X1 & X2 & _). injection X1 as <- <-. apply (plot_path s "results" e4 _ _ P4) in Op.
    assert (opts = l4) by congruence. subst opts. exact (results_drawn _ _ _ _ X2 o I).
Qed.
Theorem run_drawn parse cpacs s st w t w' : settings_ok s -> run parse cpacs s st w = (t, Ok w') ->
  forall i plot label, (i < List.length (fst (iter_states parse st)))%nat -> drawing str_of s plot label ->
    plot_flag s plot "save" \/ plot_flag s plot "show" -> draw i label = Ok tt.
Proof.
  intros S H. unfold run, RunModel.run in H. destruct (iter_states parse st) as [rows last]. cbn [fst].
  apply andthen_ok in H as (t1 & [w1 r1] & t2 & L & _ & _). intros i plot label B D F.
  assert (G : forall rows last k w r t w' r', loop s rows last k w r = (t, Ok (w', r')) -> (k <= i < k + List.length rows)%nat -> draw i label = Ok tt).
  { clear L B w w' w1 r1 t t1 t2 rows last. induction rows as [|aero rows IH]; intros last k w r t w' r' H B; [cbn in B; lia|].
    rewrite loop_cons in H. destruct (compute w (k =? 0)%nat aero) as [w0 ro]. apply andthen_ok in H as (t1 & o & t2 & E1 & H & ->).
    apply andthen_ok in H as (t3 & [] & t4 & E3 & H & ->). apply andthen_ok in H as (t5 & [] & t6 & E5 & E6 & ->).
    destruct (Nat.eq_dec k i) as [<-|N]; [exact (make_all_drawn _ _ _ S E5 _ _ D F)|]. apply (IH _ _ _ _ _ _ _ E6). cbn [List.length] in B. lia. }
  apply (G _ _ _ _ _ _ _ _ L). lia.
Qed.

Theorem run_empty parse s st w : settings_ok s -> f_num st = O -> exists t, run parse false s st w = (t, Err UnboundLocalError).
Proof.
  intros S N. unfold run, RunModel.run. unfold iter_states. rewrite N. cbn [iter_from loop RunModel.loop lift andthen ret fst snd app].
  destruct (when_flag s (save_map V T base st (new_results V)) _ S eq_refl) as (tw & W & _). unfold lift, ret. cbn [andthen fst snd]. rewrite W. cbn. eauto.
Qed.

(** ** Runs that finish *)
Section Finish.
Hypothesis drawn : forall i n, draw i n = Ok tt.
Hypothesis computed : forall w b a, exists w' o, compute w b a = (w', Ok o).

Lemma plot2d3d_ok e i n b1 b2 : dget e "save" = Some (PBool b1) -> dget e "show" = Some (PBool b2) -> exists t, plot2d3d V T draw (PDict e) i n = (t, Ok tt).
Proof. intros S H. unfold plot2d3d. rewrite (show_eq _ _ _ _ _ S H). cbn. rewrite drawn. eauto. Qed.
Lemma plot_if_ok s plot m e b1 b2 : plot_of s plot e -> dget e "save" = Some (PBool b1) -> dget e "show" = Some (PBool b2) ->
  (exists t, m (PDict e) = (t, Ok tt)) -> exists t, plot_if V T s plot m = (t, Ok tt).
Proof. intros P S H M. rewrite (plot_if_eq _ _ _ _ _ _ P S H). destruct (b1 || b2); [exact M|eauto]. Qed.
Lemma andthen_total {A B} (m : prog A) (f : A -> prog B) a t : m = (t, Ok a) -> (exists t' b, f a = (t', Ok b)) -> exists t' b, andthen _ _ m f = (t', Ok b).
Proof. intros -> (t' & b & E). cbn. rewrite E. eauto. Qed.
Lemma make_all_ok s i : settings_ok s -> exists t, make_all s i = (t, Ok tt).
Proof.
  intro S. destruct (plot_opts s "matrix_downwash" S) as (e1 & l1 & a1 & b1 & P1 & O1 & S1 & H1); [cbn; auto|].
  destruct (plot_opts s "geometry" S) as (e2 & l2 & a2 & b2 & P2 & O2 & S2 & H2); [cbn; auto|].
  destruct (plot_opts s "lattice" S) as (e3 & l3 & a3 & b3 & P3 & O3 & S3 & H3); [cbn; auto|].
  destruct (plot_opts s "results" S) as (e4 & l4 & a4 & b4 & P4 & O4 & S4 & H4); [cbn; auto|].
  assert (X : exists t b, make_all s i = (t, Ok b)); [|destruct X as (t & [] & X); eauto].
  unfold make_all, RunModel.make_all.
  destruct (plot_if_ok s _ (fun p => view_downwash V T draw p i) _ _ _ P1 S1 H1) as [t1 E1].
  { unfold view_downwash. rewrite drawn. unfold lift. cbn [andthen]. rewrite (show_eq _ _ _ _ _ S1 H1). eauto. }
  destruct (plot_if_ok s _ (fun p => plot2d3d V T draw p i "geometry") _ _ _ P2 S2 H2) as [t2 E2]; [eapply plot2d3d_ok; eauto|].
  destruct (plot_if_ok s _ (fun p => plot2d3d V T draw p i "lattice") _ _ _ P3 S3 H3) as [t3 E3]; [eapply plot2d3d_ok; eauto|].
  eapply andthen_total; [exact E1|]. eapply andthen_total; [exact E2|]. eapply andthen_total; [exact E3|].
  edestruct (plot_if_ok s "results") as [t4 E4]; [exact P4|exact S4|exact H4| |do 2 eexists; exact E4].
  cbn beta. cbn [getitem]. rewrite O4. cbn [bind elements lift].
  assert (Y : exists t, plot_results V T draw str_of (PDict e4) i l4 = (t, Ok tt)).
  { clear -S4 H4 drawn. induction l4 as [|k l IH]; [cbn; unfold ret; eauto|]. cbn [plot_results].
    destruct (plot2d3d_ok e4 i ("results_" ++ str_of k) _ _ S4 H4) as [t X]. rewrite X. cbn. destruct IH as [t' ->]. eauto. }
  destruct Y as [t Y]. cbn. rewrite Y. eauto.
Qed.
Lemma loop_total s : settings_ok s -> forall rows i w r, exists t x, loop s rows (Ok tt) i w r = (t, Ok x).
Proof.
  intro S. induction rows as [|aero rows IH]; intros i w r; [cbn; eauto|]. rewrite loop_cons. destruct (computed w (i =? 0)%nat aero) as (w' & o & ->).
  eapply andthen_total; [reflexivity|]. destruct (save_all_ok s i aero o S) as (t & E & _). eapply andthen_total; [exact E|].
  destruct (make_all_ok s i S) as [t' E']. eapply andthen_total; [exact E'|]. apply IH.
Qed.
Theorem run_total parse cpacs s st w : settings_ok s -> (cpacs = true -> forall w r, exists w', save_cpacs w r = Ok w') ->
  snd (iter_states parse st) = Ok tt -> fst (iter_states parse st) <> [] -> exists t w', run parse cpacs s st w = (t, Ok w').
Proof.
  intros S C L NE. unfold run, RunModel.run. destruct (iter_states parse st) as [rows last]. cbn in L, NE. subst last.
  destruct (loop_total s S rows 0 w (new_results V)) as (t & [w1 r1] & E). eapply andthen_total; [exact E|].
  assert (X : exists w2, (if cpacs then lift V T (save_cpacs (fst (w1, r1)) (snd (w1, r1))) else ret V T (fst (w1, r1))) = ([], Ok w2)).
  { destruct cpacs; [destruct (C eq_refl w1 r1) as [w2 E2]; cbn; rewrite E2; unfold lift; eauto|unfold ret; cbn; eauto]. }
  destruct X as [w2 X]. eapply andthen_total; [exact X|].
  destruct (when_flag s (save_map V T base st (snd (w1, r1))) _ S eq_refl) as (tw & W & _). eapply andthen_total; [exact W|].
  destruct rows; [congruence|]. unfold ret. eauto.
Qed.
End Finish.
End Run.
