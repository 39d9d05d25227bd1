(** Proofs about flight states. *)
From Coq Require Import List String ZArith QArith Bool Lia Lqa.
From Verif Require Import PyBase PyFacts StateModel StateSpec.
Import ListNotations.

Lemma is_number_iff v : is_number v = true <-> numeric v.
Proof. destruct v; cbn; intuition discriminate. Qed.
Lemma forallb_number l : forallb is_number l = true <-> Forall numeric l.
Proof. rewrite forallb_forall, Forall_forall. split; intros H v I; apply is_number_iff, H, I. Qed.

Lemma in_dget {V} (d : dict V) k v : NoDup (dkeys d) -> (In (k, v) d <-> dget d k = Some v).
Proof. intro N. split; [apply dget_In_NoDup; exact N|apply dget_In]. Qed.

Lemma fill_dget d : NoDup (dkeys d) -> forall a k,
  dget (fill a d) k = match dget d k with Some e => Some (SList (to_list e)) | None => dget a k end.
Proof.
  unfold fill. induction d as [|[k e] d IH]; intros N a k'; [reflexivity|]. inversion N as [|? ? N1 N2]; subst.
  cbn [fold_left fst snd dget]. rewrite (IH N2). destruct (String.eqb_spec k' k) as [->|NE].
  - destruct (dget d k) as [e'|] eqn:E; [|apply dget_dset_same]. elim N1. apply dget_In in E. apply (in_map fst) in E. exact E.
  - rewrite dget_dset_other by exact NE. reflexivity.
Qed.

(** ** Floats *)
Section Proofs.
Variable parse : string -> res num.
Variable atmosphere : list num -> res (list num * list num).

Lemma to_float_iff v x : to_float parse v = Ok x <-> reads parse v x.
Proof. destruct v as [|[]| | |]; cbn; (reflexivity || (split; [intros [= <-]; reflexivity|intros ->; reflexivity])). Qed.
Lemma to_array_iff l : forall xs, to_array parse l = Ok xs <-> Forall2 (reads parse) l xs.
Proof.
  induction l as [|v l IH]; intro xs; cbn [to_array].
  - split; [intros [= <-]; constructor|intro H; inversion H; reflexivity].
  - destruct (to_float parse v) as [x|e] eqn:E; cbn [bind].
    + apply to_float_iff in E. destruct (to_array parse l) as [ys|e] eqn:F; cbn [bind].
      * assert (F' : Forall2 (reads parse) l ys) by (apply IH; reflexivity). split.
        { intros [= <-]. constructor; assumption. }
        { intro H. inversion H as [|? ? ? zs A B]; subst. apply to_float_iff in A. apply to_float_iff in E. apply IH in B. congruence. }
      * split; [discriminate|]. intro H. inversion H as [|? ? ? zs A B]; subst. apply IH in B. congruence.
    + split; [discriminate|]. intro H. inversion H as [|? ? ? zs A B]; subst. apply to_float_iff in A. congruence.
Qed.
Lemma to_array_ok l : (exists xs, to_array parse l = Ok xs) <-> forall v, In v l -> exists x, reads parse v x.
Proof.
  split.
  - intros (xs & E). apply to_array_iff in E. induction E; intros v0 []; [subst; eauto|auto].
  - intro H. induction l as [|v l IH]; [exists []; reflexivity|]. destruct IH as (xs & E); [intros u I; apply H; right; exact I|].
    destruct (H v (or_introl eq_refl)) as (x & R). exists (x :: xs). apply to_array_iff. apply to_array_iff in E. constructor; assumption.
Qed.

(** ** Conversion *)
Definition array_as (v v' : option stored) : Prop :=
  match v with Some (SList l) => exists xs, to_array parse l = Ok xs /\ v' = Some (SArr xs) | _ => v' = v end.

Lemma convert_ok ps : NoDup ps -> forall a a', convert parse ps a = (a', Ok tt) ->
  (forall p, In p ps -> array_as (dget a p) (dget a' p)) /\ (forall p, ~ In p ps -> dget a' p = dget a p).
Proof.
  induction ps as [|p ps IH]; intros N a a'; cbn [convert].
  - intros [= <-]. split; [intros p []|reflexivity].
  - inversion N as [|? ? N1 N2]; subst. intro H.
    assert (X : exists a1, convert parse ps a1 = (a', Ok tt) /\ array_as (dget a p) (dget a1 p) /\ forall q, q <> p -> dget a1 q = dget a q).
    { destruct (dget a p) as [[v|l|xs]|] eqn:E; try (exists a; rewrite E; repeat split; auto; exact H).
      destruct (to_array parse l) as [xs|] eqn:F; [|discriminate]. exists (dset a p (SArr xs)). split; [exact H|]. split.
      - exists xs. split; [exact F|apply dget_dset_same].
      - intros q NE. apply dget_dset_other. exact NE. }
    destruct X as (a1 & H1 & A1 & O1). destruct (IH N2 a1 a' H1) as (I1 & I2). split.
    + intros q [<-|I]; [rewrite (I2 p N1); exact A1|]. specialize (I1 q I). rewrite O1 in I1; [exact I1|]. intros ->. exact (N1 I).
    + intros q NI. rewrite I2 by (intro; apply NI; right; assumption). apply O1. intros ->. apply NI. left. reflexivity.
Qed.

Lemma convert_total ps : forall a, NoDup ps -> (forall p l, In p ps -> dget a p = Some (SList l) -> exists xs, to_array parse l = Ok xs) ->
  exists a', convert parse ps a = (a', Ok tt).
Proof.
  induction ps as [|p ps IH]; intros a N H; cbn [convert]; [eexists; reflexivity|]. inversion N as [|? ? N1 N2]; subst.
  destruct (dget a p) as [[v|l|xs]|] eqn:E; try (apply IH; [exact N2|intros q l' I; apply H; right; exact I]).
  destruct (H p l (or_introl eq_refl) E) as (xs & F). rewrite F. apply IH; [exact N2|]. intros q l' I G.
  rewrite dget_dset_other in G by (intros ->; exact (N1 I)). exact (H q l' (or_intror I) G).
Qed.

Lemma params_NoDup : NoDup STATE_ALL_PARAMS.
Proof. unfold STATE_ALL_PARAMS. repeat constructor; cbn; intuition discriminate. Qed.

Lemma update_cons st d : d <> [] -> update parse atmosphere st d =
  let a := fill (f_aero st) d in
  match common_length d with
  | None => (set_aero st a, Err ValueError)
  | Some n =>
    let st1 := mkFS a n (f_idx st) in
    if valid_inputs a then
      let '(a1, r1) := convert parse STATE_ALL_PARAMS a in
      match r1 with
      | Err e => (set_aero st1 a1, Err e)
      | Ok _ =>
        let '(a2, r2) := derive atmosphere (is_input a ALTITUDE) (is_input a DENSITY) (is_input a MACH) a1 in
        (set_aero st1 a2, r2)
      end
    else (st1, Err ValueError)
  end.
Proof. destruct d; [congruence|reflexivity]. Qed.
Lemma update_nil st : update parse atmosphere st [] = (st, Err IndexError).
Proof. reflexivity. Qed.
Lemma update_ne st d st' : update parse atmosphere st d = (st', Ok tt) -> d <> [].
Proof. intros H ->. discriminate. Qed.

(** ** New states *)
Lemma new_dget p : In p STATE_ALL_PARAMS -> dget (f_aero new_state) p = Some (SRaw VNone).
Proof. intro I. repeat (destruct I as [<-|I]; [reflexivity|]). destruct I. Qed.

Variable d : dict entry.
Hypothesis ND : NoDup (dkeys d).
Let a0 := fill (f_aero new_state) d.

Lemma input_new p : In p STATE_ALL_PARAMS -> (is_input a0 p = true <-> given d p).
Proof.
  intro I. unfold is_input, a0. rewrite (fill_dget d ND), (new_dget p I). unfold given. destruct (dget d p) as [e|] eqn:E.
  - rewrite forallb_number. split.
    + intro F. exists e. split; [apply dget_In; exact E|exact F].
    + intros (e' & I' & F). apply (in_dget d p e' ND) in I'. rewrite E in I'. injection I' as <-. exact F.
  - split; [discriminate|]. intros (e' & I' & F). apply (in_dget d p e' ND) in I'. congruence.
Qed.
Lemma input_new_false p : In p STATE_ALL_PARAMS -> (is_input a0 p = false <-> ~ given d p).
Proof. intro I. rewrite <- (input_new p I). destruct (is_input a0 p); intuition congruence. Qed.

Lemma in_A : In AIRSPEED STATE_ALL_PARAMS. Proof. cbn; tauto. Qed.
Lemma in_M : In MACH STATE_ALL_PARAMS. Proof. cbn; tauto. Qed.
Lemma in_D : In DENSITY STATE_ALL_PARAMS. Proof. cbn; tauto. Qed.
Lemma in_H : In ALTITUDE STATE_ALL_PARAMS. Proof. cbn; tauto. Qed.
Lemma in_al : In ALPHA STATE_ALL_PARAMS. Proof. cbn; tauto. Qed.
Lemma in_be : In BETA STATE_ALL_PARAMS. Proof. cbn; tauto. Qed.

Lemma valid_iff : valid_inputs a0 = true <-> combination d.
Proof.
  unfold valid_inputs, combination.
  pose proof (input_new AIRSPEED in_A) as A. pose proof (input_new MACH in_M) as M.
  pose proof (input_new DENSITY in_D) as D. pose proof (input_new ALTITUDE in_H) as H.
  destruct (is_input a0 AIRSPEED), (is_input a0 MACH), (is_input a0 DENSITY), (is_input a0 ALTITUDE); intuition congruence.
Qed.

Lemma common_iff n : d <> [] -> (common_length d = Some n <-> uniform d n).
Proof.
  intro NE. unfold uniform, common_length. change as_list with to_list. destruct d as [|[k e] d']; [congruence|].
  destruct (forallb _ d') eqn:F.
  - rewrite forallb_forall in F. split.
    + intros [= <-] p e' [I|I]; [congruence|]. specialize (F _ I). apply Nat.eqb_eq in F. exact F.
    + intro H. rewrite (H k e (or_introl eq_refl)). reflexivity.
  - split; [discriminate|]. intro H. exfalso. assert (T : forallb (fun kv => Nat.eqb (List.length (to_list (snd kv))) (List.length (to_list e))) d' = true).
    { apply forallb_forall. intros [p e'] I. apply Nat.eqb_eq. cbn [snd]. rewrite (H p e' (or_intror I)), (H k e (or_introl eq_refl)). reflexivity. }
    congruence.
Qed.

Lemma derive_cases ia id im a a' : derive atmosphere ia id im a = (a', Ok tt) ->
  exists r, (if ia then exists rc, r = Some rc /\ atmosphere (array_of a ALTITUDE) = Ok rc else r = None) /\
  exists a1, (if id then a1 = a else exists rho c, r = Some (rho, c) /\ a1 = dset a DENSITY (SArr rho)) /\
  (if im then exists rho c v, r = Some (rho, c) /\ amul (array_of a1 MACH) c = Ok v /\ a' = dset a1 AIRSPEED (SArr v) else a' = a1) /\
  check_values a' = Ok tt.
Proof.
  unfold derive. destruct ia.
  - destruct (atmosphere (array_of a ALTITUDE)) as [[rho c]|]; cbn [bind]; [|discriminate]. intro H. exists (Some (rho, c)). split; [eauto|].
    destruct id; [exists a|exists (dset a DENSITY (SArr rho))]; (split; [eauto|]).
    + destruct im; [destruct (amul _ _) as [v|] eqn:E; [|discriminate]|]; cbn [bind] in H; injection H as <- C; eauto 10.
    + destruct im; [destruct (amul _ _) as [v|] eqn:E; [|discriminate]|]; cbn [bind] in H; injection H as <- C; eauto 10.
  - intro H. exists None. split; [reflexivity|]. destruct id; [|discriminate]. exists a. split; [reflexivity|].
    destruct im; [discriminate|]. injection H as <- C. auto.
Qed.

Lemma check_iff a : check_values a = Ok tt <-> (exists xs, dget a ALPHA = Some (SArr xs)) /\ (exists xs, dget a BETA = Some (SArr xs)).
Proof.
  assert (X : forall p, check_angle a p = Ok tt <-> exists xs, dget a p = Some (SArr xs)).
  { intro p. unfold check_angle. destruct (dget a p) as [[v|l|xs]|]; try (split; [discriminate|intros (? & ?); discriminate]).
    assert (Z : existsb range_is_not_ok xs = false).
    { apply not_true_iff_false. rewrite existsb_exists. intros ([q|] & _ & H); [|discriminate]. cbn in H. apply andb_true_iff in H.
      destruct H as (H1 & H2). apply Qltb_true in H1, H2. lra. }
    rewrite Z. split; [eauto|reflexivity]. }
  unfold check_values. pose proof (X ALPHA) as XA. pose proof (X BETA) as XB. destruct (check_angle a ALPHA) as [[]|e]; cbn [bind].
  - rewrite XB. intuition.
  - split; [discriminate|]. intros (A & _). apply XA in A. discriminate.
Qed.

Lemma check_errors a e : check_values a = Err e -> e = TypeError.
Proof.
  assert (X : forall p e, check_angle a p = Err e -> e = TypeError).
  { intros p e0. unfold check_angle. destruct (dget a p) as [[v|l|xs]|]; try congruence.
    assert (Z : existsb range_is_not_ok xs = false).
    { apply not_true_iff_false. rewrite existsb_exists. intros ([q|] & _ & H); [|discriminate]. cbn in H. apply andb_true_iff in H.
      destruct H as (H1 & H2). apply Qltb_true in H1, H2. lra. }
    rewrite Z. discriminate. }
  unfold check_values. destruct (check_angle a ALPHA) as [[]|e1] eqn:E; cbn [bind]; [apply X|]. intros [= <-]. exact (X _ _ E).
Qed.

Lemma amul_same ms cs : List.length ms = List.length cs ->
  amul ms cs = Ok (map (fun p => nmul (fst p) (snd p)) (combine ms cs)).
Proof. intro E. unfold amul. rewrite E, Nat.eqb_refl. reflexivity. Qed.

Lemma Forall2_len {A B} (R : A -> B -> Prop) l l' : Forall2 R l l' -> List.length l' = List.length l.
Proof. induction 1; cbn; congruence. Qed.

(** Arrays after the conversion. *)
Lemma converted a1 : convert parse STATE_ALL_PARAMS a0 = (a1, Ok tt) -> forall p, In p STATE_ALL_PARAMS ->
  match dget d p with
  | Some e => exists xs, Forall2 (reads parse) (as_list e) xs /\ dget a1 p = Some (SArr xs)
  | None => dget a1 p = Some (SRaw VNone)
  end.
Proof.
  intros H p I. destruct (convert_ok _ params_NoDup _ _ H) as (C & _). specialize (C p I). unfold a0 in C. rewrite (fill_dget d ND), (new_dget p I) in C.
  destruct (dget d p) as [e|]; cbn [array_as] in C; [|exact C]. destruct C as (xs & E & G). exists xs. split; [apply to_array_iff; exact E|exact G].
Qed.

Lemma product_nmul x y : product x y (nmul x y).
Proof. destruct x, y; reflexivity. Qed.

Lemma speeds_amul sos ms hs : List.length ms = List.length hs -> speeds sos ms hs (map (fun p => nmul (fst p) (snd p)) (combine ms (map sos hs))).
Proof.
  intro L. unfold speeds. rewrite map_length, combine_length, map_length, <- L, Nat.min_id. split; [reflexivity|].
  intros i m h M H. exists (nmul m (sos h)). split; [|apply product_nmul].
  revert hs i L M H. induction ms as [|m0 ms IH]; intros [|h0 hs] [|i] L M H; try discriminate; cbn in *.
  - congruence.
  - apply IH; auto.
Qed.

Lemma update_ok st : update parse atmosphere new_state d = (st, Ok tt) ->
  exists n a1 a2, d <> [] /\ uniform d n /\ combination d /\ convert parse STATE_ALL_PARAMS a0 = (a1, Ok tt) /\
    derive atmosphere (is_input a0 ALTITUDE) (is_input a0 DENSITY) (is_input a0 MACH) a1 = (a2, Ok tt) /\ st = mkFS a2 n None.
Proof.
  intro H. pose proof (update_ne _ _ _ H) as NE. rewrite (update_cons _ _ NE) in H. fold a0 in H. cbv zeta in H.
  destruct (common_length d) as [n|] eqn:E; [|discriminate]. apply (common_iff n NE) in E.
  destruct (valid_inputs a0) eqn:V; [|discriminate]. apply valid_iff in V.
  destruct (convert parse STATE_ALL_PARAMS a0) as [a1 [[]|]] eqn:C; [|discriminate].
  destruct (derive _ _ _ _ _) as [a2 r] eqn:D. exists n, a1, a2. injection H as <- ->. repeat (split; [assumption|]). split; [reflexivity|]. split; [exact D|reflexivity].
Qed.

Lemma given_entry p : given d p -> exists e, dget d p = Some e /\ Forall numeric (as_list e).
Proof. intros (e & I & F). exists e. split; [apply in_dget; assumption|exact F]. Qed.

Lemma holds_intro p e xs : dget d p = Some e -> Forall2 (reads parse) (as_list e) xs -> holds parse d p xs.
Proof. intros E F. exists e. split; [apply dget_In; exact E|exact F]. Qed.

Lemma uniform_len n p e xs : uniform d n -> dget d p = Some e -> Forall2 (reads parse) (as_list e) xs -> List.length xs = n.
Proof. intros U E F. rewrite (Forall2_len _ _ _ F). exact (U p e (dget_In _ _ _ E)). Qed.

Lemma accepted_meaning rho sos st : pointwise atmosphere rho sos -> update parse atmosphere new_state d = (st, Ok tt) ->
  combination d /\ exists n, uniform d n /\ meaning parse rho sos d n st.
Proof.
  intros PW H. destruct (update_ok st H) as (n & a1 & a2 & NE & U & C & CV & DR & ->). split; [exact C|]. exists n. split; [exact U|].
  pose proof (converted a1 CV) as K. destruct (derive_cases _ _ _ _ _ DR) as (r & R1 & ax & R2 & R3 & R4).
  (* values of the arrays in a2 *)
  assert (OTH : forall p, p <> DENSITY -> p <> AIRSPEED -> dget a2 p = dget a1 p).
  { intros p N1 N2. assert (Q1 : dget ax p = dget a1 p).
    { destruct (is_input a0 DENSITY); [rewrite R2; reflexivity|]. destruct R2 as (? & ? & _ & ->). apply dget_dset_other. exact N1. }
    rewrite <- Q1. destruct (is_input a0 MACH); [|rewrite R3; reflexivity]. destruct R3 as (? & ? & ? & _ & _ & ->). apply dget_dset_other. exact N2. }
  assert (AR : forall p, In p STATE_ALL_PARAMS -> given d p -> exists xs, holds parse d p xs /\ dget a1 p = Some (SArr xs) /\ List.length xs = n).
  { intros p I G. destruct (given_entry p G) as (e & E & _). pose proof (K p I) as Kp. rewrite E in Kp. destruct Kp as (xs & F & G1).
    exists xs. split; [exact (holds_intro p e xs E F)|]. split; [exact G1|exact (uniform_len n p e xs U E F)]. }
  assert (AOF : forall a p xs, dget a p = Some (SArr xs) -> array_of a p = xs) by (intros a p xs E; unfold array_of; rewrite E; reflexivity).
  pose proof (input_new AIRSPEED in_A) as IA. pose proof (input_new MACH in_M) as IM.
  pose proof (input_new DENSITY in_D) as ID. pose proof (input_new ALTITUDE in_H) as IH.
  split; [reflexivity|]. split; [|split].
  - intros p I N1 N2. unfold has. cbn [f_aero]. rewrite (OTH p N1 N2). specialize (K p I). split.
    + intros e Ie. apply (in_dget d p e ND) in Ie. rewrite Ie in K. destruct K as (xs & F & G). exists xs.
      split; [exact (holds_intro p e xs Ie F)|]. split; [exact G|exact (uniform_len n p e xs U Ie F)].
    + intro NI. destruct (dget d p) as [e|] eqn:E; [|exact K]. elim (NI e). apply dget_In. exact E.
  - (* density *)
    assert (Q : exists xs, dget ax DENSITY = Some (SArr xs) /\ List.length xs = n /\ (given d DENSITY -> holds parse d DENSITY xs) /\
      (~ given d DENSITY -> exists hs, holds parse d ALTITUDE hs /\ xs = map rho hs)).
    { destruct (is_input a0 DENSITY) eqn:D.
      - assert (G : given d DENSITY) by (apply ID; reflexivity). destruct (AR DENSITY in_D G) as (xs & A & B & L). exists xs. rewrite R2. tauto.
      - assert (G : ~ given d DENSITY) by (intro G; apply ID in G; discriminate).
        assert (GH : given d ALTITUDE) by (destruct C as [C|[C|C]]; tauto).
        destruct (AR ALTITUDE in_H GH) as (hs & A & B & L). apply IH in GH. rewrite GH in R1. destruct R1 as ([rh c] & -> & AT).
        rewrite (AOF _ _ _ B) in AT. destruct (PW _ _ _ AT) as (-> & ->). destruct R2 as (rh & c & E & ->). injection E as <- <-.
        exists (map rho hs). rewrite dget_dset_same, map_length. split; [reflexivity|]. split; [exact L|]. split; [tauto|]. intros _. exists hs. auto. }
    destruct Q as (xs & Q1 & Q2). exists xs. split; [|exact Q2]. unfold has. cbn [f_aero].
    destruct (is_input a0 MACH); [|rewrite R3; exact Q1]. destruct R3 as (? & ? & ? & _ & _ & ->). rewrite dget_dset_other by discriminate. exact Q1.
  - (* airspeed *)
    destruct (is_input a0 MACH) eqn:M.
    + assert (GM : given d MACH) by (apply IM; reflexivity). assert (GA : ~ given d AIRSPEED) by (destruct C as [C|[C|C]]; tauto).
      assert (GH : given d ALTITUDE) by (destruct C as [C|[C|C]]; tauto).
      destruct (AR ALTITUDE in_H GH) as (hs & A & B & L). apply IH in GH. rewrite GH in R1. destruct R1 as ([rh c] & -> & AT).
      rewrite (AOF _ _ _ B) in AT. destruct (PW _ _ _ AT) as (-> & ->).
      destruct (AR MACH in_M GM) as (ms & A' & B' & L').
      destruct R3 as (rh & c & v & E & AM & ->). injection E as <- <-.
      assert (BM : dget ax MACH = Some (SArr ms)).
      { destruct (is_input a0 DENSITY); [rewrite R2; exact B'|]. destruct R2 as (? & ? & _ & ->). rewrite dget_dset_other by discriminate. exact B'. }
      rewrite (AOF _ _ _ BM) in AM. rewrite amul_same in AM by (rewrite map_length; congruence). injection AM as <-.
      exists (map (fun p => nmul (fst p) (snd p)) (combine ms (map sos hs))). unfold has. cbn [f_aero]. rewrite dget_dset_same.
      split; [reflexivity|]. destruct (speeds_amul sos ms hs ltac:(congruence)) as (S1 & S2).
      split; [rewrite S1; exact L'|]. split; [tauto|]. intros _. exists ms, hs. split; [exact A'|]. split; [exact A|]. split; assumption.
    + assert (GA : given d AIRSPEED).
      { assert (~ given d MACH) by (intro G; apply IM in G; discriminate). destruct C as [C|[C|C]]; tauto. }
      destruct (AR AIRSPEED in_A GA) as (xs & A & B & L). exists xs. unfold has. cbn [f_aero]. rewrite R3.
      split; [|split; [exact L|split; tauto]]. destruct (is_input a0 DENSITY); [rewrite R2; exact B|]. destruct R2 as (? & ? & _ & ->). rewrite dget_dset_other by discriminate. exact B.
Qed.

Lemma accepted_iff rho sos : pointwise atmosphere rho sos ->
  ((exists st, update parse atmosphere new_state d = (st, Ok tt)) <-> acceptable parse atmosphere d).
Proof.
  intro PW. split.
  - intros (st & H). destruct (update_ok st H) as (n & a1 & a2 & NE & U & C & CV & DR & ->).
    pose proof (converted a1 CV) as K. destruct (derive_cases _ _ _ _ _ DR) as (r & R1 & ax & R2 & R3 & R4).
    assert (OTH : forall p, p <> DENSITY -> p <> AIRSPEED -> dget a2 p = dget a1 p).
    { intros p N1 N2. assert (Q1 : dget ax p = dget a1 p).
      { destruct (is_input a0 DENSITY); [rewrite R2; reflexivity|]. destruct R2 as (? & ? & _ & ->). apply dget_dset_other. exact N1. }
      rewrite <- Q1. destruct (is_input a0 MACH); [|rewrite R3; reflexivity]. destruct R3 as (? & ? & ? & _ & _ & ->). apply dget_dset_other. exact N2. }
    assert (KEY : forall p, In p STATE_ALL_PARAMS -> (exists xs, dget a1 p = Some (SArr xs)) -> exists e, In (p, e) d).
    { intros p I (xs & E). specialize (K p I). destruct (dget d p) as [e|] eqn:G; [exists e; apply dget_In; exact G|congruence]. }
    apply check_iff in R4. rewrite !OTH in R4 by discriminate. destruct R4 as (RA & RB).
    split; [exact NE|]. split; [exists n; exact U|]. split; [exact C|]. split; [|split; [exact (KEY _ in_al RA)|split; [exact (KEY _ in_be RB)|]]].
    + intros p e v I Ie Iv. apply (in_dget d p e ND) in Ie. specialize (K p I). rewrite Ie in K. destruct K as (xs & F & _).
      apply (proj1 (to_array_ok (as_list e))); [exists xs; apply to_array_iff; exact F|exact Iv].
    + intro G. pose proof (proj2 (input_new ALTITUDE in_H) G) as IN. rewrite IN in R1. destruct R1 as (rc & -> & AT).
      destruct (given_entry _ G) as (e & E & _). pose proof (K ALTITUDE in_H) as Kp. rewrite E in Kp. destruct Kp as (hs & F & Q).
      exists hs, rc. split; [exact (holds_intro _ _ _ E F)|]. unfold array_of in AT. rewrite Q in AT. exact AT.
  - intros (NE & (n & U) & C & RD & (ea & EA) & (eb & EB) & AT). rewrite (update_cons _ _ NE). fold a0. cbv zeta.
    assert (CL : common_length d = Some n) by (apply common_iff; assumption). rewrite CL.
    rewrite (proj2 valid_iff C).
    destruct (convert_total STATE_ALL_PARAMS a0 params_NoDup) as (a1 & CV).
    { intros p l I E. unfold a0 in E. rewrite (fill_dget d ND), (new_dget p I) in E. destruct (dget d p) as [e|] eqn:G; [|discriminate].
      injection E as <-. apply to_array_ok. intros v Iv. exact (RD p e v I (dget_In _ _ _ G) Iv). }
    rewrite CV. pose proof (converted a1 CV) as K.
    assert (AR : forall p, In p STATE_ALL_PARAMS -> given d p -> exists xs, holds parse d p xs /\ dget a1 p = Some (SArr xs) /\ List.length xs = n).
    { intros p I G. destruct (given_entry p G) as (e & E & _). pose proof (K p I) as Kp. rewrite E in Kp. destruct Kp as (xs & F & G1).
      exists xs. split; [exact (holds_intro p e xs E F)|]. split; [exact G1|exact (uniform_len n p e xs U E F)]. }
    assert (OK : exists a2, derive atmosphere (is_input a0 ALTITUDE) (is_input a0 DENSITY) (is_input a0 MACH) a1 = (a2, Ok tt)).
    { assert (ANG : forall p e, In p STATE_ALL_PARAMS -> In (p, e) d -> exists xs, dget a1 p = Some (SArr xs)).
      { intros p e I Ie. apply (in_dget d p e ND) in Ie. pose proof (K p I) as Kp. rewrite Ie in Kp. destruct Kp as (xs & _ & Q). eauto. }
      assert (CHK : forall a, (forall p, p <> DENSITY -> p <> AIRSPEED -> dget a p = dget a1 p) -> check_values a = Ok tt).
      { intros a Q. apply check_iff. rewrite !Q by discriminate. split; [exact (ANG _ _ in_al EA)|exact (ANG _ _ in_be EB)]. }
      unfold derive. pose proof (input_new AIRSPEED in_A) as IA. pose proof (input_new MACH in_M) as IM.
      pose proof (input_new DENSITY in_D) as ID. pose proof (input_new ALTITUDE in_H) as IH.
      destruct (is_input a0 ALTITUDE) eqn:QH.
      - assert (GH : given d ALTITUDE) by (apply IH; reflexivity). destruct (AR ALTITUDE in_H GH) as (hs & A & B & L).
        destruct (AT GH) as (hs' & [rh c] & A' & AT'). assert (hs' = hs).
        { destruct A as (e & I1 & F1), A' as (e' & I2 & F2). apply (in_dget d _ _ ND) in I1, I2. rewrite I1 in I2. injection I2 as <-.
          apply to_array_iff in F1, F2. congruence. }
        subst hs'. unfold array_of at 1. rewrite B, AT'. cbn [bind]. destruct (PW _ _ _ AT') as (-> & ->).
        assert (QD : is_input a0 DENSITY = false) by (destruct (is_input a0 DENSITY) eqn:Q; [exfalso; assert (given d DENSITY) by (apply ID; reflexivity); destruct C as [C|[C|C]]; tauto|reflexivity]).
        rewrite QD. destruct (is_input a0 MACH) eqn:QM.
        + assert (GM : given d MACH) by (apply IM; reflexivity). destruct (AR MACH in_M GM) as (ms & A2 & B2 & L2).
          unfold array_of. rewrite dget_dset_other by discriminate. rewrite B2, amul_same by (rewrite map_length; congruence). cbn [bind].
          eexists. rewrite CHK; [reflexivity|]. intros p N1 N2. rewrite !dget_dset_other by assumption. reflexivity.
        + eexists. rewrite CHK; [reflexivity|]. intros p N1 N2. rewrite dget_dset_other by assumption. reflexivity.
      - assert (GH : ~ given d ALTITUDE) by (intro G; apply IH in G; discriminate).
        assert (GD : given d DENSITY) by (destruct C as [C|[C|C]]; tauto). apply ID in GD. rewrite GD.
        assert (GM : is_input a0 MACH = false) by (destruct (is_input a0 MACH) eqn:Q; [exfalso; assert (given d MACH) by (apply IM; reflexivity); destruct C as [C|[C|C]]; tauto|reflexivity]).
        rewrite GM. eexists. rewrite CHK; [reflexivity|auto]. }
    destruct OK as (a2 & OK). rewrite OK. eexists. reflexivity.
Qed.

(** What happens to readable values that are not accepted. *)
Lemma failure_class rho sos : pointwise atmosphere rho sos -> d <> [] -> (exists n, uniform d n) -> combination d ->
  (forall p e v, In p STATE_ALL_PARAMS -> In (p, e) d -> In v (as_list e) -> exists x, reads parse v x) ->
  (forall hs e, given d ALTITUDE -> holds parse d ALTITUDE hs -> atmosphere hs = Err e ->
     exists st, update parse atmosphere new_state d = (st, Err e)) /\
  ((given d ALTITUDE -> exists hs r, holds parse d ALTITUDE hs /\ atmosphere hs = Ok r) ->
   (forall e, ~ In (ALPHA, e) d) \/ (forall e, ~ In (BETA, e) d) ->
   exists st, update parse atmosphere new_state d = (st, Err TypeError)).
Proof.
  intros PW NE (n & U) C RD. rewrite (update_cons _ _ NE). fold a0. cbv zeta.
  assert (CL : common_length d = Some n) by (apply common_iff; assumption). rewrite CL. rewrite (proj2 valid_iff C).
  destruct (convert_total STATE_ALL_PARAMS a0 params_NoDup) as (a1 & CV).
  { intros p l I E. unfold a0 in E. rewrite (fill_dget d ND), (new_dget p I) in E. destruct (dget d p) as [e|] eqn:G; [|discriminate].
    injection E as <-. apply to_array_ok. intros v Iv. exact (RD p e v I (dget_In _ _ _ G) Iv). }
  rewrite CV. pose proof (converted a1 CV) as K.
  assert (AR : forall p, In p STATE_ALL_PARAMS -> given d p -> exists xs, holds parse d p xs /\ dget a1 p = Some (SArr xs) /\ List.length xs = n).
  { intros p I G. destruct (given_entry p G) as (e & E & _). pose proof (K p I) as Kp. rewrite E in Kp. destruct Kp as (xs & F & G1).
    exists xs. split; [exact (holds_intro p e xs E F)|]. split; [exact G1|exact (uniform_len n p e xs U E F)]. }
  assert (SAME : forall p xs ys, holds parse d p xs -> holds parse d p ys -> xs = ys).
  { intros p xs ys (e & I1 & F1) (e' & I2 & F2). apply (in_dget d _ _ ND) in I1, I2. rewrite I1 in I2. injection I2 as <-.
    apply to_array_iff in F1, F2. congruence. }
  pose proof (input_new AIRSPEED in_A) as IA. pose proof (input_new MACH in_M) as IM.
  pose proof (input_new DENSITY in_D) as ID. pose proof (input_new ALTITUDE in_H) as IH. split.
  - intros hs e GH HH AE. destruct (AR ALTITUDE in_H GH) as (hs' & A & B & L). pose proof (SAME _ _ _ HH A) as <-.
    unfold derive. rewrite (proj2 IH GH). unfold array_of at 1. rewrite B, AE. cbn [bind]. eexists. reflexivity.
  - intros AT MISS.
    assert (CHK : forall a, (forall p, p <> DENSITY -> p <> AIRSPEED -> dget a p = dget a1 p) -> check_values a = Err TypeError).
    { intros a Q. assert (T : check_values a = Err TypeError \/ check_values a = Ok tt).
      { destruct (check_values a) as [[]|e] eqn:E; [auto|]. rewrite (check_errors _ _ E). auto. }
      destruct T as [T|T]; [exact T|]. apply check_iff in T. rewrite !Q in T by discriminate. destruct T as ((xs & TA) & (ys & TB)). exfalso.
      destruct MISS as [N|N].
      - pose proof (K ALPHA in_al) as Kp. destruct (dget d ALPHA) as [e|] eqn:G; [exact (N e (dget_In _ _ _ G))|congruence].
      - pose proof (K BETA in_be) as Kp. destruct (dget d BETA) as [e|] eqn:G; [exact (N e (dget_In _ _ _ G))|congruence]. }
    assert (OK : exists a2, derive atmosphere (is_input a0 ALTITUDE) (is_input a0 DENSITY) (is_input a0 MACH) a1 = (a2, Err TypeError)).
    { unfold derive. destruct (is_input a0 ALTITUDE) eqn:QH.
      - assert (GH : given d ALTITUDE) by (apply IH; reflexivity). destruct (AR ALTITUDE in_H GH) as (hs & A & B & L).
        destruct (AT GH) as (hs' & [rh c] & A' & AT'). pose proof (SAME _ _ _ A' A) as ->.
        unfold array_of at 1. rewrite B, AT'. cbn [bind]. destruct (PW _ _ _ AT') as (-> & ->).
        assert (QD : is_input a0 DENSITY = false) by (destruct (is_input a0 DENSITY) eqn:Q; [exfalso; assert (given d DENSITY) by (apply ID; reflexivity); destruct C as [C|[C|C]]; tauto|reflexivity]).
        rewrite QD. destruct (is_input a0 MACH) eqn:QM.
        + assert (GM : given d MACH) by (apply IM; reflexivity). destruct (AR MACH in_M GM) as (ms & A2 & B2 & L2).
          unfold array_of. rewrite dget_dset_other by discriminate. rewrite B2, amul_same by (rewrite map_length; congruence). cbn [bind].
          eexists. rewrite CHK; [reflexivity|]. intros p N1 N2. rewrite !dget_dset_other by assumption. reflexivity.
        + eexists. rewrite CHK; [reflexivity|]. intros p N1 N2. rewrite dget_dset_other by assumption. reflexivity.
      - assert (GH : ~ given d ALTITUDE) by (intro G; apply IH in G; discriminate).
        assert (GD : given d DENSITY) by (destruct C as [C|[C|C]]; tauto). apply ID in GD. rewrite GD.
        assert (GM : is_input a0 MACH = false) by (destruct (is_input a0 MACH) eqn:Q; [exfalso; assert (given d MACH) by (apply IM; reflexivity); destruct C as [C|[C|C]]; tauto|reflexivity]).
        rewrite GM. eexists. rewrite CHK; [reflexivity|auto]. }
    destruct OK as (a2 & OK). rewrite OK. eexists. reflexivity.
Qed.

(** Rejections. *)
Lemma rejected_combination : d <> [] -> (exists n, uniform d n) -> ~ combination d ->
  exists st, update parse atmosphere new_state d = (st, Err ValueError).
Proof.
  intros NE (n & U) C. rewrite (update_cons _ _ NE). fold a0. cbv zeta. rewrite (proj2 (common_iff n NE) U).
  destruct (valid_inputs a0) eqn:V; [elim C; apply valid_iff; exact V|]. eexists. reflexivity.
Qed.

Lemma rejected_lengths st : (exists p q e f, In (p, e) d /\ In (q, f) d /\ List.length (as_list e) <> List.length (as_list f)) ->
  exists st', update parse atmosphere st d = (st', Err ValueError).
Proof.
  intros (p & q & e & f & I1 & I2 & N). assert (NE : d <> []) by (intro Z; rewrite Z in I1; exact I1). rewrite (update_cons _ _ NE).
  destruct (common_length d) as [n|] eqn:E; [|eexists; reflexivity].
  apply (common_iff n NE) in E. elim N. rewrite (E p e I1), (E q f I2). reflexivity.
Qed.

(** ** Iteration *)
Lemma read_all_ok a i ps : (forall p, In p ps -> exists xs x, dget a p = Some (SArr xs) /\ nth_error xs i = Some x) ->
  exists row, read_all parse a ps i = Ok row /\ dkeys row = ps /\
    forall p x, In (p, x) row -> exists xs, dget a p = Some (SArr xs) /\ nth_error xs i = Some x.
Proof.
  induction ps as [|p ps IH]; intro H; cbn [read_all]; [exists []; split; [reflexivity|]; split; [reflexivity|intros ? ? []]|].
  destruct (H p (or_introl eq_refl)) as (xs & x & E & N). unfold read at 1. rewrite E, N. cbn [bind].
  destruct IH as (row & R & K & V); [intros q I; apply H; right; exact I|]. rewrite R. cbn [bind]. eexists. split; [reflexivity|].
  split; [cbn; f_equal; exact K|]. intros q y [I|I]; [injection I as <- <-; eauto|eauto].
Qed.

Lemma iter_ok a n : (forall p, In p STATE_PRIMARY_PARAMS -> exists xs, dget a p = Some (SArr xs) /\ List.length xs = n) ->
  forall k i, (i + k = n)%nat -> exists rows, iter_from parse a i k = (rows, Ok tt) /\ List.length rows = k /\
    forall j row, nth_error rows j = Some row -> dkeys row = STATE_PRIMARY_PARAMS /\
      forall p x, In (p, x) row -> exists xs, dget a p = Some (SArr xs) /\ nth_error xs (i + j) = Some x.
Proof.
  intros H k. induction k as [|k IH]; intros i L; cbn [iter_from].
  - exists []. split; [reflexivity|]. split; [reflexivity|]. intros [|j] row E; discriminate.
  - destruct (read_all_ok a i STATE_PRIMARY_PARAMS) as (row & R & K & V).
    { intros p I. destruct (H p I) as (xs & E & Ln). destruct (nth_error xs i) as [x|] eqn:N; [exists xs, x; auto|]. apply nth_error_None in N. lia. }
    rewrite R. destruct (IH (S i) ltac:(lia)) as (rows & E & Ln & F). rewrite E. eexists. split; [reflexivity|]. split; [cbn; lia|].
    intros [|j] row' N; cbn in N.
    + injection N as <-. rewrite Nat.add_0_r. auto.
    + rewrite <- Nat.add_succ_comm. exact (F j row' N).
Qed.

Lemma iteration rho sos st : pointwise atmosphere rho sos -> update parse atmosphere new_state d = (st, Ok tt) ->
  (forall p, In p [RATE_P; RATE_Q; RATE_R] -> exists e, In (p, e) d) ->
  exists n rows, uniform d n /\ iter_states parse st = (rows, Ok tt) /\ List.length rows = n /\
    forall j row, nth_error rows j = Some row -> dkeys row = STATE_PRIMARY_PARAMS /\
      forall p x, In (p, x) row -> exists xs, has st p xs /\ nth_error xs j = Some x.
Proof.
  intros PW H R. assert (AC : acceptable parse atmosphere d) by (apply (accepted_iff rho sos PW); eauto).
  destruct AC as (_ & _ & _ & _ & (ea & EA) & (eb & EB) & _).
  destruct (accepted_meaning rho sos st PW H) as (_ & n & U & (N & O & (xd & D1 & D2 & _) & (xa & A1 & A2 & _))).
  assert (P : forall p, In p STATE_PRIMARY_PARAMS -> exists xs, dget (f_aero st) p = Some (SArr xs) /\ List.length xs = n).
  { intros p I. assert (X : forall q e, In q STATE_ALL_PARAMS -> q <> DENSITY -> q <> AIRSPEED -> In (q, e) d -> exists xs, dget (f_aero st) q = Some (SArr xs) /\ List.length xs = n).
    { intros q e Iq N1 N2 Ie. destruct (O q Iq N1 N2) as (O1 & _). destruct (O1 e Ie) as (xs & _ & O2 & O3). exists xs. auto. }
    cbn in I. destruct I as [<-|[<-|[<-|[<-|[<-|[<-|[<-|[]]]]]]]].
    - exists xa. auto.
    - apply (X ALPHA ea); [cbn; tauto|discriminate|discriminate|exact EA].
    - apply (X BETA eb); [cbn; tauto|discriminate|discriminate|exact EB].
    - exists xd. auto.
    - destruct (R RATE_P) as (e & I); [cbn; tauto|]. apply (X RATE_P e); [cbn; tauto|discriminate|discriminate|exact I].
    - destruct (R RATE_Q) as (e & I); [cbn; tauto|]. apply (X RATE_Q e); [cbn; tauto|discriminate|discriminate|exact I].
    - destruct (R RATE_R) as (e & I); [cbn; tauto|]. apply (X RATE_R e); [cbn; tauto|discriminate|discriminate|exact I]. }
  destruct (iter_ok (f_aero st) n P n 0 ltac:(lia)) as (rows & E & L & F). exists n, rows. unfold iter_states. rewrite N.
  split; [exact U|]. split; [exact E|]. split; [exact L|exact F].
Qed.
End Proofs.

(** ** Scalars and lists *)
Lemma scalars_are_lists parse atmosphere st d :
  update parse atmosphere st (map (fun kv => (fst kv, Many (as_list (snd kv)))) d) = update parse atmosphere st d.
Proof.
  assert (F : forall d a, fill a (map (fun kv => (fst kv, Many (as_list (snd kv)))) d) = fill a d).
  { unfold fill. induction d0 as [|[k e] d0 IH]; intro a; [reflexivity|]. cbn [map fold_left fst snd]. apply IH. }
  assert (C : common_length (map (fun kv => (fst kv, Many (as_list (snd kv)))) d) = common_length d).
  { destruct d as [|[k e] d']; [reflexivity|]. cbn [map common_length fst snd]. change (to_list (Many (as_list e))) with (to_list e).
    replace (forallb _ (map _ d')) with (forallb (fun kv => Nat.eqb (List.length (to_list (snd kv))) (List.length (to_list e))) d'); [reflexivity|].
    induction d' as [|[k' e'] d' IH]; [reflexivity|]. cbn [map forallb fst snd]. rewrite IH. reflexivity. }
  destruct d as [|[k e] d']; [reflexivity|].
  rewrite !update_cons by discriminate. rewrite F, C. reflexivity.
Qed.

(** ** Repeated updates *)
Section Again.
Variable parse : string -> res num.
Variable atmosphere : list num -> res (list num * list num).

Definition same (a b : dict stored) : Prop := forall p, In p STATE_ALL_PARAMS -> dget a p = dget b p.

Lemma same_dset a b p v : same a b -> same (dset a p v) (dset b p v).
Proof. intros S q I. destruct (String.eqb_spec q p) as [->|N]; [rewrite !dget_dset_same; reflexivity|rewrite !dget_dset_other by exact N; exact (S q I)]. Qed.
Lemma same_input a b p : In p STATE_ALL_PARAMS -> same a b -> is_input a p = is_input b p.
Proof. intros I S. unfold is_input. rewrite (S p I). reflexivity. Qed.
Lemma same_array a b p : In p STATE_ALL_PARAMS -> same a b -> array_of a p = array_of b p.
Proof. intros I S. unfold array_of. rewrite (S p I). reflexivity. Qed.
Lemma same_valid a b : same a b -> valid_inputs a = valid_inputs b.
Proof. intro S. unfold valid_inputs. rewrite !(fun p H => same_input a b p H S) by (cbn; tauto). reflexivity. Qed.
Lemma same_convert ps : incl ps STATE_ALL_PARAMS -> forall a b, same a b ->
  same (fst (convert parse ps a)) (fst (convert parse ps b)) /\ snd (convert parse ps a) = snd (convert parse ps b).
Proof.
  intro I. induction ps as [|p ps IH]; intros a b S; cbn [convert]; [split; [exact S|reflexivity]|].
  rewrite (S p (I p (or_introl eq_refl))). assert (I' : incl ps STATE_ALL_PARAMS) by (intros q Q; apply I; right; exact Q).
  destruct (dget b p) as [[v|l|xs]|]; try (apply IH; assumption). destruct (to_array parse l); [|split; [exact S|reflexivity]].
  apply IH; [exact I'|apply same_dset; exact S].
Qed.
Lemma same_check a b : same a b -> check_values a = check_values b.
Proof. intro S. unfold check_values, check_angle. rewrite (S ALPHA), (S BETA) by (cbn; tauto). reflexivity. Qed.
Lemma same_derive ia id im a b : same a b ->
  same (fst (derive atmosphere ia id im a)) (fst (derive atmosphere ia id im b)) /\
  snd (derive atmosphere ia id im a) = snd (derive atmosphere ia id im b).
Proof.
  intro S. unfold derive. rewrite (same_array a b ALTITUDE) by (cbn; tauto).
  destruct (if ia then _ else _) as [r|e]; [|split; [exact S|reflexivity]].
  assert (X : forall a b, same a b ->
    same (fst (match (if im then match r with Some (_, c) => let? v := amul (array_of a MACH) c in Ok (dset a AIRSPEED (SArr v)) | None => Err UnboundLocalError end else Ok a) with
          | Err e => (a, Err e) | Ok a2 => (a2, check_values a2) end))
         (fst (match (if im then match r with Some (_, c) => let? v := amul (array_of b MACH) c in Ok (dset b AIRSPEED (SArr v)) | None => Err UnboundLocalError end else Ok b) with
          | Err e => (b, Err e) | Ok a2 => (a2, check_values a2) end)) /\
    snd (match (if im then match r with Some (_, c) => let? v := amul (array_of a MACH) c in Ok (dset a AIRSPEED (SArr v)) | None => Err UnboundLocalError end else Ok a) with
          | Err e => (a, Err e) | Ok a2 => (a2, check_values a2) end) =
    snd (match (if im then match r with Some (_, c) => let? v := amul (array_of b MACH) c in Ok (dset b AIRSPEED (SArr v)) | None => Err UnboundLocalError end else Ok b) with
          | Err e => (b, Err e) | Ok a2 => (a2, check_values a2) end)).
  { clear a b S. intros a b S. rewrite (same_array a b MACH) by (cbn; tauto). destruct im.
    - destruct r as [[rho c]|]; [|split; [exact S|reflexivity]]. destruct (amul _ _); cbn [bind]; [|split; [exact S|reflexivity]].
      cbn [fst snd]. split; [apply same_dset; exact S|apply same_check, same_dset; exact S].
    - cbn [fst snd]. split; [exact S|apply same_check; exact S]. }
  destruct id; [apply X; exact S|]. destruct r as [[rho c]|]; [|split; [exact S|reflexivity]]. apply X. apply same_dset. exact S.
Qed.

Lemma update_again st st' d : NoDup (dkeys d) -> (forall p, In p STATE_ALL_PARAMS -> exists e, In (p, e) d) ->
  snd (update parse atmosphere st d) = snd (update parse atmosphere st' d) /\
  f_num (fst (update parse atmosphere st d)) = (match common_length d with Some n => n | None => f_num st end) /\
  forall p, In p STATE_ALL_PARAMS -> dget (f_aero (fst (update parse atmosphere st d))) p = dget (f_aero (fst (update parse atmosphere st' d))) p.
Proof.
  intros ND K. assert (NE : d <> []) by (intros ->; destruct (K AIRSPEED) as (e & []); cbn; tauto).
  rewrite !(update_cons _ _ _ _ NE). cbv zeta.
  assert (S : same (fill (f_aero st) d) (fill (f_aero st') d)).
  { intros p I. rewrite !(fill_dget d ND). destruct (K p I) as (e & Ie). apply (in_dget d p e ND) in Ie. rewrite Ie. reflexivity. }
  destruct (common_length d) as [n|]; [|split; [reflexivity|split; [reflexivity|exact S]]].
  rewrite (same_valid _ _ S). destruct (valid_inputs _); [|split; [reflexivity|split; [reflexivity|exact S]]].
  rewrite !(fun p H => same_input _ _ p H S) by (cbn; tauto).
  destruct (same_convert STATE_ALL_PARAMS (incl_refl _) _ _ S) as (S1 & E1).
  destruct (convert parse STATE_ALL_PARAMS (fill (f_aero st) d)) as [a1 r1], (convert parse STATE_ALL_PARAMS (fill (f_aero st') d)) as [b1 q1].
  cbn [fst snd] in S1, E1. subst q1. destruct r1; [|split; [reflexivity|split; [reflexivity|exact S1]]].
  destruct (same_derive (is_input (fill (f_aero st') d) ALTITUDE) (is_input (fill (f_aero st') d) DENSITY) (is_input (fill (f_aero st') d) MACH) _ _ S1) as (S2 & E2).
  destruct (derive _ _ _ _ a1) as [a2 r2], (derive _ _ _ _ b1) as [b2 q2]. cbn [fst snd] in S2, E2 |- *. subst q2.
  split; [reflexivity|]. split; [reflexivity|exact S2].
Qed.

(** After an accepted update that used mach or altitude, an update that gives airspeed and density but
    does not mention them is rejected. *)
Lemma update_leftover st d : NoDup (dkeys d) -> (exists n, uniform d n) -> given d DENSITY ->
  (forall e, ~ In (ALTITUDE, e) d) -> (exists hs, has st ALTITUDE hs) -> exists st', update parse atmosphere st d = (st', Err ValueError).
Proof.
  intros ND (n & U) (e & I & F) NH (hs & H). assert (NE : d <> []) by (intros ->; exact I).
  rewrite (update_cons _ _ _ _ NE). cbv zeta. rewrite (proj2 (common_iff d ND n NE) U).
  assert (Q1 : is_input (fill (f_aero st) d) DENSITY = true).
  { unfold is_input. rewrite (fill_dget d ND). apply (in_dget d _ _ ND) in I. rewrite I. apply forallb_number. exact F. }
  assert (Q2 : is_input (fill (f_aero st) d) ALTITUDE = true).
  { unfold is_input. rewrite (fill_dget d ND). destruct (dget d ALTITUDE) as [e'|] eqn:E; [elim (NH e'); apply dget_In; exact E|]. unfold has in H. rewrite H. reflexivity. }
  assert (V : valid_inputs (fill (f_aero st) d) = false).
  { unfold valid_inputs. rewrite Q1, Q2. destruct (is_input _ AIRSPEED), (is_input _ MACH); reflexivity. }
  rewrite V. eexists. reflexivity.
Qed.
End Again.

(** ** Save and load *)
Section RoundTrip.
Variable parse : string -> res num.
Variable atmosphere : list num -> res (list num * list num).

Lemma dget_save st p : dget (save st) p = option_map save_entry (dget (f_aero st) p).
Proof.
  unfold save. induction (f_aero st) as [|[k v] a IH]; [reflexivity|]. cbn [map fst snd dget]. destruct (String.eqb p k); [reflexivity|exact IH].
Qed.
Lemma dkeys_save st : dkeys (save st) = dkeys (f_aero st).
Proof. unfold save, dkeys. rewrite map_map. reflexivity. Qed.

Lemma convert_keys ps : forall a, dkeys (fst (convert parse ps a)) = dkeys a.
Proof.
  induction ps as [|p ps IH]; intro a; cbn [convert]; [reflexivity|].
  destruct (dget a p) as [[v|l|xs]|] eqn:E; try apply IH. destruct (to_array parse l); [|reflexivity].
  rewrite IH. apply dset_keys_mem. congruence.
Qed.
Lemma fill_NoDup d : forall a, NoDup (dkeys a) -> NoDup (dkeys (fill a d)).
Proof. unfold fill. induction d as [|[k e] d IH]; intros a N; [exact N|]. cbn [fold_left fst snd]. apply IH, dset_NoDup, N. Qed.

Lemma new_NoDup : NoDup (dkeys (f_aero new_state)).
Proof. exact params_NoDup. Qed.

Lemma derive_other ia id im a p : p <> DENSITY -> p <> AIRSPEED -> dget (fst (derive atmosphere ia id im a)) p = dget a p.
Proof.
  intros N1 N2. unfold derive. destruct (if ia then _ else _) as [r|e]; [|reflexivity].
  destruct id.
  - destruct im; [destruct r as [[rho c]|]; [destruct (amul _ _)|]|]; cbn; try reflexivity. rewrite dget_dset_other by exact N2. reflexivity.
  - destruct r as [[rho c]|]; [|reflexivity]. destruct im; [destruct (amul _ _)|]; cbn [bind fst]; rewrite ?dget_dset_other by assumption; reflexivity.
Qed.
Lemma derive_NoDup ia id im a : NoDup (dkeys a) -> NoDup (dkeys (fst (derive atmosphere ia id im a))).
Proof.
  intro N. unfold derive. destruct (if ia then _ else _) as [r|e]; [|exact N].
  destruct id.
  - destruct im; [destruct r as [[rho c]|]; [destruct (amul _ _)|]|]; cbn [bind fst]; try exact N. apply dset_NoDup, N.
  - destruct r as [[rho c]|]; [|exact N]. destruct im; [destruct (amul _ _)|]; cbn [bind fst]; repeat apply dset_NoDup; exact N.
Qed.

Lemma number_entry xs : save_entry (SArr xs) = floats xs.
Proof. reflexivity. Qed.
Lemma floats_numeric xs : Forall numeric (as_list (floats xs)).
Proof. cbn. apply Forall_forall. intros v I. apply in_map_iff in I. destruct I as ([q|] & <- & _); exact Logic.I. Qed.
Lemma floats_reads xs : Forall2 (reads parse) (as_list (floats xs)) xs.
Proof. cbn. induction xs as [|[q|] xs IH]; cbn [map]; constructor; try exact IH; reflexivity. Qed.
Lemma floats_length xs : List.length (as_list (floats xs)) = List.length xs.
Proof. cbn. apply map_length. Qed.

Variable d : dict entry.
Hypothesis ND : NoDup (dkeys d).

Lemma state_keys st : update parse atmosphere new_state d = (st, Ok tt) ->
  NoDup (dkeys (f_aero st)) /\
  forall p, ~ In p STATE_ALL_PARAMS -> dget (f_aero st) p = option_map (fun e => SList (as_list e)) (dget d p).
Proof.
  intro H. destruct (update_ok parse atmosphere d ND st H) as (n & a1 & a2 & _ & _ & _ & CV & DR & ->). cbn [f_aero].
  assert (E1 : a1 = fst (convert parse STATE_ALL_PARAMS (fill (f_aero new_state) d))) by (rewrite CV; reflexivity).
  pose proof (f_equal fst DR) as E2. cbn [fst] in E2. rewrite <- E2. split.
  - apply derive_NoDup. rewrite E1, convert_keys. apply fill_NoDup, new_NoDup.
  - intros p NI. rewrite derive_other by (intros ->; apply NI; cbn; tauto).
    destruct (convert_ok parse _ params_NoDup _ _ CV) as (_ & C). rewrite (C p NI), (fill_dget d ND).
    destruct (dget d p) as [e|]; [reflexivity|]. destruct (dget (f_aero new_state) p) eqn:Q; [|reflexivity].
    elim NI. apply dget_In in Q. apply (in_map fst) in Q. exact Q.
Qed.

Lemma reload rho sos st : pointwise atmosphere rho sos -> update parse atmosphere new_state d = (st, Ok tt) ->
  ((exists st', load parse atmosphere (save st) = (st', Ok tt)) <->
   uniform d 1 /\ (forall e, ~ In (MACH, e) d) /\ (forall e, ~ In (ALTITUDE, e) d)) /\
  (forall st', load parse atmosphere (save st) = (st', Ok tt) ->
    f_num st' = f_num st /\ forall p xs, In p STATE_ALL_PARAMS -> has st p xs -> has st' p xs).
Proof.
  intros PW H. destruct (state_keys st H) as (NK & OTH).
  assert (NS : NoDup (dkeys (save st))) by (rewrite dkeys_save; exact NK).
  assert (AC : acceptable parse atmosphere d) by (apply (accepted_iff parse atmosphere d ND rho sos PW); eauto).
  destruct AC as (NE & _ & _ & _ & (ea & EA) & (eb & EB) & _).
  destruct (accepted_meaning parse atmosphere d ND rho sos st PW H) as (_ & n & U & (N & O & (xd & D1 & D2 & _) & (xa & A1 & A2 & _))).
  assert (SV : forall p xs, has st p xs -> dget (save st) p = Some (floats xs)).
  { intros p xs Q. rewrite dget_save. unfold has in Q. rewrite Q. reflexivity. }
  assert (GV : forall p xs, has st p xs -> given (save st) p).
  { intros p xs Q. exists (floats xs). split; [apply dget_In, SV, Q|apply floats_numeric]. }
  assert (NV : forall p, dget (f_aero st) p = Some (SRaw VNone) -> ~ given (save st) p).
  { intros p Q (e & I & F). apply (in_dget _ _ _ NS) in I. rewrite dget_save, Q in I. injection I as <-. inversion F as [|? ? X]. exact X. }
  assert (ARR : forall p e, In p STATE_ALL_PARAMS -> p <> DENSITY -> p <> AIRSPEED -> In (p, e) d -> exists xs, has st p xs /\ List.length xs = n).
  { intros p e I N1 N2 Ie. destruct (O p I N1 N2) as (O1 & _). destruct (O1 e Ie) as (xs & _ & Q1 & Q2). eauto. }
  assert (KEYS : forall p, In p STATE_ALL_PARAMS -> (exists xs, has st p xs /\ List.length xs = n) \/ dget (f_aero st) p = Some (SRaw VNone)).
  { intros p I. destruct (String.eqb_spec p DENSITY) as [->|N1]; [left; eauto|]. destruct (String.eqb_spec p AIRSPEED) as [->|N2]; [left; eauto|].
    destruct (dget d p) as [e|] eqn:E; [left; apply (ARR p e); [exact I|exact N1|exact N2|apply dget_In; exact E]|].
    right. destruct (O p I N1 N2) as (_ & O2). apply O2. intros e Ie. apply (in_dget _ _ _ ND) in Ie. congruence. }
  assert (LEN : forall p e, In (p, e) (save st) -> List.length (as_list e) = n \/ (e = One VNone /\ dget (f_aero st) p = Some (SRaw VNone))).
  { intros p e I. apply (in_dget _ _ _ NS) in I. rewrite dget_save in I. destruct (dget (f_aero st) p) as [v|] eqn:E; [|discriminate]. injection I as <-.
    destruct (in_dec String.string_dec p STATE_ALL_PARAMS) as [IP|NP].
    - destruct (KEYS p IP) as [(xs & Q & L)|Q].
      + unfold has in Q. rewrite E in Q. injection Q as ->. left. rewrite number_entry, floats_length. exact L.
      + rewrite E in Q. injection Q as ->. right. auto.
    - rewrite (OTH p NP) in E. destruct (dget d p) as [e|] eqn:F; [|discriminate]. injection E as <-. left. exact (U p e (dget_In _ _ _ F)). }
  assert (U1 : uniform d 1 -> n = 1%nat) by (intro U'; rewrite <- (U ALPHA ea EA), (U' ALPHA ea EA); reflexivity).
  assert (DS : In (DENSITY, floats xd) (save st)) by (apply dget_In, SV, D1).
  split; [split|].
  - intros (st' & L). assert (AC : acceptable parse atmosphere (save st)) by (apply (accepted_iff parse atmosphere (save st) NS rho sos PW); eauto).
    destruct AC as (_ & (m & UM) & CB & _). assert (m = n).
    { rewrite <- (UM _ _ DS), floats_length. exact D2. } subst m.
    pose proof (GV _ _ D1) as GD. pose proof (GV _ _ A1) as GA.
    assert (NM : ~ given (save st) MACH) by (destruct CB as [C|[C|C]]; tauto).
    assert (NH : ~ given (save st) ALTITUDE) by (destruct CB as [C|[C|C]]; tauto).
    assert (KM : forall e, ~ In (MACH, e) d) by (intros e I; destruct (ARR MACH e) as (xs & Q & _); [cbn; tauto|discriminate|discriminate|exact I|exact (NM (GV _ _ Q))]).
    assert (KH : forall e, ~ In (ALTITUDE, e) d) by (intros e I; destruct (ARR ALTITUDE e) as (xs & Q & _); [cbn; tauto|discriminate|discriminate|exact I|exact (NH (GV _ _ Q))]).
    split; [|split; assumption]. destruct (O MACH (in_M)) as (_ & O2); [discriminate|discriminate|]. specialize (O2 KM).
    assert (IM : In (MACH, One VNone) (save st)) by (apply dget_In; rewrite dget_save, O2; reflexivity).
    specialize (UM _ _ IM). cbn in UM. rewrite UM. exact U.
  - intros (U' & KM & KH). specialize (U1 U'). rewrite U1 in LEN. apply (accepted_iff parse atmosphere (save st) NS rho sos PW).
    destruct (O MACH (in_M)) as (_ & OM); [discriminate|discriminate|]. specialize (OM KM).
    destruct (O ALTITUDE (in_H)) as (_ & OH); [discriminate|discriminate|]. specialize (OH KH).
    destruct (ARR ALPHA ea) as (xal & QA & _); [cbn; tauto|discriminate|discriminate|exact EA|].
    destruct (ARR BETA eb) as (xbe & QB & _); [cbn; tauto|discriminate|discriminate|exact EB|].
    split; [|split; [|split; [|split; [|split; [|split]]]]].
    + intro Z. rewrite Z in DS. exact DS.
    + exists 1%nat. intros p e I. destruct (LEN p e I) as [L|(-> & _)]; [exact L|reflexivity].
    + left. split; [exact (GV _ _ A1)|]. split; [exact (GV _ _ D1)|]. split; [exact (NV _ OM)|exact (NV _ OH)].
    + intros p e v IP Ie Iv. apply (in_dget _ _ _ NS) in Ie. destruct (KEYS p IP) as [(xs & Q & _)|Q].
      * rewrite (SV _ _ Q) in Ie. injection Ie as <-. apply (proj1 (to_array_ok parse (as_list (floats xs)))); [|exact Iv].
        exists xs. apply to_array_iff, floats_reads.
      * rewrite dget_save, Q in Ie. injection Ie as <-. cbn in Iv. destruct Iv as [<-|[]]. exists None. reflexivity.
    + exists (floats xal). apply dget_In, SV, QA.
    + exists (floats xbe). apply dget_In, SV, QB.
    + intro G. elim (NV _ OH G).
  - intros st' L. assert (AC : acceptable parse atmosphere (save st)) by (apply (accepted_iff parse atmosphere (save st) NS rho sos PW); eauto).
    destruct AC as (_ & (m & UM) & CB & _). assert (m = n).
    { rewrite <- (UM _ _ DS), floats_length. exact D2. } subst m.
    destruct (accepted_meaning parse atmosphere (save st) NS rho sos st' PW L) as (_ & m & UM' & (N' & O' & (yd & E1 & _ & E2 & _) & (ya & F1 & _ & F2 & _))).
    assert (m = n) by (rewrite <- (UM' _ _ DS), floats_length; exact D2). subst m. split; [congruence|].
    assert (UN : forall p xs ys, has st p xs -> holds parse (save st) p ys -> ys = xs).
    { intros p xs ys Q (e & I & F). apply (in_dget _ _ _ NS) in I. rewrite (SV _ _ Q) in I. injection I as <-.
      apply to_array_iff in F. pose proof (floats_reads xs) as G. apply to_array_iff in G. congruence. }
    intros p xs IP Q. destruct (String.eqb_spec p DENSITY) as [->|N1].
    { rewrite <- (UN _ _ _ Q (E2 (GV _ _ Q))). exact E1. }
    destruct (String.eqb_spec p AIRSPEED) as [->|N2].
    { rewrite <- (UN _ _ _ Q (F2 (GV _ _ Q))). exact F1. }
    destruct (O' p IP N1 N2) as (O1 & _). destruct (O1 (floats xs)) as (ys & Y1 & Y2 & _); [apply dget_In, SV, Q|].
    rewrite <- (UN _ _ _ Q Y1). exact Y2.
Qed.
End RoundTrip.

(** ** The aeroperformance map of CPACS *)
Section Apm.
Variable parse : string -> res num.
Variable atmosphere : list num -> res (list num * list num).

Definition apm_dict (altitude mach alpha beta : list num) : dict entry :=
  let zeros := Many (repeat (VNum 0) (List.length altitude)) in
  [(ALTITUDE, floats altitude); (ALPHA, floats alpha); (BETA, floats beta); (MACH, floats mach);
   (RATE_P, zeros); (RATE_Q, zeros); (RATE_R, zeros)].

Lemma apm_lengths h m al be : ~ (List.length m = List.length h /\ List.length al = List.length h /\ List.length be = List.length h) ->
  load_apm parse atmosphere h m al be = (new_state, Err ValueError).
Proof.
  intro N. unfold load_apm. destruct (_ && _ && _)%bool eqn:E; [|reflexivity]. elim N.
  apply andb_true_iff in E. destruct E as (E & E3). apply andb_true_iff in E. destruct E as (E1 & E2). apply Nat.eqb_eq in E1, E2, E3. auto.
Qed.

Lemma zeros_reads n : Forall2 (reads parse) (repeat (VNum 0) n) (repeat (Some 0%Q) n).
Proof. induction n; cbn [repeat]; constructor; [reflexivity|assumption]. Qed.

Lemma apm_ok rho sos h m al be : pointwise atmosphere rho sos ->
  List.length m = List.length h -> List.length al = List.length h -> List.length be = List.length h -> forall r, atmosphere h = Ok r ->
  exists st xs rows, load_apm parse atmosphere h m al be = (st, Ok tt) /\ f_num st = List.length h /\
    has st ALPHA al /\ has st BETA be /\ has st DENSITY (map rho h) /\ has st AIRSPEED xs /\ speeds sos m h xs /\
    (forall p, In p [RATE_P; RATE_Q; RATE_R] -> has st p (repeat (Some 0%Q) (List.length h))) /\
    iter_states parse st = (rows, Ok tt) /\ List.length rows = List.length h /\
    forall j row, nth_error rows j = Some row -> dkeys row = STATE_PRIMARY_PARAMS /\
      forall p x, In (p, x) row -> exists xs, has st p xs /\ nth_error xs j = Some x.
Proof.
  intros PW L1 L2 L3 r AT. unfold load_apm. rewrite L1, L2, L3, Nat.eqb_refl. cbn [andb]. fold (apm_dict h m al be).
  set (d := apm_dict h m al be). assert (ND : NoDup (dkeys d)) by (unfold d, apm_dict, dkeys; cbn [map fst]; repeat constructor; cbn; intuition discriminate).
  assert (GF : forall p xs, dget d p = Some (floats xs) -> given d p) by (intros p xs E; exists (floats xs); split; [apply dget_In; exact E|apply floats_numeric]).
  assert (NG : forall p, dget d p = None -> ~ given d p) by (intros p E (e & I & _); apply (in_dget _ _ _ ND) in I; congruence).
  assert (U : uniform d (List.length h)).
  { intros p e I. cbn in I. repeat destruct I as [I|I]; [..|destruct I]; injection I as <- <-; rewrite ?floats_length; cbn [as_list]; rewrite ?repeat_length; congruence. }
  assert (GH : given d ALTITUDE) by (apply (GF _ h); reflexivity). assert (GM : given d MACH) by (apply (GF _ m); reflexivity).
  assert (GA : ~ given d AIRSPEED) by (apply NG; reflexivity). assert (GD : ~ given d DENSITY) by (apply NG; reflexivity).
  assert (AC : acceptable parse atmosphere d).
  { split; [discriminate|]. split; [eauto|]. split; [right; right; auto|]. split; [|split; [|split]].
    - intros p e v _ I Iv. assert (F : exists xs, Forall2 (reads parse) (as_list e) xs).
      { cbn in I. repeat destruct I as [I|I]; [..|destruct I]; injection I as <- <-; eexists; try apply floats_reads; apply zeros_reads. }
      destruct F as (xs & F). apply to_array_iff in F. apply (proj1 (to_array_ok parse (as_list e))); [eauto|exact Iv].
    - exists (floats al). cbn. tauto.
    - exists (floats be). cbn. tauto.
    - intros _. exists h, r. split; [|exact AT]. exists (floats h). split; [cbn; tauto|apply floats_reads]. }
  destruct (proj2 (accepted_iff parse atmosphere d ND rho sos PW) AC) as (st & H).
  destruct (accepted_meaning parse atmosphere d ND rho sos st PW H) as (_ & n & U' & (N & O & (xd & D1 & D2 & _ & D3) & (xa & A1 & A2 & _ & A3))).
  assert (n = List.length h) by (rewrite <- (U' ALTITUDE (floats h)); [apply floats_length|cbn; tauto]). subst n.
  assert (UN : forall p e xs ys, dget d p = Some e -> Forall2 (reads parse) (as_list e) xs -> holds parse d p ys -> ys = xs).
  { intros p e xs ys E F (e' & I & F'). apply (in_dget _ _ _ ND) in I. rewrite E in I. injection I as <-. apply to_array_iff in F, F'. congruence. }
  assert (V : forall p e xs, In p STATE_ALL_PARAMS -> p <> DENSITY -> p <> AIRSPEED -> dget d p = Some e -> Forall2 (reads parse) (as_list e) xs -> has st p xs).
  { intros p e xs I N1 N2 E F. destruct (O p I N1 N2) as (O1 & _). destruct (O1 e (dget_In _ _ _ E)) as (ys & Y1 & Y2 & _).
    rewrite <- (UN p e xs ys E F Y1). exact Y2. }
  destruct (iteration parse atmosphere d ND rho sos st PW H) as (n & rows & U2 & IT & LR & RW).
  { intros p [<-|[<-|[<-|[]]]]; eexists; cbn; tauto. }
  assert (n = List.length h) by (rewrite <- (U2 ALTITUDE (floats h)); [apply floats_length|cbn; tauto]). subst n.
  exists st, xa, rows. split; [exact H|]. split; [congruence|].
  split; [apply (V ALPHA (floats al)); [cbn; tauto|discriminate|discriminate|reflexivity|apply floats_reads]|].
  split; [apply (V BETA (floats be)); [cbn; tauto|discriminate|discriminate|reflexivity|apply floats_reads]|].
  split; [destruct (D3 GD) as (hs & HH & ->); rewrite <- (UN ALTITUDE (floats h) h hs eq_refl (floats_reads parse h) HH); exact D1|].
  split; [exact A1|].
  split; [destruct (A3 GA) as (ms & hs & HM & HH & S); rewrite <- (UN ALTITUDE (floats h) h hs eq_refl (floats_reads parse h) HH), <- (UN MACH (floats m) m ms eq_refl (floats_reads parse m) HM); exact S|].
  split; [|split; [exact IT|split; [congruence|exact RW]]].
  intros p [<-|[<-|[<-|[]]]]; (eapply V; [cbn; tauto|discriminate|discriminate|reflexivity|apply zeros_reads]).
Qed.
End Apm.

(** ** Numbers *)
Section Numbers.
Variable parse : string -> res num.
Variable atmosphere : list num -> res (list num * list num).
Variable d : dict entry.
Hypothesis ND : NoDup (dkeys d).

Lemma all_numbers rho sos st : pointwise atmosphere rho sos ->
  (forall h, rho (Some h) <> None /\ sos (Some h) <> None) ->
  (forall p e v, In (p, e) d -> In v (as_list e) -> exists q, v = VNum q) ->
  update parse atmosphere new_state d = (st, Ok tt) ->
  forall p xs x, In p STATE_ALL_PARAMS -> has st p xs -> In x xs -> exists q, x = Some q.
Proof.
  intros PW RS NUM H. destruct (accepted_meaning parse atmosphere d ND rho sos st PW H) as (_ & n & U & (N & O & (xd & D1 & D2 & D3 & D4) & (xa & A1 & A2 & A3 & A4))).
  assert (HN : forall p xs x, holds parse d p xs -> In x xs -> exists q, x = Some q).
  { intros p xs x (e & I & F) Ix. pose proof (fun v => NUM p e v I) as NV. clear I. induction F as [|v y l ys R F IH]; [destruct Ix|].
    destruct Ix as [<-|Ix]; [|apply IH; [exact Ix|intros; apply NV; right; assumption]].
    destruct (NV v (or_introl eq_refl)) as (q & ->). cbn in R. eauto. }
  assert (GD : given d DENSITY \/ ~ given d DENSITY).
  { destruct (is_input (fill (f_aero new_state) d) DENSITY) eqn:E; [left|right]; [apply (input_new d ND _ in_D); exact E|apply (input_new_false parse d ND _ in_D); exact E]. }
  assert (GA : given d AIRSPEED \/ ~ given d AIRSPEED).
  { destruct (is_input (fill (f_aero new_state) d) AIRSPEED) eqn:E; [left|right]; [apply (input_new d ND _ in_A); exact E|apply (input_new_false parse d ND _ in_A); exact E]. }
  intros p xs x IP Q Ix. destruct (String.eqb_spec p DENSITY) as [->|N1].
  { unfold has in Q, D1. rewrite D1 in Q. injection Q as ->. destruct GD as [G|G]; [exact (HN _ _ _ (D3 G) Ix)|].
    destruct (D4 G) as (hs & HH & ->). apply in_map_iff in Ix. destruct Ix as (h & <- & Ih). destruct (HN _ _ _ HH Ih) as (q & ->).
    destruct (rho (Some q)) eqn:E; [eauto|]. destruct (RS q) as (R & _). congruence. }
  destruct (String.eqb_spec p AIRSPEED) as [->|N2].
  { unfold has in Q, A1. rewrite A1 in Q. injection Q as ->. destruct GA as [G|G]; [exact (HN _ _ _ (A3 G) Ix)|].
    destruct (A4 G) as (ms & hs & HM & HH & (L & S)). apply In_nth_error in Ix. destruct Ix as (i & Ni).
    assert (Li : (i < List.length ms)%nat) by (rewrite <- L; apply nth_error_Some; congruence).
    destruct (nth_error ms i) as [m|] eqn:M; [|apply nth_error_None in M; lia].
    assert (Lh : List.length hs = List.length ms).
    { destruct HM as (em & Im & Fm), HH as (eh & Ih & Fh). rewrite (Forall2_len _ _ _ Fm), (Forall2_len _ _ _ Fh), (U _ _ Im), (U _ _ Ih). reflexivity. }
    destruct (nth_error hs i) as [h|] eqn:Hh; [|apply nth_error_None in Hh; lia].
    destruct (S i m h M Hh) as (y & Ny & P). rewrite Ni in Ny. injection Ny as <-.
    destruct (HN _ _ _ HM (nth_error_In _ _ M)) as (qm & ->). destruct (HN _ _ _ HH (nth_error_In _ _ Hh)) as (qh & ->).
    cbn in P. destruct (sos (Some qh)) eqn:E; [eauto|]. destruct (RS qh) as (_ & R). congruence. }
  destruct (O p IP N1 N2) as (O1 & O2). destruct (dget d p) as [e|] eqn:E.
  - destruct (O1 e (dget_In _ _ _ E)) as (ys & Y1 & Y2 & _). unfold has in Q, Y2. rewrite Y2 in Q. injection Q as ->. exact (HN _ _ _ Y1 Ix).
  - assert (Z : dget (f_aero st) p = Some (SRaw VNone)) by (apply O2; intros e Ie; apply (in_dget _ _ _ ND) in Ie; congruence).
    unfold has in Q. congruence.
Qed.
End Numbers.
