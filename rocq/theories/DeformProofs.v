(** Proofs for deformation files (C46). *)
From Coq Require Import List String Ascii Arith Bool Lia.
From Verif Require Import PyBase PyFacts StrFacts DeformModel DeformSpec.
Import ListNotations.
Open Scope string_scope.

Lemma starts_iff k : starts_underscore k = true <-> private k.
Proof.
  unfold private. destruct k as [|c r]; cbn [starts_underscore]; split.
  - discriminate.
  - intros [r H]. discriminate.
  - intro H. apply Ascii.eqb_eq in H as ->. exists r. reflexivity.
  - intros [r' H]. injection H as -> _. reflexivity.
Qed.

Lemma ends_iff k : ends_m k = true <-> exists u, k = u ++ "_m".
Proof.
  induction k as [|c r IH]; cbn [ends_m]; split.
  - discriminate.
  - intros [[|c u] H]; discriminate.
  - intro H. apply orb_true_iff in H as [H|H].
    + apply String.eqb_eq in H. exists "". exact H.
    + apply IH in H as [u ->]. exists (String c u). reflexivity.
  - intros [[|c' u] H]; apply orb_true_iff.
    + left. apply String.eqb_eq. exact H.
    + right. injection H as -> ->. apply IH. eauto.
Qed.

Lemma remove_cons c r : (forall r', String c r <> "_m" ++ r') -> r <> "" -> remove_m (String c r) = String c (remove_m r).
Proof.
  intros N E. destruct r as [|c2 r2]; [congruence|]. cbn [remove_m]. destruct (Ascii.eqb c "_") eqn:E1; [|reflexivity].
  destruct (Ascii.eqb c2 "m") eqn:E2; [|reflexivity]. apply Ascii.eqb_eq in E1, E2. subst. destruct (N r2). reflexivity.
Qed.
Lemma remove_mirror u : (~ exists a b, u = a ++ "_m" ++ b) -> remove_m (u ++ "_m") = u.
Proof.
  induction u as [|c u IH]; intro N; [reflexivity|]. change (String c u ++ "_m") with (String c (u ++ "_m")). rewrite remove_cons.
  - f_equal. apply IH. intros (a & b & ->). apply N. exists (String c a), b. reflexivity.
  - intros r' H. destruct u as [|c2 u].
    + cbn in H. injection H as _ H. discriminate.
    + cbn in H. injection H as -> -> _. apply N. exists "", u. reflexivity.
  - destruct u; discriminate.
Qed.

Lemma plain_mirror u : plain u -> ~ private (u ++ "_m").
Proof. intros (NE & NP & _) [r H]. destruct u as [|c u]; [congruence|]. cbn in H. injection H as -> _. apply NP. exists u. reflexivity. Qed.
Lemma plain_ends u : plain u -> ends_m u = false.
Proof. intros (_ & _ & N). destruct (ends_m u) eqn:E; [|reflexivity]. apply ends_iff in E as [a ->]. destruct N. exists a, "". reflexivity. Qed.

Fixpoint no_m (s : string) : bool := match s with EmptyString => true | String c r => negb (String.prefix "_m" s) && no_m r end.
Lemma plain_ex (u : string) : u <> "" -> starts_underscore u = false -> no_m u = true -> plain u.
Proof.
  intros NE S G. split; [exact NE|]. split; [intro P; apply starts_iff in P; congruence|]. intros (a & b & ->). revert G. clear.
  induction a as [|c a IH]; intro G.
  - destruct b; discriminate.
  - change (String c a ++ "_m" ++ b) with (String c (a ++ "_m" ++ b)) in G. cbn [no_m] in G. apply andb_true_iff in G as [_ G]. exact (IH G).
Qed.

Section Deform.
Variable F : Type.
Notation wings_t := (dict (wing_def F)).

Lemma mirror_inj (u v : string) : u ++ "_m" = v ++ "_m" -> u = v.
Proof.
  revert v. induction u as [|c u IH]; intros [|c' v] H; [reflexivity| | |].
  - cbn in H. injection H as _ H. destruct v as [|c2 v]; cbn in H; [discriminate|]. injection H as _ H. destruct v; discriminate.
  - cbn in H. injection H as _ H. destruct u as [|c2 u]; cbn in H; [discriminate|]. injection H as _ H. destruct u; discriminate.
  - cbn in H. injection H as -> H. f_equal. apply IH. exact H.
Qed.

(** A key addresses at most one side of one plain wing. *)
Lemma addresses_unique k u v m n : plain u -> plain v -> addresses k u m -> addresses k v n -> u = v /\ m = n.
Proof.
  unfold addresses. intros U V. assert (X := plain_ends u U). assert (Y := plain_ends v V).
  destruct m, n; intros -> H; auto.
  - split; [exact (mirror_inj _ _ H)|reflexivity].
  - exfalso. rewrite <- H in Y. assert (Z : ends_m (u ++ "_m") = true) by (apply ends_iff; eauto). congruence.
  - exfalso. rewrite H in X. assert (Z : ends_m (v ++ "_m") = true) by (apply ends_iff; eauto). congruence.
Qed.

Lemma step (wings : wings_t) k f fields : ~ private k -> forall u m, plain u -> addresses k u m ->
  load_fields F wings ((k, f) :: fields) =
  match dget wings u with
  | Some w => load_fields F (dset wings u (if m then mkWD (def_field w) (Some f) else mkWD (Some f) (def_field_mirror w))) fields
  | None => (wings, Err KeyError)
  end.
Proof.
  intros NP u m P A. cbn [load_fields]. destruct (starts_underscore k) eqn:S; [apply starts_iff in S; contradiction|].
  unfold addresses in A. destruct m; subst k.
  - assert (E : ends_m (u ++ "_m") = true) by (apply ends_iff; eauto). rewrite E, remove_mirror by apply P. unfold assign. destruct (dget wings u); reflexivity.
  - rewrite (plain_ends u P). unfold assign. destruct (dget wings u); reflexivity.
Qed.

Theorem fields_spec (fields : dict F) : NoDup (dkeys fields) ->
  (forall k, In k (dkeys fields) -> private k \/ exists u m, plain u /\ addresses k u m) ->
  forall (wings wings' : wings_t) r, (forall u, In u (dkeys wings) -> plain u) -> load_fields F wings fields = (wings', r) ->
  dkeys wings' = dkeys wings /\
  (r = Ok tt <-> forall k, In k (dkeys fields) -> private k \/ exists u m, In u (dkeys wings) /\ addresses k u m) /\
  (r = Ok tt \/ r = Err KeyError) /\
  (forall u w m, dget wings u = Some w -> exists w', dget wings' u = Some w' /\
     (r = Ok tt -> forall f, (exists k, addresses k u m /\ In (k, f) fields) -> side w' m = Some f) /\
     (side w' m = side w m \/ exists k f, addresses k u m /\ In (k, f) fields /\ side w' m = Some f) /\
     ((forall k f, addresses k u m -> ~ In (k, f) fields) -> side w' m = side w m)).
Proof.
  induction fields as [|[k f] fields IH]; intros N KP wings wings' r WP H.
  - cbn in H. injection H as <- <-. split; [reflexivity|]. split; [split; [intros _ k []|reflexivity]|]. split; [auto|].
    intros u w m G. exists w. split; [exact G|]. split; [intros _ f (k & _ & [])|]. auto.
  - cbn [dkeys map fst] in N. apply NoDup_cons_iff in N as [N1 N2].
    assert (KP2 : forall k, In k (dkeys fields) -> private k \/ exists u m, plain u /\ addresses k u m) by (intros; apply KP; right; assumption).
    specialize (IH N2 KP2).
    destruct (KP k (or_introl eq_refl)) as [Pr|(u0 & m0 & P0 & A0)].
    + cbn [load_fields] in H. rewrite (proj2 (starts_iff k) Pr) in H. destruct (IH _ _ _ WP H) as (K & I1 & I2 & I3).
      split; [exact K|]. split; [|split; [exact I2|]].
      * rewrite I1. split; [intros X k' [<-|I]; [left; exact Pr|exact (X k' I)]|intros X k' I; apply X; right; exact I].
      * intros u w m G. destruct (I3 u w m G) as (w' & G' & V1 & V2 & V3). exists w'. split; [exact G'|].
        assert (PU : plain u) by (apply WP; apply dget_In in G; apply in_map_iff; eexists; split; [|exact G]; reflexivity).
        assert (NA : ~ addresses k u m).
        { unfold addresses. intros ->. destruct m; [exact (plain_mirror u PU Pr)|]. destruct PU as (_ & Z & _). exact (Z Pr). }
        split; [|split].
        -- intros R f' (k' & A & [I|I]); [injection I as <- <-; contradiction|]. apply V1; eauto.
        -- destruct V2 as [V2|(k' & f' & A & I & V2)]; [left; exact V2|right; exists k', f'; split; [exact A|split; [right; exact I|exact V2]]].
        -- intros X. apply V3. intros k' f' A I. apply (X k' f' A). right. exact I.
    + destruct (starts_underscore k) eqn:S.
      { exfalso. apply starts_iff in S. unfold addresses in A0. destruct m0; subst k; [exact (plain_mirror u0 P0 S)|]. destruct P0 as (_ & Z & _). exact (Z S). }
      assert (NP : ~ private k) by (intro Z; apply starts_iff in Z; congruence).
      rewrite (step wings k f fields NP u0 m0 P0 A0) in H. destruct (dget wings u0) as [w0|] eqn:G0.
      * set (w1 := if m0 then mkWD (def_field w0) (Some f) else mkWD (Some f) (def_field_mirror w0)) in *.
        assert (K1 : dkeys (dset wings u0 w1) = dkeys wings) by (apply dset_keys_mem; rewrite G0; discriminate).
        assert (I0 : In u0 (dkeys wings)) by (apply dget_In in G0; apply in_map_iff; eexists; split; [|exact G0]; reflexivity).
        destruct (IH (dset wings u0 w1) wings' r) as (K & I1 & I2 & I3); [rewrite K1; exact WP|exact H|]. rewrite K1 in *.
        split; [exact K|]. split; [|split; [exact I2|]].
        -- rewrite I1. split; [intros X k' [<-|I]; [right; exists u0, m0; auto|exact (X k' I)]|intros X k' I; apply X; right; exact I].
        -- intros u w m G. assert (PU : plain u) by (apply WP; apply dget_In in G; apply in_map_iff; eexists; split; [|exact G]; reflexivity).
           destruct (String.eqb_spec u u0) as [->|NU].
           ++ assert (w = w0) by congruence. subst w.
              destruct (I3 u0 w1 m) as (w' & G' & V1 & V2 & V3); [apply dget_dset_same|]. exists w'. split; [exact G'|].
              destruct (Bool.bool_dec m m0) as [->|NM].
              ** assert (Z1 : side w1 m0 = Some f) by (unfold w1, side; destruct m0; reflexivity).
                 assert (Nex : forall k' f', addresses k' u0 m0 -> ~ In (k', f') fields).
                 { intros k' f' A I. unfold addresses in A, A0. rewrite <- A0 in A. subst k'. apply N1. apply in_map_iff. exists (k, f'). auto. }
                 split; [|split].
                 --- intros R f' (k' & A & [I|I]); [injection I as <- <-; rewrite (V3 Nex); exact Z1|destruct (Nex k' f' A I)].
                 --- right. exists k, f. split; [exact A0|]. split; [left; reflexivity|]. rewrite (V3 Nex). exact Z1.
                 --- intros X. destruct (X k f A0). left. reflexivity.
              ** assert (Z1 : side w1 m = side w0 m) by (unfold w1, side; destruct m0, m; congruence || reflexivity).
                 assert (NA : ~ addresses k u0 m) by (intro A; destruct (addresses_unique k u0 u0 m m0 PU PU A A0); congruence).
                 split; [|split].
                 --- intros R f' (k' & A & [I|I]); [injection I as <- <-; contradiction|]. apply V1; eauto.
                 --- destruct V2 as [V2|(k' & f' & A & I & V2)]; [left; congruence|right; exists k', f'; split; [exact A|split; [right; exact I|exact V2]]].
                 --- intros X. rewrite <- Z1. apply V3. intros k' f' A I. apply (X k' f' A). right. exact I.
           ++ destruct (I3 u w m) as (w' & G' & V1 & V2 & V3); [rewrite dget_dset_other; auto|]. exists w'. split; [exact G'|].
              assert (NA : ~ addresses k u m) by (intro A; destruct (addresses_unique k u u0 m m0 PU P0 A A0); congruence).
              split; [|split].
              ** intros R f' (k' & A & [I|I]); [injection I as <- <-; contradiction|]. apply V1; eauto.
              ** destruct V2 as [V2|(k' & f' & A & I & V2)]; [left; exact V2|right; exists k', f'; split; [exact A|split; [right; exact I|exact V2]]].
              ** intros X. apply V3. intros k' f' A I. apply (X k' f' A). right. exact I.
      * injection H as <- <-. split; [reflexivity|]. split; [|split; [auto|]].
        -- split; [discriminate|]. intro X. exfalso. destruct (X k (or_introl eq_refl)) as [Z|(u & m & I & A)]; [contradiction|].
           destruct (addresses_unique k u u0 m m0 (WP u I) P0 A A0) as [-> _]. apply dget_None in G0. contradiction.
        -- intros u w m G. exists w. split; [exact G|]. split; [discriminate|]. auto.
Qed.

Theorem load_spec (fields : dict F) : NoDup (dkeys fields) ->
  (forall k, In k (dkeys fields) -> private k \/ exists u m, plain u /\ addresses k u m) ->
  forall size (wings wings' : wings_t) r, (10 <= size)%nat -> (forall u, In u (dkeys wings) -> plain u) -> load F (Some (size, fields)) wings = (wings', r) ->
  dkeys wings' = dkeys wings /\
  (r = Ok tt <-> forall k, In k (dkeys fields) -> private k \/ exists u m, In u (dkeys wings) /\ addresses k u m) /\
  (r = Ok tt \/ r = Err KeyError) /\
  (forall u w m, dget wings u = Some w -> exists w', dget wings' u = Some w' /\
     (r = Ok tt -> forall f, (exists k, addresses k u m /\ In (k, f) fields) -> side w' m = Some f) /\
     (side w' m = side w m \/ exists k f, addresses k u m /\ In (k, f) fields /\ side w' m = Some f) /\
     ((forall k f, addresses k u m -> ~ In (k, f) fields) -> side w' m = side w m)).
Proof.
  intros N K size wings wings' r L W H. cbn [load] in H. destruct (Nat.ltb_spec size 10); [lia|]. exact (fields_spec fields N K wings wings' r W H).
Qed.
Theorem no_file wings : DeformModel.load F None wings = (wings, Err IOError) /\
  forall size fields, (size < 10)%nat -> DeformModel.load F (Some (size, fields)) wings = (wings, Ok tt).
Proof. split; [reflexivity|]. intros size fields L. unfold load. apply Nat.ltb_lt in L. rewrite L. reflexivity. Qed.

End Deform.
