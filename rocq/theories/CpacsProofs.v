(** Proofs about the results in a CPACS file. *)
From Coq Require Import List String Ascii QArith Bool Lia Permutation.
From Verif Require Import PyBase PyFacts StrFacts AircraftIOModel CpacsModel CpacsSpec.
Import ListNotations.
Open Scope string_scope.

Lemma field_iff k n : field_of k n <-> In (k, n) cpacs_mappings.
Proof.
  split; [intros []; cbn; tauto|]. cbn. intros H. repeat (destruct H as [H|H]; [injection H as <- <-; constructor|]). contradiction.
Qed.
Lemma field_plain k n : field_of k n -> has_slash k = false /\ k <> "" /\ k <> "aeroMapUID".
Proof. intros []; repeat split; try reflexivity; discriminate. Qed.
Lemma keys_nodup : NoDup (map fst cpacs_mappings).
Proof. cbn. repeat (apply NoDup_cons; [cbn; intro H; repeat (destruct H as [H|H]; [discriminate H|]); contradiction|]). apply NoDup_nil. Qed.

Lemma ends_slash_app a b : b <> "" -> ends_slash (a ++ b) = ends_slash b.
Proof.
  intro N. induction a as [|c a IH]; [reflexivity|]. cbn [append ends_slash]. rewrite <- IH. destruct (a ++ b) eqn:E; [|reflexivity].
  destruct a; cbn in E; [contradiction|discriminate].
Qed.
Lemma ends_slash_plain s : has_slash s = false -> ends_slash s = false.
Proof.
  induction s as [|c s IH]; [reflexivity|]. cbn. intro H. apply orb_false_iff in H as [A B]. destruct s as [|x s]; [exact A|]. apply IH, B.
Qed.
Lemma substring_app a b : substring 0 (String.length a) (a ++ b) = a.
Proof. induction a as [|c a IH]; [destruct b; reflexivity|]. cbn [String.length append substring]. rewrite IH. reflexivity. Qed.
Lemma drop_child p k : drop_last (String.length k + 1) (p ++ "/" ++ k) = p.
Proof.
  unfold drop_last. rewrite !length_app_s. cbn [String.length]. replace (_ - _)%nat with (String.length p) by lia. apply substring_app.
Qed.

Section S.
Variable fmt : Q -> string.

Lemma add_field d p k n v : field_of k n -> x_text d p <> None -> add_vector fmt d (p ++ "/" ++ k) v = (set_text d (p ++ "/" ++ k) (map fmt v), Ok tt).
Proof.
  intros F P. destruct (field_plain k n F) as (S & N & _). unfold add_vector.
  rewrite ends_slash_app by discriminate. change ("/" ++ k) with (String "/" k). cbn [ends_slash]. destruct k as [|c k]; [contradiction|].
  rewrite (ends_slash_plain _ S). change (String "/" (String c k)) with ("/" ++ String c k). rewrite basename_app by exact S.
  rewrite drop_child. unfold update_vector, add_vector_at. destruct (check_element d _) eqn:C; [reflexivity|].
  unfold check_element. destruct (x_text d p); [reflexivity|contradiction].
Qed.

Lemma apm_iff d p : APM d = Ok p <-> map_at d p.
Proof.
  unfold APM, get_uid_apm, map_at, get_text. change (APMAP ++ "/aeroMap") with "/cpacs/vehicles/aircraft/model/analyses/aeroPerformance/aeroMap".
  change (TOOLSPEC ++ "/aeroMapUID") with "/cpacs/toolspecific/pytornado/aeroMapUID". change APMAP with "/cpacs/vehicles/aircraft/model/analyses/aeroPerformance".
  destruct (Nat.eqb_spec (x_children d "/cpacs/vehicles/aircraft/model/analyses/aeroPerformance") 1) as [E|E].
  - split.
    + destruct (x_uid d _) as [u|] eqn:U; [|discriminate]. cbn [of_option bind]. destruct (x_where d u) as [a|] eqn:W; [|discriminate]. cbn [of_option bind].
      intros [= <-]. exists u, a. auto.
    + intros (u & a & -> & W & [[_ U]|[N _]]); [|contradiction]. rewrite U. cbn [of_option bind]. rewrite W. reflexivity.
  - split.
    + destruct (x_text d _) as [l|] eqn:U; [|discriminate]. cbn [of_option bind]. destruct (x_where d _) as [a|] eqn:W; [|discriminate]. cbn [of_option bind].
      intros [= <-]. exists (String.concat " " l), a. split; [reflexivity|]. split; [exact W|]. right. split; [exact E|]. exists l. auto.
    + intros (u & a & -> & W & [[N _]|(_ & l & U & ->)]); [contradiction|]. rewrite U. cbn [of_option bind]. rewrite W. reflexivity.
Qed.

Lemma app_last a b c d : has_slash b = false -> has_slash d = false -> a ++ "/" ++ b = c ++ "/" ++ d -> b = d /\ a = c.
Proof.
  intros B D E. assert (K : b = d) by (rewrite <- (basename_app a b B), <- (basename_app c d D), E; reflexivity). split; [exact K|]. subst d.
  rewrite <- (drop_child a b), <- (drop_child c b), E. reflexivity.
Qed.
Lemma field_inj p k n k' n' : field_of k n -> field_of k' n' -> p ++ "/" ++ k = p ++ "/" ++ k' -> k = k'.
Proof. intros F F' E. exact (proj1 (app_last _ _ _ _ (proj1 (field_plain _ _ F)) (proj1 (field_plain _ _ F')) E)). Qed.
Lemma not_uid p k n : field_of k n -> p ++ "/" ++ k <> "/cpacs/toolspecific/pytornado/aeroMapUID".
Proof.
  intros F E. change "/cpacs/toolspecific/pytornado/aeroMapUID" with ("/cpacs/toolspecific/pytornado" ++ "/" ++ "aeroMapUID") in E.
  destruct (field_plain k n F) as (S & _ & N). destruct (app_last _ _ _ "aeroMapUID" S eq_refl E). contradiction.
Qed.
Lemma apm_set d p k n v : field_of k n -> APM d = Ok p -> APM (set_text d (p ++ "/" ++ k) v) = Ok p.
Proof.
  intros F A. apply apm_iff in A. apply apm_iff. destruct A as (u & a & E & W & H). exists u, a. split; [exact E|]. split; [exact W|].
  destruct H as [H|(N & l & H & U)]; [left; exact H|right]. split; [exact N|]. exists l. split; [|exact U]. cbn [set_text x_text].
  destruct (String.eqb_spec "/cpacs/toolspecific/pytornado/aeroMapUID" (p ++ "/" ++ k)) as [Q|_]; [|exact H]. destruct (not_uid p k n F (eq_sym Q)).
Qed.

Lemma loop_ok results p : forall l d, (forall k n, In (k, n) l -> field_of k n) -> (forall k n, In (k, n) l -> exists v, dget results n = Some v) ->
  NoDup (map fst l) -> APM d = Ok p -> x_text d p <> None ->
  exists d', save_loop fmt l d results = (d', Ok tt) /\
  (forall k n v, In (k, n) l -> dget results n = Some v -> x_text d' (p ++ "/" ++ k) = Some (map fmt v)) /\
  (forall q, (forall k n, In (k, n) l -> q <> p ++ "/" ++ k) -> x_text d' q = x_text d q) /\
  x_children d' = x_children d /\ x_uid d' = x_uid d /\ x_where d' = x_where d.
Proof.
  induction l as [|[k n] l IH]; intros d F R N A P; cbn [save_loop].
  - exists d. split; [reflexivity|]. split; [intros ? ? ? []|auto].
  - rewrite A. destruct (R k n (or_introl eq_refl)) as [v V]. rewrite V. assert (Fk := F k n (or_introl eq_refl)).
    rewrite (add_field d p k n v Fk P). cbn [map fst] in N. inversion N as [|? ? N1 N2]; subst.
    destruct (IH (set_text d (p ++ "/" ++ k) (map fmt v))) as (d' & E & X & Y & Z).
    + intros; apply F; right; assumption.
    + intros k0 n0 I; apply (R k0 n0); right; exact I.
    + exact N2.
    + exact (apm_set d p k n _ Fk A).
    + cbn [set_text x_text]. destruct (String.eqb p (p ++ "/" ++ k)); [discriminate|exact P].
    + exists d'. split; [exact E|]. split; [|split; [|exact Z]].
      * intros k' n' v' [[= <- <-]|I] V'; [|exact (X k' n' v' I V')]. rewrite Y.
        -- cbn [set_text x_text]. rewrite String.eqb_refl. congruence.
        -- intros k' n' I Q. apply (field_inj p k n k' n' Fk (F k' n' (or_intror I))) in Q. subst k'. apply N1. apply in_map_iff. exists (k, n'). auto.
      * intros q Q. rewrite Y by (intros; apply (Q _ n0); right; assumption). cbn [set_text x_text].
        destruct (String.eqb_spec q (p ++ "/" ++ k)) as [E'|_]; [|reflexivity]. destruct (Q k n (or_introl eq_refl) E').
Qed.

Theorem saved l d results p : Permutation l cpacs_mappings -> (forall k n, field_of k n -> exists v, dget results n = Some v) -> map_at d p -> x_text d p <> None ->
  exists d', save_loop fmt l d results = (d', Ok tt) /\ holds fmt results d d' p.
Proof.
  intros PM R A P. destruct (loop_ok results p l d) as (d' & E & X & Y & Z).
  - intros k n I. apply field_iff. apply (Permutation_in _ PM I).
  - intros k n I. apply (R k n). apply field_iff. apply (Permutation_in _ PM I).
  - apply (Permutation_NoDup (l := map fst cpacs_mappings)); [|exact keys_nodup]. apply Permutation_map, Permutation_sym, PM.
  - apply apm_iff, A.
  - exact P.
  - exists d'. split; [exact E|]. split; [|split; [|exact Z]].
    + intros k n v F. apply X. apply (Permutation_in _ (Permutation_sym PM)). apply field_iff, F.
    + intros q Q. apply Y. intros k n I E'. apply Q. exists k, n. split; [|exact E']. apply field_iff. apply (Permutation_in _ PM I).
Qed.
Theorem no_map l d results : Permutation l cpacs_mappings -> (forall p, ~ map_at d p) -> save_loop fmt l d results = (d, Err LibError).
Proof.
  intros PM N. destruct l as [|[k n] l]; [apply Permutation_nil in PM; discriminate|]. cbn [save_loop]. destruct (APM d) as [p|e] eqn:A.
  - apply apm_iff in A. destruct (N p A).
  - do 2 f_equal. unfold APM, get_uid_apm, get_text, of_option in A. destruct (Nat.eqb (x_children d APMAP) 1).
    + destruct (x_uid d (APMAP ++ "/aeroMap")) as [u|]; cbn [bind] in A; [destruct (x_where d u); cbn [bind] in A|]; congruence.
    + destruct (x_text d (TOOLSPEC ++ "/aeroMapUID")) as [u|]; cbn [bind] in A; [destruct (x_where d (String.concat " " u)); cbn [bind] in A|]; congruence.
Qed.
Theorem empty_map l d results p : Permutation l cpacs_mappings -> map_at d p -> x_text d p = None -> (forall q, field_path p q -> x_text d q = None) ->
  exists e, save_loop fmt l d results = (d, Err e) /\ (e = LibError \/ e = KeyError /\ exists k n, field_of k n /\ dget results n = None).
Proof.
  intros PM A P N. destruct l as [|[k n] l]; [apply Permutation_nil in PM; discriminate|]. cbn [save_loop]. apply apm_iff in A. rewrite A.
  assert (F : field_of k n) by (apply field_iff, (Permutation_in _ PM); left; reflexivity).
  destruct (dget results n) as [v|] eqn:G; [|exists KeyError; split; [reflexivity|right; split; [reflexivity|eauto]]].
  destruct (field_plain k n F) as (S & K & _). unfold add_vector.
  rewrite ends_slash_app by discriminate. change ("/" ++ k) with (String "/" k). cbn [ends_slash]. destruct k as [|c k]; [contradiction|].
  rewrite (ends_slash_plain _ S). change (String "/" (String c k)) with ("/" ++ String c k). rewrite basename_app by exact S.
  rewrite drop_child. unfold add_vector_at, check_element. rewrite (N (p ++ "/" ++ String c k)) by (exists (String c k), n; auto). rewrite P. eauto 6.
Qed.
End S.
