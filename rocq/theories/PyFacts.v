(** Lemmas about the vocabulary of [PyBase.v]. *)
From Coq Require Import List String ZArith QArith Qround Bool Lia Lqa.
From Verif Require Import PyBase.
Import ListNotations.

Lemma Qleb_true x y : Qleb x y = true <-> x <= y.
Proof. apply Qle_bool_iff. Qed.

Lemma Qleb_false x y : Qleb x y = false <-> y < x.
Proof.
  unfold Qleb. split; intro H.
  - apply Qnot_le_lt. intro C. apply Qle_bool_iff in C. congruence.
  - destruct (Qle_bool x y) eqn:E; [|reflexivity].
    apply Qle_bool_iff in E. exfalso. apply (Qlt_not_le _ _ H E).
Qed.

Lemma Qltb_true x y : Qltb x y = true <-> x < y.
Proof.
  unfold Qltb. rewrite negb_true_iff. apply Qleb_false.
Qed.

Lemma Qltb_false x y : Qltb x y = false <-> y <= x.
Proof.
  unfold Qltb. rewrite negb_false_iff. apply Qleb_true.
Qed.

Lemma Qeqb_true x y : Qeqb x y = true <-> x == y.
Proof. apply Qeq_bool_iff. Qed.

Lemma Qeqb_false x y : Qeqb x y = false <-> ~ x == y.
Proof.
  unfold Qeqb. split; intro H.
  - apply Qeq_bool_neq in H. exact H.
  - destruct (Qeq_bool x y) eqn:E; [|reflexivity]. apply Qeq_bool_iff in E. contradiction.
Qed.

(** Turn boolean comparisons of rationals into propositions. *)
Ltac qbool :=
  repeat match goal with
  | H : Qleb _ _ = true |- _ => apply Qleb_true in H
  | H : Qleb _ _ = false |- _ => apply Qleb_false in H
  | H : Qltb _ _ = true |- _ => apply Qltb_true in H
  | H : Qltb _ _ = false |- _ => apply Qltb_false in H
  | H : Qeqb _ _ = true |- _ => apply Qeqb_true in H
  | H : Qeqb _ _ = false |- _ => apply Qeqb_false in H
  | H : andb _ _ = true |- _ => apply andb_true_iff in H; destruct H
  | H : orb _ _ = false |- _ => apply orb_false_iff in H; destruct H
  | H : orb _ _ = true |- _ => apply orb_true_iff in H
  | H : andb _ _ = false |- _ => apply andb_false_iff in H
  end.

Lemma set_nth_length {A} (l : list A) i x : List.length (set_nth l i x) = List.length l.
Proof. revert i; induction l as [|y l IH]; intros [|i]; simpl; auto. Qed.

Lemma set_nth_map {A B} (f : A -> B) (l : list A) i x :
  map f (set_nth l i x) = set_nth (map f l) i (f x).
Proof. revert i; induction l as [|y l IH]; intros [|i]; simpl; auto. rewrite IH. reflexivity. Qed.

Lemma nth_error_set_nth_same {A} (l : list A) i x :
  (i < List.length l)%nat -> nth_error (set_nth l i x) i = Some x.
Proof.
  revert i; induction l as [|y l IH]; intros [|i] H; simpl in *; try lia; auto.
  apply IH. lia.
Qed.

Lemma nth_error_set_nth_other {A} (l : list A) i j x :
  i <> j -> nth_error (set_nth l i x) j = nth_error l j.
Proof.
  revert i j; induction l as [|y l IH]; intros [|i] [|j] H; simpl in *; try lia; auto.
Qed.

Lemma nth_error_set_nth {A} (l : list A) i j x :
  (i < List.length l)%nat ->
  nth_error (set_nth l i x) j = if Nat.eqb i j then Some x else nth_error l j.
Proof.
  intro H. destruct (Nat.eqb_spec i j) as [->|N].
  - apply nth_error_set_nth_same; exact H.
  - apply nth_error_set_nth_other; exact N.
Qed.

Lemma set_nth_same_id {A} (l : list A) i x :
  nth_error l i = Some x -> set_nth l i x = l.
Proof.
  revert i; induction l as [|y l IH]; intros [|i] H; simpl in *; try discriminate; auto.
  - congruence.
  - rewrite IH; auto.
Qed.

Lemma nth_error_lt {A} (l : list A) i x : nth_error l i = Some x -> (i < List.length l)%nat.
Proof. intro H. apply nth_error_Some. congruence. Qed.

Lemma In_set_nth {A} (l : list A) i x y : In y (set_nth l i x) -> y = x \/ In y l.
Proof.
  revert i; induction l as [|z l IH]; intros [|i] H; simpl in *; auto.
  - destruct H; auto.
  - destruct H as [H|H]; auto. destruct (IH _ H); auto.
Qed.

(** ** Dictionaries *)

Lemma dget_dset_same {V} (d : dict V) k v : dget (dset d k v) k = Some v.
Proof.
  induction d as [|[k' v'] d IH]; simpl.
  - rewrite String.eqb_refl. reflexivity.
  - destruct (String.eqb k k') eqn:E; simpl; rewrite E; auto.
Qed.

Lemma dget_dset_other {V} (d : dict V) k k2 v : k2 <> k -> dget (dset d k v) k2 = dget d k2.
Proof.
  intro N. induction d as [|[k' v'] d IH]; simpl.
  - apply String.eqb_neq in N. rewrite N. reflexivity.
  - destruct (String.eqb k k') eqn:E; simpl.
    + apply String.eqb_eq in E. subst k'. apply String.eqb_neq in N. rewrite N. reflexivity.
    + rewrite IH. reflexivity.
Qed.

Lemma dset_keys_mem {V} (d : dict V) k v :
  dget d k <> None -> dkeys (dset d k v) = dkeys d.
Proof.
  unfold dkeys. induction d as [|[k' v'] d IH]; simpl; intro H; [congruence|].
  destruct (String.eqb k k') eqn:E; simpl; [reflexivity|]. rewrite IH; auto.
Qed.

Lemma dset_fresh {V} (d : dict V) k v :
  dget d k = None -> dset d k v = d ++ [(k, v)].
Proof.
  induction d as [|[k' v'] d IH]; simpl; intro H; [reflexivity|].
  destruct (String.eqb k k') eqn:E; [discriminate|]. rewrite IH; auto.
Qed.

Lemma dget_In {V} (d : dict V) k v : dget d k = Some v -> In (k, v) d.
Proof.
  induction d as [|[k' v'] d IH]; simpl; intro H; [discriminate|].
  destruct (String.eqb k k') eqn:E.
  - apply String.eqb_eq in E. injection H as ->. left. congruence.
  - right. auto.
Qed.

Lemma dget_None {V} (d : dict V) k : dget d k = None <-> ~ In k (dkeys d).
Proof.
  unfold dkeys. induction d as [|[k' v'] d IH]; simpl.
  - tauto.
  - destruct (String.eqb k k') eqn:E.
    + apply String.eqb_eq in E. subst. split; [discriminate|]. intro H; exfalso; apply H; auto.
    + apply String.eqb_neq in E. rewrite IH. split; intros H; [intros [C|C]; [congruence|tauto]|tauto].
Qed.

Lemma dget_In_NoDup {V} (d : dict V) k v :
  NoDup (dkeys d) -> In (k, v) d -> dget d k = Some v.
Proof.
  unfold dkeys. induction d as [|[k' v'] d IH]; simpl; intros N H; [contradiction|].
  inversion N as [|? ? N1 N2]; subst. destruct H as [H|H].
  - injection H as -> ->. rewrite String.eqb_refl. reflexivity.
  - destruct (String.eqb k k') eqn:E.
    + apply String.eqb_eq in E. subst k'. exfalso. apply N1.
      apply in_map_iff. exists (k, v). auto.
    + apply IH; auto.
Qed.

Lemma dset_NoDup {V} (d : dict V) k v : NoDup (dkeys d) -> NoDup (dkeys (dset d k v)).
Proof.
  intro N. destruct (dget d k) eqn:E.
  - rewrite dset_keys_mem; [exact N|congruence].
  - rewrite dset_fresh by exact E. unfold dkeys. rewrite map_app. simpl.
    apply dget_None in E. apply NoDup_Add with (a := k) (l := map fst d).
    + rewrite <- (app_nil_r (map fst d)) at 1. apply Add_app.
    + split; [exact N|exact E].
Qed.

Lemma dupdate_nil {V} (d : dict V) : dupdate d [] = d.
Proof. reflexivity. Qed.

Lemma dget_dupdate {V} (u d : dict V) k :
  NoDup (dkeys u) ->
  dget (dupdate d u) k = match dget u k with Some v => Some v | None => dget d k end.
Proof.
  unfold dupdate. revert d. induction u as [|[k' v'] u IH]; intros d N; simpl; [reflexivity|].
  inversion N as [|? ? N1 N2]; subst.
  rewrite IH by exact N2.
  destruct (String.eqb k k') eqn:E.
  - apply String.eqb_eq in E. subst k'.
    assert (dget u k = None) as -> by (apply dget_None; exact N1).
    apply dget_dset_same.
  - apply String.eqb_neq in E. destruct (dget u k); [reflexivity|].
    apply dget_dset_other. exact E.
Qed.
