(** Matrices with non-positive entries beside the diagonal and positive sums of the rows. *)
From Coq Require Import Reals List Arith Lia Lra Psatz.
From Verif Require Import Vec VlmModel RowSpec.
From Verif Require AnalysisSpec.
Import ListNotations.
Open Scope R_scope.

Definition sum (n : nat) (f : nat -> R) : R := rsum (map f (seq 0 n)).
Lemma sum_0 f : sum 0 f = 0.
Proof. reflexivity. Qed.
Lemma rsum_app l k : rsum (l ++ k) = rsum l + rsum k.
Proof. unfold rsum. induction l as [|x l IH]; cbn [app fold_right]; [ring|]. rewrite IH. ring. Qed.
Lemma sum_S n f : sum (S n) f = sum n f + f n.
Proof. unfold sum. rewrite seq_S, map_app, rsum_app. cbn. ring. Qed.
Lemma sum_ext n f g : (forall i, (i < n)%nat -> f i = g i) -> sum n f = sum n g.
Proof. induction n as [|n IH]; intro H; [reflexivity|]. rewrite !sum_S, IH by (intros; apply H; lia). rewrite H by lia. reflexivity. Qed.
Lemma sum_add n f g : sum n (fun i => f i + g i) = sum n f + sum n g.
Proof. induction n as [|n IH]; [rewrite !sum_0; ring|]. rewrite !sum_S, IH. ring. Qed.
Lemma sum_scale n k f : sum n (fun i => k * f i) = k * sum n f.
Proof. induction n as [|n IH]; [rewrite !sum_0; ring|]. rewrite !sum_S, IH. ring. Qed.
Lemma sum_le n f g : (forall i, (i < n)%nat -> f i <= g i) -> sum n f <= sum n g.
Proof. induction n as [|n IH]; intro H; [rewrite !sum_0; lra|]. rewrite !sum_S. pose proof (IH ltac:(intros; apply H; lia)). pose proof (H n ltac:(lia)). lra. Qed.
Lemma sum_zero n : sum n (fun _ => 0) = 0.
Proof. induction n as [|n IH]; [reflexivity|]. rewrite sum_S, IH. ring. Qed.
Lemma sum_nonneg_zero n f : (forall i, (i < n)%nat -> 0 <= f i) -> sum n f <= 0 -> forall i, (i < n)%nat -> f i = 0.
Proof.
  induction n as [|n IH]; intros H S i I; [lia|]. rewrite sum_S in S.
  assert (0 <= sum n f) by (rewrite <- (sum_zero n); apply sum_le; intros; apply H; lia). pose proof (H n ltac:(lia)).
  destruct (Nat.eq_dec i n) as [->|N]; [lra|]. apply IH; [intros; apply H; lia|lra|lia].
Qed.

(** Non-positive beside the diagonal, positive row sums. *)
Definition mm (n : nat) (A : nat -> nat -> R) : Prop :=
  (forall i j, (i < n)%nat -> (j < n)%nat -> i <> j -> A i j <= 0) /\ (forall i, (i < n)%nat -> 0 < sum n (A i)).

Lemma sum_shift n A (g : nat -> R) k : sum n (fun j => A j * g j) = sum n (fun j => A j * (g j - k)) + k * sum n A.
Proof. rewrite <- sum_scale, <- sum_add. apply sum_ext. intros. ring. Qed.
Lemma least n (g : nat -> R) : (0 < n)%nat -> exists i, (i < n)%nat /\ forall j, (j < n)%nat -> g i <= g j.
Proof.
  induction n as [|n IH]; [lia|]. intros _. destruct (Nat.eq_dec n 0) as [->|N].
  - exists 0%nat. split; [lia|]. intros j J. replace j with 0%nat by lia. lra.
  - destruct (IH ltac:(lia)) as (i & I & M). destruct (Rle_dec (g i) (g n)) as [L|L].
    + exists i. split; [lia|]. intros j J. destruct (Nat.eq_dec j n) as [->|Q]; [exact L|]. apply M. lia.
    + exists n. split; [lia|]. intros j J. destruct (Nat.eq_dec j n) as [->|Q]; [lra|]. pose proof (M j ltac:(lia)). lra.
Qed.
Lemma row_at_least n A g i : mm n A -> (i < n)%nat -> (forall j, (j < n)%nat -> g i <= g j) -> sum n (fun j => A i j * g j) <= g i * sum n (A i).
Proof.
  intros [O _] I M. rewrite (sum_shift n (A i) g (g i)).
  assert (sum n (fun j => A i j * (g j - g i)) <= 0); [|lra].
  rewrite <- (sum_zero n). apply sum_le. intros j J. destruct (Nat.eq_dec i j) as [<-|N]; [lra|]. pose proof (O i j I J N). pose proof (M j J). nra.
Qed.
Lemma mm_nonneg n A g : mm n A -> (forall i, (i < n)%nat -> 0 <= sum n (fun j => A i j * g j)) -> forall i, (i < n)%nat -> 0 <= g i.
Proof.
  intros M H i I. destruct (least n g) as (k & K & L); [lia|]. pose proof (row_at_least n A g k M K L) as R. pose proof (H k K). pose proof (proj2 M k K). pose proof (L i I).
  assert (0 <= g k) by nra. lra.
Qed.
Lemma sum_opp n f : sum n (fun j => - f j) = - sum n f.
Proof. rewrite <- (sum_ext n (fun j => -1 * f j)) by (intros; ring). rewrite sum_scale. ring. Qed.
Lemma mm_zero n A g : mm n A -> (forall i, (i < n)%nat -> sum n (fun j => A i j * g j) = 0) -> forall i, (i < n)%nat -> g i = 0.
Proof.
  intros M H i I. assert (0 <= g i) by (apply (mm_nonneg n A g M); [intros; rewrite H by assumption; lra|exact I]).
  assert (0 <= - g i); [|lra]. apply (mm_nonneg n A (fun j => - g j) M); [|exact I].
  intros k K. rewrite (sum_ext n _ (fun j => - (A k j * g j))) by (intros; ring). rewrite sum_opp, H by exact K. lra.
Qed.
(** With all entries beside the diagonal negative. *)
Lemma mm_pos n A g k : mm n A -> (forall i j, (i < n)%nat -> (j < n)%nat -> i <> j -> A i j < 0) ->
  (forall i, (i < n)%nat -> 0 <= sum n (fun j => A i j * g j)) -> (k < n)%nat -> 0 < sum n (fun j => A k j * g j) -> forall i, (i < n)%nat -> 0 < g i.
Proof.
  intros M O H K P i I. pose proof (mm_nonneg n A g M H) as N. destruct (Rle_lt_or_eq_dec _ _ (N i I)) as [L|E]; [exact L|]. exfalso.
  assert (Z : forall j, (j < n)%nat -> - (A i j * g j) = 0).
  { apply sum_nonneg_zero.
    - intros j J. destruct (Nat.eq_dec i j) as [<-|Q]; [rewrite <- E; lra|]. pose proof (O i j I J Q). pose proof (N j J). nra.
    - rewrite sum_opp. pose proof (H i I). lra. }
  assert (G : forall j, (j < n)%nat -> g j = 0).
  { intros j J. destruct (Nat.eq_dec i j) as [<-|Q]; [auto|]. pose proof (O i j I J Q). pose proof (Z j J) as Y.
    assert (Y' : A i j * g j = 0) by lra. apply Rmult_integral in Y'. lra. }
  rewrite (sum_ext n _ (fun _ => 0)), sum_zero in P by (intros j J; rewrite (G j J); ring). lra.
Qed.

(** Elimination of the last unknown. *)
Lemma mm_diag n A i : mm n A -> (i < n)%nat -> 0 < A i i.
Proof.
  intros [O S] I. pose proof (S i I) as P. destruct (Rlt_dec 0 (A i i)) as [L|L]; [exact L|]. exfalso.
  assert (sum n (A i) <= 0); [|lra]. rewrite <- (sum_zero n). apply sum_le. intros j J. destruct (Nat.eq_dec i j) as [<-|N]; [lra|]. apply O; assumption.
Qed.
Lemma mm_solve n : forall A b, mm n A -> exists g : nat -> R, forall i, (i < n)%nat -> sum n (fun j => A i j * g j) = b i.
Proof.
  induction n as [|n IH]; intros A b M; [exists b; intros; lia|].
  pose proof (mm_diag (S n) A n M ltac:(lia)) as D. set (d := A n n) in *.
  destruct (IH (fun i j => A i j - A i n * A n j / d) (fun i => b i - A i n * b n / d)) as (g & G).
  - destruct M as [O S]. split.
    + intros i j I J N. pose proof (O i j ltac:(lia) ltac:(lia) N). pose proof (O i n ltac:(lia) ltac:(lia) ltac:(lia)). pose proof (O n j ltac:(lia) ltac:(lia) ltac:(lia)).
      assert (0 <= A i n * A n j / d); [|lra]. apply Rmult_le_pos; [nra|]. left. apply Rinv_0_lt_compat. exact D.
    + intros i I. pose proof (S i ltac:(lia)) as P. pose proof (S n ltac:(lia)) as P'. rewrite sum_S in P, P'. pose proof (O i n ltac:(lia) ltac:(lia) ltac:(lia)) as Oi. fold d in P'.
      rewrite (sum_ext n _ (fun j => A i j + (- A i n / d) * A n j)) by (intros; field; lra). rewrite sum_add, sum_scale.
      set (s := sum n (A n)) in *. set (t := sum n (A i)) in *.
      assert (E : t + - A i n / d * s = (t + A i n) + (- A i n / d) * (s + d)) by (field; lra). rewrite E.
      assert (0 <= - A i n / d) by (apply Rmult_le_pos; [lra|left; apply Rinv_0_lt_compat; exact D]). nra.
  - exists (fun i => if Nat.eq_dec i n then (b n - sum n (fun j => A n j * g j)) / d else g i).
    assert (E : forall i, sum n (fun j => A i j * (if Nat.eq_dec j n then (b n - sum n (fun j => A n j * g j)) / d else g j)) = sum n (fun j => A i j * g j)).
    { intros i. apply sum_ext. intros j J. destruct (Nat.eq_dec j n); [lia|reflexivity]. }
    intros i I. rewrite sum_S, E. destruct (Nat.eq_dec n n) as [_|X]; [|congruence].
    destruct (Nat.eq_dec i n) as [->|N].
    + fold d. field. lra.
    + pose proof (G i ltac:(lia)) as Gi. rewrite (sum_ext n _ (fun j => A i j * g j + (- A i n / d) * (A n j * g j))) in Gi by (intros; field; lra).
      rewrite sum_add, sum_scale in Gi. set (u := sum n (fun j => A n j * g j)) in *. set (t := sum n (fun j => A i j * g j)) in *.
      assert (t = b i - A i n * b n / d + A i n / d * u) by lra. replace (t + A i n * ((b n - u) / d)) with (b i) by (rewrite H; field; lra). reflexivity.
Qed.

(** ** As lists of rows *)
Definition matrix (n : nat) (A : nat -> nat -> R) : list (list R) := map (fun i => map (A i) (seq 0 n)) (seq 0 n).
Lemma combine_seq (h : nat -> R) (g : list R) : forall k, dot (map h (seq k (length g))) g = rsum (map (fun j => h (k + j)%nat * nth j g 0) (seq 0 (length g))).
Proof.
  induction g as [|x g IH]; intro k; [reflexivity|]. cbn [length seq map]. unfold dot in *. cbn [combine map]. unfold rsum at 1. cbn [fold_right]. fold rsum.
  change (fold_right Rplus 0 ?l) with (rsum l). rewrite IH. cbn [map fst snd]. unfold rsum at 2. cbn [fold_right]. change (fold_right Rplus 0 ?l) with (rsum l).
  rewrite Nat.add_0_r. cbn [nth]. f_equal. rewrite <- seq_shift, map_map. f_equal. apply map_ext. intros j. cbn [nth]. rewrite Nat.add_succ_r. reflexivity.
Qed.
Lemma dot_sum n (h : nat -> R) g : length g = n -> dot (map h (seq 0 n)) g = sum n (fun j => h j * nth j g 0).
Proof. intros <-. rewrite combine_seq. reflexivity. Qed.
Lemma matrix_length n A : length (matrix n A) = n.
Proof. unfold matrix. rewrite map_length, seq_length. reflexivity. Qed.
Lemma solves_matrix n A b g : solves (matrix n A) b g <-> length g = n /\ length b = n /\ forall i, (i < n)%nat -> sum n (fun j => A i j * nth j g 0) = nth i b 0.
Proof.
  unfold solves. rewrite matrix_length. split.
  - intros (L & E). split; [exact L|]. unfold matrix in E. rewrite map_map in E. subst b. rewrite map_length, seq_length. split; [reflexivity|].
    intros i I. rewrite (nth_indep _ 0 (dot (map (A 0%nat) (seq 0 n)) g)) by (rewrite map_length, seq_length; exact I).
    rewrite (map_nth (fun i => dot (map (A i) (seq 0 n)) g)), seq_nth by exact I. cbn [plus]. rewrite dot_sum by exact L. reflexivity.
  - intros (L & Lb & H). split; [exact L|]. unfold matrix. rewrite map_map. apply (nth_ext _ _ 0 0); rewrite map_length, seq_length; [auto|].
    intros i I. rewrite (nth_indep _ 0 (dot (map (A 0%nat) (seq 0 n)) g)) by (rewrite map_length, seq_length; exact I).
    rewrite (map_nth (fun i => dot (map (A i) (seq 0 n)) g)), seq_nth by exact I. cbn [plus]. rewrite dot_sum by exact L. apply H, I.
Qed.
Lemma solves_unique n A b g h : mm n A -> solves (matrix n A) b g -> solves (matrix n A) b h -> h = g.
Proof.
  intros M (Lg & _ & G)%solves_matrix (Lh & _ & H)%solves_matrix. apply (nth_ext _ _ 0 0); [lia|]. rewrite Lh. intros i I.
  enough (nth i h 0 - nth i g 0 = 0) by lra. apply (mm_zero n A (fun j => nth j h 0 - nth j g 0) M); [|exact I].
  intros k K. rewrite (sum_ext n _ (fun j => A k j * nth j h 0 + -1 * (A k j * nth j g 0))) by (intros; ring).
  rewrite sum_add, sum_scale, G, H by exact K. ring.
Qed.
Lemma matrix_uniquely n A : mm n A -> uniquely_solvable (matrix n A).
Proof.
  intros M b L. rewrite matrix_length in L. destruct (mm_solve n A (fun i => nth i b 0) M) as (g & G).
  assert (S : solves (matrix n A) b (map g (seq 0 n))).
  { apply solves_matrix. rewrite map_length, seq_length. split; [reflexivity|]. split; [exact L|]. intros i I. rewrite <- (G i I). apply sum_ext. intros j J.
    rewrite (nth_indep _ 0 (g 0%nat)) by (rewrite map_length, seq_length; exact J). rewrite map_nth, seq_nth by exact J. reflexivity. }
  exists (map g (seq 0 n)). split; [exact S|]. intros h H. exact (solves_unique n A b _ h M S H).
Qed.
Lemma matrix_regular n A : mm n A -> AnalysisSpec.regular (matrix n A).
Proof.
  intros M. split.
  - intros row I. rewrite matrix_length. unfold matrix in I. apply in_map_iff in I. destruct I as (i & <- & _). rewrite map_length, seq_length. reflexivity.
  - rewrite matrix_length. intros x L H y Y. apply (In_nth _ _ 0) in Y. destruct Y as (k & K & <-). rewrite L in K.
    apply (mm_zero n A (fun j => nth j x 0) M); [|exact K]. intros i I. rewrite <- dot_sum by exact L. apply H. unfold matrix. apply in_map_iff. exists i. split; [reflexivity|]. apply in_seq. lia.
Qed.
Lemma matrix_nonneg n A b g : mm n A -> solves (matrix n A) b g -> (forall x, In x b -> 0 <= x) -> forall y, In y g -> 0 <= y.
Proof.
  intros M (Lg & Lb & G)%solves_matrix B y Y. apply (In_nth _ _ 0) in Y. destruct Y as (k & K & <-). rewrite Lg in K.
  apply (mm_nonneg n A (fun j => nth j g 0) M); [|exact K]. intros i I. rewrite G by exact I. apply B, nth_In. lia.
Qed.
Lemma matrix_pos n A b g : mm n A -> (forall i j, (i < n)%nat -> (j < n)%nat -> i <> j -> A i j < 0) ->
  solves (matrix n A) b g -> (forall x, In x b -> 0 <= x) -> (exists x, In x b /\ 0 < x) -> forall y, In y g -> 0 < y.
Proof.
  intros M O (Lg & Lb & G)%solves_matrix B (x & X & P) y Y. apply (In_nth _ _ 0) in Y. destruct Y as (k & K & <-). rewrite Lg in K.
  apply (In_nth _ _ 0) in X. destruct X as (l & Ll & <-). rewrite Lb in Ll.
  apply (mm_pos n A (fun j => nth j g 0) l M O); [|exact Ll| |exact K].
  - intros i I. rewrite G by exact I. apply B, nth_In. lia.
  - rewrite G by exact Ll. exact P.
Qed.
