(** Proofs about the index arithmetic. *)
From Coq Require Import List ZArith Lia Psatz Bool.
From Verif Require Import LatticeModel LatticeSpec LatticeArrays LatticeProofs IntModel IntSpec.
Import ListNotations.
Open Scope Z_scope.

Lemma wrap32_id z : - INT_MAX - 1 <= z <= INT_MAX -> wrap32 z = z.
Proof. unfold INT_MAX, wrap32. intro H. rewrite Z.mod_small; lia. Qed.
Lemma wrap32_range z : - INT_MAX - 1 <= wrap32 z <= INT_MAX.
Proof. unfold INT_MAX, wrap32. pose proof (Z.mod_pos_bound (z + 2147483648) 4294967296 ltac:(lia)). lia. Qed.
Lemma checked_ok t z : - ty_max t - 1 <= z <= ty_max t -> checked t z = Some (t, z).
Proof. intro H. unfold checked. replace ((- ty_max t - 1 <=? z) && (z <=? ty_max t))%bool with true; [reflexivity|]. symmetry. apply andb_true_iff. lia. Qed.

Lemma in_py_range lo hi x : In x (py_range lo hi) <-> lo <= x < hi.
Proof.
  unfold py_range. rewrite in_map_iff. split.
  - intros (k & E & I). apply in_seq in I. lia.
  - intro H. exists (Z.to_nat (x - lo)). split; [lia|]. apply in_seq. lia.
Qed.

(** ** The matrix *)
Lemma index_ij_eval n i j : 0 <= n <= INT_MAX -> 0 <= i < n -> 0 <= j < n -> index_ij n i j = Some (wrap32 (i * n + j)).
Proof.
  unfold INT_MAX. intros N I J. unfold index_ij, assign_int. cbn [ceval join].
  rewrite checked_ok by (cbn [ty_max]; unfold LONG_MAX; nia). cbn [join]. rewrite checked_ok by (cbn [ty_max]; unfold LONG_MAX; nia). reflexivity.
Qed.
Lemma index_ij_small n i j : 0 <= n <= MATRIX_LIMIT -> 0 <= i < n -> 0 <= j < n -> index_ij n i j = Some (i * n + j).
Proof.
  unfold MATRIX_LIMIT. intros N I J. rewrite index_ij_eval by (unfold INT_MAX; lia). rewrite wrap32_id; [reflexivity|]. unfold INT_MAX.
  assert (i * n + j <= (n - 1) * n + (n - 1)) by nia. assert (0 <= i * n) by nia. assert ((n - 1) * n + (n - 1) <= 2147395599) by nia. lia.
Qed.

Section S.
  Context {A : Type}.
  Variable val : Z -> Z -> A.

  Lemma store_row_ok n i js m : 0 <= n <= MATRIX_LIMIT -> 0 <= i < n -> (forall j, In j js -> 0 <= j < n) ->
    exists m', store_row val n i js m = Some m' /\ (forall j, In j js -> m' (i * n + j) = val i j) /\
      (forall a, (forall j, In j js -> a <> i * n + j) -> m' a = m a).
  Proof.
    intros N I. revert m. induction js as [|j js IH]; intros m J.
    - exists m. split; [reflexivity|]. split; [intros j []|reflexivity].
    - cbn [store_row]. rewrite index_ij_small by (try exact N; try exact I; apply J; left; reflexivity).
      destruct (IH (store m (i * n + j) (val i j)) (fun j' H => J j' (or_intror H))) as (m' & E & H1 & H2). exists m'. split; [exact E|]. split.
      + intros j' [<-|I']; [|apply H1; exact I']. destruct (in_dec Z.eq_dec j js) as [I2|NI]; [apply H1; exact I2|].
        rewrite H2; [unfold store; rewrite Z.eqb_refl; reflexivity|]. intros j2 I2 E2. apply NI. replace j with j2 by lia. exact I2.
      + intros a H. rewrite H2; [|intros j' I'; apply H; right; exact I']. unfold store. specialize (H j (or_introl eq_refl)). apply Z.eqb_neq in H. rewrite H. reflexivity.
  Qed.
  Lemma store_rows_ok n is js m : 0 <= n <= MATRIX_LIMIT -> (forall i, In i is -> 0 <= i < n) -> (forall j, In j js -> 0 <= j < n) ->
    exists m', store_rows val n is js m = Some m' /\ (forall i j, In i is -> In j js -> m' (i * n + j) = val i j) /\
      (forall a, (forall i j, In i is -> In j js -> a <> i * n + j) -> m' a = m a).
  Proof.
    intros N I J. revert m. induction is as [|i is IH]; intros m.
    - exists m. split; [reflexivity|]. split; [intros i j []|reflexivity].
    - cbn [store_rows]. destruct (store_row_ok n i js m N (I i (or_introl eq_refl)) J) as (m1 & E1 & V1 & F1). rewrite E1.
      destruct (IH (fun i' H => I i' (or_intror H)) m1) as (m' & E & V & F). exists m'. split; [exact E|]. split.
      + intros i' j [<-|I'] J'; [|apply V; assumption]. destruct (in_dec Z.eq_dec i is) as [I2|NI]; [apply V; assumption|].
        rewrite F; [apply V1; exact J'|]. intros i2 j2 I2 J2 E2. apply NI. 
        pose proof (J j J'). pose proof (J j2 J2). assert (i = i2) by nia. subst. exact I2.
      + intros a H. rewrite F; [|intros i' j' I' J'; apply H; [right|]; assumption]. apply F1. intros j' J'. apply H; [left; reflexivity|exact J'].
  Qed.
  Lemma downwash_stores_ok n m : 0 <= n <= MATRIX_LIMIT -> exists m', downwash_stores val n m = Some m' /\ matrix_stored val n m m'.
  Proof.
    intro N. unfold downwash_stores, counters. replace (n <=? INT_MAX) with true by (symmetry; apply Z.leb_le; unfold INT_MAX, MATRIX_LIMIT in *; lia).
    destruct (store_rows_ok n (py_range 0 n) (py_range 0 n) m N) as (m' & E & V & F); try (intros i I; apply in_py_range in I; exact I).
    exists m'. split; [exact E|]. split; [intros i j I J; apply V; apply in_py_range; assumption|].
    intros a H. apply F. intros i j I J ->. apply in_py_range in I, J. apply H. nia.
  Qed.

  (** Above the limit the first cell written outside is 2^31 places before the matrix. *)
  Lemma store_row_some n i js m : 0 <= n <= INT_MAX -> 0 <= i < n -> (forall j, In j js -> 0 <= j < n) -> 
    exists m', store_row val n i js m = Some m' /\
      forall a, m' a = m a \/ exists j, In j js /\ a = wrap32 (i * n + j) /\ m' a = val i j.
  Proof.
    intros N I. revert m. induction js as [|j js IH]; intros m J.
    - exists m. split; [reflexivity|]. left. reflexivity.
    - cbn [store_row]. rewrite index_ij_eval by (try exact N; try exact I; apply J; left; reflexivity).
      destruct (IH (store m (wrap32 (i * n + j)) (val i j)) (fun j' H => J j' (or_intror H))) as (m' & E & H). exists m'. split; [exact E|].
      intro a. destruct (H a) as [E2|(j2 & I2 & Ea & V)]; [|right; exists j2; split; [right|]; auto]. rewrite E2. unfold store.
      destruct (Z.eqb_spec a (wrap32 (i * n + j))) as [->|NE]; [right; exists j; split; [left; reflexivity|auto]|left; reflexivity].
  Qed.
  Lemma store_row_hit n i js m m' k : 0 <= n <= INT_MAX -> 0 <= i < n -> (forall j, In j js -> 0 <= j < n) ->
    store_row val n i js m = Some m' -> (exists j, In j js /\ k = wrap32 (i * n + j)) -> exists j, In j js /\ k = wrap32 (i * n + j) /\ m' k = val i j.
  Proof.
    intros N I. revert m. induction js as [|j js IH]; intros m J E (j0 & I0 & K); [destruct I0|].
    cbn [store_row] in E. rewrite index_ij_eval in E by (try exact N; try exact I; apply J; left; reflexivity).
    destruct (Z.eq_dec k (wrap32 (i * n + j))) as [K1|K1].
    - destruct (store_row_some n i js (store m (wrap32 (i * n + j)) (val i j)) N I (fun j' H => J j' (or_intror H))) as (m2 & E2 & H). rewrite E in E2. injection E2 as <-.
      destruct (H k) as [E3|(j2 & I2 & K2 & V2)]; [|exists j2; split; [right; exact I2|auto]].
      exists j. split; [left; reflexivity|]. split; [exact K1|]. rewrite E3, K1. unfold store. rewrite Z.eqb_refl. reflexivity.
    - destruct I0 as [<-|I0]; [contradiction|]. destruct (IH _ (fun j' H => J j' (or_intror H)) E (ex_intro _ j0 (conj I0 K))) as (j2 & I2 & R). exists j2. split; [right|]; auto.
  Qed.
  Lemma store_rows_some n is js m : 0 <= n <= INT_MAX -> (forall i, In i is -> 0 <= i < n) -> (forall j, In j js -> 0 <= j < n) ->
    exists m', store_rows val n is js m = Some m' /\
      forall a, m' a = m a \/ exists i j, In i is /\ In j js /\ a = wrap32 (i * n + j) /\ m' a = val i j.
  Proof.
    intros N I J. revert m. induction is as [|i is IH]; intro m.
    - exists m. split; [reflexivity|]. left. reflexivity.
    - cbn [store_rows]. destruct (store_row_some n i js m N (I i (or_introl eq_refl)) J) as (m1 & E1 & H1). rewrite E1.
      destruct (IH (fun i' H => I i' (or_intror H)) m1) as (m' & E & H). exists m'. split; [exact E|]. intro a.
      destruct (H a) as [E2|(i2 & j2 & I2 & J2 & R)]; [|right; exists i2, j2; split; [right|]; auto].
      rewrite E2. destruct (H1 a) as [E3|(j2 & J2 & R)]; [left; exact E3|right; exists i, j2; split; [left; reflexivity|auto]].
  Qed.
  Lemma store_rows_hit n is js m m' k : 0 <= n <= INT_MAX -> (forall i, In i is -> 0 <= i < n) -> (forall j, In j js -> 0 <= j < n) ->
    store_rows val n is js m = Some m' -> (exists i j, In i is /\ In j js /\ k = wrap32 (i * n + j)) ->
    exists i j, In i is /\ In j js /\ k = wrap32 (i * n + j) /\ m' k = val i j.
  Proof.
    intros N I J. revert m. induction is as [|i is IH]; intros m E (i0 & j0 & I0 & J0 & K); [destruct I0|].
    cbn [store_rows] in E. destruct (store_row val n i js m) as [m1|] eqn:E1; [|discriminate].
    destruct I0 as [<-|I0].
    - destruct (store_row_hit n i js m m1 k N (I i (or_introl eq_refl)) J E1 (ex_intro _ j0 (conj J0 K))) as (j1 & J1 & K1 & V1).
      destruct (store_rows_some n is js m1 N (fun i' H => I i' (or_intror H)) J) as (m2 & E2 & H). rewrite E in E2. injection E2 as <-.
      destruct (H k) as [E3|(i2 & j2 & I2 & R)]; [|exists i2, j2; split; [right|]; auto].
      exists i, j1. split; [left; reflexivity|]. split; [exact J1|]. split; [exact K1|]. rewrite E3. exact V1.
    - destruct (IH (fun i' H => I i' (or_intror H)) m1 E) as (i2 & j2 & I2 & R); [exists i0, j0; auto|]. exists i2, j2. split; [right|]; auto.
  Qed.

  Lemma downwash_overrun n m : MATRIX_LIMIT < n <= INT_MAX ->
    exists m' i j, downwash_stores val n m = Some m' /\ 0 <= i < n /\ 0 <= j < n /\ m' (-2147483648) = val i j.
  Proof.
    intro N. assert (NN : 0 <= n <= INT_MAX) by (unfold MATRIX_LIMIT in N; lia).
    unfold downwash_stores, counters. replace (n <=? INT_MAX) with true by (symmetry; apply Z.leb_le; lia).
    assert (RR : forall i, In i (py_range 0 n) -> 0 <= i < n) by (intros i I; apply in_py_range; exact I).
    destruct (store_rows_some n (py_range 0 n) (py_range 0 n) m NN RR RR) as (m' & E & _).
    destruct (store_rows_hit n _ _ m m' (-2147483648) NN RR RR E) as (i & j & I & J & _ & V).
    - pose proof (Z.div_mod 2147483648 n ltac:(unfold MATRIX_LIMIT in N; lia)) as D. pose proof (Z.mod_pos_bound 2147483648 n ltac:(unfold MATRIX_LIMIT in N; lia)) as B.
      exists (2147483648 / n), (2147483648 mod n). split; [|split]; [| |rewrite (Z.mul_comm _ n), <- D; reflexivity]; apply in_py_range; [|lia].
      split; [apply Z.div_pos; unfold MATRIX_LIMIT in N; lia|]. apply Z.div_lt_upper_bound; unfold MATRIX_LIMIT in N; nia.
    - exists m', i, j. split; [exact E|]. auto.
  Qed.
  Lemma downwash_undefined n m : INT_MAX < n -> downwash_stores val n m = None.
  Proof. intro N. unfold downwash_stores, counters. replace (n <=? INT_MAX) with false by (symmetry; apply Z.leb_gt; exact N). reflexivity. Qed.
End S.

(** ** The lattice arrays *)
Ltac evs := unfold assign_int; cbn [ceval join]; unfold NUM_COORD, NUM_V, NUM_P in *;
  repeat (rewrite checked_ok by (cbn [ty_max join]; unfold INT_MAX; lia); cbn [join]); rewrite wrap32_id by (unfold INT_MAX; lia).
Lemma index_i_ok i : 0 <= i < LATTICE_LIMIT -> index_i i = Some (3 * i).
Proof. unfold LATTICE_LIMIT. intro I. unfold index_i. evs. f_equal. lia. Qed.
Lemma index_leg_ok j k : 0 <= j < LATTICE_LIMIT -> 0 <= k <= 3 -> index_leg j k = Some (12 * j + 3 * k).
Proof. unfold LATTICE_LIMIT. intros J K. unfold index_leg. evs. f_equal. lia. Qed.
Lemma index_leg2_ok j k : 0 <= j < LATTICE_LIMIT -> 0 <= k <= 2 -> index_leg2 j k = Some (12 * j + 3 * k + 3).
Proof. unfold LATTICE_LIMIT. intros J K. unfold index_leg2. evs. f_equal. lia. Qed.
Lemma bound_end_ok j k : 0 <= j < LATTICE_LIMIT -> 0 <= k <= 3 -> bound_end j k = Some (12 * j + 3 * k).
Proof. exact (index_leg_ok j k). Qed.
Lemma coords_ok a k x : 0 <= k <= INT_MAX - 2 -> In x (coords a (Some k)) -> exists d, 0 <= d <= 2 /\ x = Some (a, k + d).
Proof.
  unfold coords. unfold INT_MAX. intros K I. apply in_map_iff in I as (d & <- & I). exists d. 
  assert (D : 0 <= d <= 2) by (destruct I as [<-|[<-|[<-|[]]]]; lia). split; [exact D|]. cbn [ceval join]. rewrite checked_ok by (cbn [ty_max]; unfold INT_MAX; lia). reflexivity.
Qed.
Lemma coords_has a k d : 0 <= k <= INT_MAX - 2 -> 0 <= d <= 2 -> In (Some (a, k + d)) (coords a (Some k)).
Proof.
  unfold coords. unfold INT_MAX. intros K D. apply in_map_iff. exists d. split.
  - cbn [ceval join]. rewrite checked_ok by (cbn [ty_max]; unfold INT_MAX; lia). reflexivity.
  - assert (d = 0 \/ d = 1 \/ d = 2) as [-> | [-> | ->]] by lia; cbn; auto.
Qed.

Ltac coord_case := match goal with H : In _ (coords _ (Some _)) |- _ =>
  apply coords_ok in H; [destruct H as (? & ? & ->)|unfold INT_MAX, LATTICE_LIMIT in *; lia] end.
Lemma legs_cells j x : 0 <= j < LATTICE_LIMIT ->
  In x (flat_map (fun k => coords AV (index_leg j k) ++ coords AV (index_leg2 j k)) [0; 1; 2]) -> exists k, x = Some (AV, k) /\ cell_of j AV k.
Proof.
  intros J I. apply in_flat_map in I as (k & K & I). assert (0 <= k <= 2) by (destruct K as [<-|[<-|[<-|[]]]]; lia).
  rewrite index_leg_ok, index_leg2_ok in I by lia. apply in_app_or in I as [I|I]; coord_case; eexists; (split; [reflexivity|]); unfold cell_of, row_width; lia.
Qed.
Lemma downwash_reads_ok i j : 0 <= i < LATTICE_LIMIT -> 0 <= j < LATTICE_LIMIT -> cells_of_two i j (downwash_reads i j).
Proof.
  intros I J x H. unfold downwash_reads in H. rewrite index_i_ok in H by exact I. rewrite !in_app_iff in H. destruct H as [H|[H|H]].
  1,2: coord_case; eexists _, _; (split; [reflexivity|]); left; unfold cell_of, row_width; lia.
  apply legs_cells in H as (k & -> & C); [|exact J]. eexists _, _. split; [reflexivity|right; exact C].
Qed.
Lemma boundary_reads_ok i : 0 <= i < LATTICE_LIMIT -> cells_of i (boundary_reads i).
Proof.
  intros I x H. unfold boundary_reads in H. rewrite index_i_ok in H by exact I. rewrite in_app_iff in H.
  destruct H as [H|H]; coord_case; eexists _, _; (split; [reflexivity|]); unfold cell_of, row_width; lia.
Qed.
Lemma results_reads_ok i j : 0 <= i < LATTICE_LIMIT -> 0 <= j < LATTICE_LIMIT -> cells_of_two i j (results_reads i j).
Proof.
  intros I J x H. unfold results_reads in H. rewrite index_i_ok, !bound_end_ok in H by lia. rewrite !in_app_iff in H. destruct H as [H|[H|[H|[H|[H|H]]]]].
  1,2,3,4: coord_case; eexists _, _; (split; [reflexivity|]); left; unfold cell_of, row_width; lia.
  - destruct H as [<-|[]]. eexists _, _. split; [reflexivity|]. left. unfold cell_of, row_width. lia.
  - apply legs_cells in H as (k & -> & C); [|exact J]. eexists _, _. split; [reflexivity|right; exact C].
Qed.

(** [vlm_lattice] *)
Lemma lattice_point_ok s p e : 0 <= s -> 0 <= p -> s + p < LATTICE_LIMIT -> 0 <= e <= 3 -> lattice_point s p e = Some (12 * (s + p) + 3 * e).
Proof. unfold LATTICE_LIMIT. intros. unfold lattice_point. evs. f_equal. lia. Qed.
Lemma lattice_N_ok s p : 0 <= s -> 0 <= p -> s + p < LATTICE_LIMIT -> lattice_index_N s p = Some (3 * (s + p)).
Proof. unfold LATTICE_LIMIT. intros. unfold lattice_index_N. evs. f_equal. lia. Qed.
Lemma lattice_A_ok s p : 0 <= s -> 0 <= p -> s + p < LATTICE_LIMIT -> lattice_index_A s p = Some (s + p).
Proof. unfold LATTICE_LIMIT. intros. unfold lattice_index_A. cbn [ceval join]. rewrite checked_ok by (cbn [ty_max]; unfold INT_MAX; lia). reflexivity. Qed.
Lemma lattice_pan_ok c i j : 0 <= i < c -> 0 <= j -> j * c + i < LATTICE_LIMIT -> lattice_index_pan c i j = Some (j * c + i).
Proof.
  unfold LATTICE_LIMIT. intros I J L. unfold lattice_index_pan, assign_int. assert (0 <= j * c) by nia. cbn [ceval join].
  rewrite checked_ok by (cbn [ty_max]; unfold INT_MAX; lia). cbn [join]. rewrite checked_ok by (cbn [ty_max]; unfold INT_MAX; lia).
  rewrite wrap32_id by (unfold INT_MAX; lia). reflexivity.
Qed.
Lemma lattice_writes_ok start c i j : 0 <= start -> 0 <= i < c -> 0 <= j -> start + (j * c + i) < LATTICE_LIMIT ->
  cells_of (start + (j * c + i)) (lattice_writes start c i j) /\ whole_row (start + (j * c + i)) (lattice_writes start c i j).
Proof.
  intros S I J L. assert (P : 0 <= j * c + i) by nia. unfold lattice_writes. rewrite lattice_pan_ok by lia. set (p := j * c + i) in *. clearbody p.
  rewrite lattice_N_ok, lattice_A_ok by lia. split.
  - intros x H. rewrite !in_app_iff in H. destruct H as [H|[H|[H|[H|[H|H]]]]].
    1,2: apply in_flat_map in H as (e & K & H); assert (0 <= e <= 3) by (destruct K as [<-|[<-|[<-|[<-|[]]]]]; lia); rewrite lattice_point_ok in H by lia;
      coord_case; eexists _, _; (split; [reflexivity|]); unfold cell_of, row_width; lia.
    1,2,3: coord_case; eexists _, _; (split; [reflexivity|]); unfold cell_of, row_width; lia.
    destruct H as [<-|[]]. eexists _, _. split; [reflexivity|]. unfold cell_of, row_width. lia.
  - intros a k A C. unfold LATTICE_LIMIT in L. rewrite !in_app_iff.
    assert (PT : forall b, cell_of (start + p) b k -> row_width b = 12 -> In (Some (b, k)) (flat_map (fun e => coords b (lattice_point start p e)) [0; 1; 2; 3])).
    { intros b H W. unfold cell_of in H. rewrite W in H. apply in_flat_map. exists ((k - 12 * (start + p)) / 3).
      set (e := (k - 12 * (start + p)) / 3). pose proof (Z.div_mod (k - 12 * (start + p)) 3 ltac:(lia)) as D. pose proof (Z.mod_pos_bound (k - 12 * (start + p)) 3 ltac:(lia)) as B. fold e in D.
      assert (0 <= e <= 3) by lia. split; [assert (e = 0 \/ e = 1 \/ e = 2 \/ e = 3) as [-> | [-> | [-> | ->]]] by lia; cbn; auto|].
      rewrite lattice_point_ok by (unfold LATTICE_LIMIT; lia). replace k with (12 * (start + p) + 3 * e + (k - 12 * (start + p)) mod 3) by lia. apply coords_has; unfold INT_MAX; lia. }
    assert (TR : forall b, cell_of (start + p) b k -> row_width b = 3 -> In (Some (b, k)) (coords b (Some (3 * (start + p))))).
    { intros b H W. unfold cell_of in H. rewrite W in H. replace k with (3 * (start + p) + (k - 3 * (start + p))) by lia. apply coords_has; unfold INT_MAX; lia. }
    destruct A as [<-|[<-|[<-|[<-|[<-|[<-|[]]]]]]].
    + left. apply PT; [exact C|reflexivity].
    + right. left. apply PT; [exact C|reflexivity].
    + right. right. left. apply TR; [exact C|reflexivity].
    + do 3 right. left. apply TR; [exact C|reflexivity].
    + do 4 right. left. apply TR; [exact C|reflexivity].
    + do 5 right. left. unfold cell_of, row_width in C. f_equal. f_equal. lia.
Qed.
Lemma lattice_starts_ok pan : forall start, 0 <= start -> (forall s c, In (s, c) pan -> 1 <= s /\ 1 <= c) ->
  start + zsum (map (fun p => fst p * snd p) pan) <= LATTICE_LIMIT ->
  exists l, lattice_starts start pan = Some l /\ length l = length pan /\
    forall k s c, nth_error pan k = Some (s, c) -> nth_error l k = Some (start + zsum (map (fun p => fst p * snd p) (firstn k pan))).
Proof.
  unfold LATTICE_LIMIT. induction pan as [|[s c] pan IH]; intros start S P T.
  - exists []. split; [reflexivity|]. split; [reflexivity|]. intros [|k] s c E; discriminate.
  - destruct (P s c (or_introl eq_refl)) as (S1 & C1). cbn [map fst snd] in T.
    assert (E0 : forall x l, zsum (x :: l) = x + zsum l) by reflexivity. rewrite E0 in T.
    assert (Z0 : 0 <= zsum (map (fun p => fst p * snd p) pan)).
    { assert (X : forall l, (forall s c, In (s, c) l -> 1 <= s /\ 1 <= c) -> 0 <= zsum (map (fun p : Z * Z => fst p * snd p) l)).
      { induction l as [|[s' c'] l IHl]; intro Q; [cbn; lia|]. cbn [map fst snd]. rewrite E0. destruct (Q s' c' (or_introl eq_refl)). assert (0 <= s' * c') by nia.
        specialize (IHl (fun a b H => Q a b (or_intror H))). lia. }
      apply X. intros a b H. apply P. right. exact H. }
    assert (B1 : s <= s * c) by nia. assert (B2 : c <= s * c) by nia.
    cbn [lattice_starts]. unfold assign_int at 1 2. cbn [ceval]. rewrite !wrap32_id by (unfold INT_MAX; lia).
    assert (A1 : assign_int (CMul (CI s) (CI c)) = Some (s * c)).
    { unfold assign_int. cbn [ceval join]. rewrite checked_ok by (cbn [ty_max]; unfold INT_MAX; lia). rewrite wrap32_id by (unfold INT_MAX; lia). reflexivity. }
    rewrite A1. assert (A2 : assign_int (CAdd (CI start) (CI (s * c))) = Some (start + s * c)).
    { unfold assign_int. cbn [ceval join]. rewrite checked_ok by (cbn [ty_max]; unfold INT_MAX; lia). rewrite wrap32_id by (unfold INT_MAX; lia). reflexivity. }
    rewrite A2. destruct (IH (start + s * c) ltac:(lia) (fun a b H => P a b (or_intror H)) ltac:(lia)) as (l & E & L & H). rewrite E.
    exists (start :: l). split; [reflexivity|]. split; [cbn; rewrite L; reflexivity|]. intros [|k] s' c' N.
    + cbn. f_equal. lia.
    + cbn [nth_error] in N |- *. rewrite (H k s' c' N). cbn [firstn map fst snd]. rewrite E0. f_equal. lia.
Qed.

Lemma matrix_not_stored : exists n (val : Z -> Z -> Z) m, 0 <= n /\
  ~ exists m', downwash_stores val n m = Some m' /\ matrix_stored val n m m'.
Proof.
  exists 46341, (fun _ _ => 1), (fun _ => 0). split; [lia|]. intros (m' & E & _ & F).
  destruct (downwash_overrun (fun _ _ => 1) 46341 (fun _ => 0)) as (m2 & i & j & E2 & _ & _ & V); [unfold MATRIX_LIMIT, INT_MAX; lia|].
  rewrite E in E2. injection E2 as <-. rewrite F in V by lia. discriminate.
Qed.
