(** Proofs about runs with C integers. *)
From Coq Require Import List ZArith Lia Psatz Bool.
From Verif Require Import LatticeModel LatticeSpec LatticeArrays LatticeProofs IntModel IntSpec IntProofs IntRunModel.
Import ListNotations.
Open Scope Z_scope.

Section T.
  Context {A : Type}.
  Implicit Type l : list (option (list A)).
  Lemma in_turn_map {B} (f : B -> option (list A)) g bs : (forall b, In b bs -> f b = Some (g b)) -> in_turn (map f bs) = Some (flat_map g bs).
  Proof.
    induction bs as [|b bs IH]; intro H; [reflexivity|]. cbn [map in_turn flat_map]. rewrite (H b (or_introl eq_refl)), IH; [reflexivity|].
    intros b' I. apply H. right. exact I.
  Qed.
  Lemma in_turn_none l : In None l -> in_turn l = None.
  Proof. induction l as [|[x|] l IH]; intros I; [destruct I| |reflexivity]. destruct I as [I|I]; [discriminate I|]. cbn. rewrite (IH I). reflexivity. Qed.
  Lemma in_turn_some l r : in_turn l = Some r -> forall x, In x r -> exists y, In (Some y) l /\ In x y.
  Proof.
    revert r. induction l as [|[y|] l IH]; intros r E x I; cbn in E; [injection E as <-; destruct I| |discriminate].
    destruct (in_turn l) as [r'|]; [|discriminate]. injection E as <-. apply in_app_or in I as [I|I]; [exists y; split; [left; reflexivity|exact I]|].
    destruct (IH r' eq_refl x I) as (y' & I1 & I2). exists y'. split; [right|]; assumption.
  Qed.
  Lemma in_turn_defined l : ~ In None l -> in_turn l <> None.
  Proof.
    induction l as [|[x|] l IH]; intro H; [discriminate| |exfalso; apply H; left; reflexivity].
    cbn. destruct (in_turn l); [discriminate|]. exfalso. apply IH; [intro I; apply H; right; exact I|reflexivity].
  Qed.
End T.

Lemma int_three_ok mk k : 0 <= k <= INT_MAX - 2 -> int_three mk (Some k) = Some (three mk k).
Proof.
  intros K. unfold int_three. rewrite (in_turn_map _ (fun d => [mk (k + d)])); [unfold three; cbn [flat_map app]; rewrite Z.add_0_r; reflexivity|].
  intros d D. assert (0 <= d <= 2) by (destruct D as [<-|[<-|[<-|[]]]]; lia). cbn [ceval join]. rewrite checked_ok by (cbn [ty_max]; unfold INT_MAX in *; lia). reflexivity.
Qed.
Lemma int_panel_ok s p : 0 <= s -> 0 <= p -> s + p < LATTICE_LIMIT -> int_panel s p = Some (panel_accesses s p).
Proof.
  intros S P L. unfold int_panel. rewrite !lattice_point_ok, lattice_N_ok, lattice_A_ok by lia.
  unfold LATTICE_LIMIT in L. rewrite !int_three_ok by (unfold INT_MAX; lia). cbn [in_turn]. unfold panel_accesses, NUM_P, NUM_V, NUM_COORD.
  replace (12 * (s + p) + 3 * 0) with ((s + p) * 4 * 3) by lia. replace (12 * (s + p) + 3 * 1) with ((s + p) * 4 * 3 + 1 * 3) by lia.
  replace (12 * (s + p) + 3 * 2) with ((s + p) * 4 * 3 + 2 * 3) by lia. replace (12 * (s + p) + 3 * 3) with ((s + p) * 4 * 3 + 3 * 3) by lia.
  replace (3 * (s + p)) with ((s + p) * 3) by lia. rewrite app_nil_r. reflexivity.
Qed.
Lemma int_panel_limit s p : 0 <= s -> 0 <= p -> s + p = LATTICE_LIMIT -> int_panel s p = None.
Proof.
  unfold LATTICE_LIMIT. intros S P L. unfold int_panel. apply in_turn_none. do 3 right. left.
  unfold lattice_point, assign_int. cbn [ceval join]. rewrite checked_ok by (cbn [ty_max]; unfold INT_MAX; lia). cbn [join]. rewrite L.
  vm_compute. reflexivity.
Qed.
Lemma int_panel_loop_ok start s c : 0 <= start -> 1 <= s -> 1 <= c -> start + s * c <= LATTICE_LIMIT ->
  int_panel_loop start s c = Some (panel_loop start s c).
Proof.
  intros S0 S C L. unfold int_panel_loop, panel_loop. apply in_turn_map. intros i I. apply in_py_range in I. apply in_turn_map. intros j J. apply in_py_range in J.
  assert (j * c + i < s * c) by nia. assert (0 <= j * c) by nia. rewrite lattice_pan_ok by lia. apply int_panel_ok; lia.
Qed.
Lemma int_vertex_ok k e : 0 <= k < LATTICE_LIMIT -> 0 <= e <= 3 -> int_vertex k e = Some (k * NUM_P * NUM_COORD + e * NUM_COORD).
Proof. unfold LATTICE_LIMIT. intros K E. unfold int_vertex. evs. f_equal. Qed.
Lemma int_vertex_reads_ok k : 0 <= k < LATTICE_LIMIT -> int_vertex_reads k = Some (vertex_reads k).
Proof.
  intros K. unfold int_vertex_reads, vertex_reads. apply in_turn_map. intros e E. assert (0 <= e <= 3) by (destruct E as [<-|[<-|[<-|[<-|[]]]]]; lia).
  rewrite int_vertex_ok by lia. apply int_three_ok. unfold NUM_P, NUM_COORD, LATTICE_LIMIT, INT_MAX in *. lia.
Qed.
Lemma add_ok a b : 0 <= a -> 0 <= b -> a + b <= INT_MAX -> assign_int (CAdd (CI a) (CI b)) = Some (a + b).
Proof. unfold INT_MAX. intros. unfold assign_int. cbn [ceval join]. rewrite checked_ok by (cbn [ty_max]; unfold INT_MAX; lia). rewrite wrap32_id by (unfold INT_MAX; lia). reflexivity. Qed.
Lemma mul_ok a b : 0 <= a * b <= INT_MAX -> assign_int (CMul (CI a) (CI b)) = Some (a * b).
Proof. unfold INT_MAX. intros. unfold assign_int. cbn [ceval join]. rewrite checked_ok by (cbn [ty_max]; unfold INT_MAX; lia). rewrite wrap32_id by (unfold INT_MAX; lia). reflexivity. Qed.
Lemma mul_over a b : INT_MAX < a * b -> assign_int (CMul (CI a) (CI b)) = None.
Proof.
  intros H. unfold assign_int. cbn [ceval join]. unfold checked. cbn [ty_max]. replace (a * b <=? INT_MAX) with false by (symmetry; apply Z.leb_gt; exact H).
  rewrite andb_false_r. reflexivity.
Qed.
Lemma long_ok a : 0 <= a <= INT_MAX -> assign_int (CL a) = Some a.
Proof. unfold INT_MAX. intros. unfold assign_int. cbn [ceval]. rewrite wrap32_id by (unfold INT_MAX; lia). reflexivity. Qed.

Lemma int_sym_loop_ok k : forall seg start s c, 0 <= seg < LATTICE_LIMIT -> 0 <= start -> 1 <= s -> 1 <= c -> start + Z.of_nat k * (s * c) <= LATTICE_LIMIT ->
  int_sym_loop k seg start s c (s * c) = Some (sym_loop k seg start s c) /\ snd (sym_loop k seg start s c) = start + Z.of_nat k * (s * c).
Proof.
  induction k as [|k IH]; intros seg start s c G S0 S C L; [cbn [int_sym_loop sym_loop snd]; split; [reflexivity|lia]|].
  assert (P : 0 < s * c) by nia. cbn [int_sym_loop sym_loop]. rewrite int_vertex_reads_ok, int_panel_loop_ok by (try assumption; nia).
  cbn [in_turn]. rewrite add_ok by (unfold INT_MAX, LATTICE_LIMIT in *; nia). destruct (IH seg (start + s * c) s c) as [E1 E2]; try assumption; try nia.
  rewrite E1. destruct (sym_loop k seg (start + s * c) s c) as [acc sp]. cbn [snd] in *. rewrite app_nil_r, <- app_assoc. split; [reflexivity|]. rewrite E2. nia.
Qed.

(** Panels to be made, a subarea with symmetry flag counting twice. *)
Lemma times_pos sym pan : (forall s c, In (s, c) pan -> 1 <= s /\ 1 <= c) -> forall seg, Z.of_nat (length pan) <= made sym seg pan.
Proof.
  induction pan as [|[s c] pan IH]; intros H seg; [reflexivity|]. destruct (H s c (or_introl eq_refl)) as [S C]. specialize (IH (fun a b I => H a b (or_intror I)) (seg + 1)).
  cbn [made length]. assert (1 <= s * c) by nia. destruct (0 <? sym seg); lia.
Qed.
Lemma int_seg_loop_ok sym : forall pan seg start, 0 <= seg -> 0 <= start -> (forall s c, In (s, c) pan -> 1 <= s /\ 1 <= c) ->
  seg <= start -> start + made sym seg pan <= LATTICE_LIMIT ->
  int_seg_loop seg start sym pan = Some (seg_loop seg start sym pan).
Proof.
  induction pan as [|[s c] pan IH]; intros seg start G S0 H GS L; [reflexivity|]. destruct (H s c (or_introl eq_refl)) as [S C].
  assert (P : 1 <= s * c) by nia. assert (s <= s * c) by nia. assert (c <= s * c) by nia.
  pose proof (times_pos sym pan (fun a b I => H a b (or_intror I)) (seg + 1)) as T. cbn [made] in L. set (r := made sym (seg + 1) pan) in *.
  set (n := if 0 <? sym seg then 2%nat else 1%nat) in *. assert (N : 1 <= Z.of_nat n) by (unfold n; destruct (0 <? sym seg); lia).
  assert (L' : start + Z.of_nat n * (s * c) + r <= LATTICE_LIMIT) by (unfold n; destruct (0 <? sym seg); lia).
  assert (LIM : LATTICE_LIMIT = 178956970) by reflexivity. assert (s * c <= Z.of_nat n * (s * c)) by nia.
  cbn [int_seg_loop seg_loop]. fold n. rewrite (mul_ok seg 2) by (unfold INT_MAX; lia).
  replace (assign_int (CAdd (CMul (CI seg) (CI 2)) (CI 1))) with (Some (seg * 2 + 1)) by (symmetry; evs; reflexivity).
  rewrite !long_ok by (unfold INT_MAX; lia). rewrite mul_ok by (unfold INT_MAX; lia).
  destruct (int_sym_loop_ok n seg start s c) as [E1 E2]; try lia. rewrite E1. destruct (sym_loop n seg start s c) as [acc sp]. cbn [snd] in E2.
  rewrite add_ok by (unfold INT_MAX; lia). rewrite IH; [reflexivity|lia|lia|intros a b I; apply H; right; exact I|lia|fold r; lia].
Qed.
Lemma int_lattice_ok sym pan : (forall s c, In (s, c) pan -> 1 <= s /\ 1 <= c) -> made sym 0 pan <= LATTICE_LIMIT ->
  int_lattice sym pan = Some (vlm_lattice_accesses sym pan).
Proof. intros H L. apply int_seg_loop_ok; try lia; assumption. Qed.

(** ** Beyond the limit *)
Lemma int_panel_loop_over start s c : 0 <= start <= LATTICE_LIMIT -> 1 <= s -> 1 <= c -> LATTICE_LIMIT < start + s * c -> s * c <= INT_MAX ->
  int_panel_loop start s c = None.
Proof.
  intros S0 S C L M. unfold int_panel_loop. set (p := LATTICE_LIMIT - start).
  pose proof (Z.div_mod p c ltac:(lia)) as D. pose proof (Z.mod_pos_bound p c ltac:(lia)) as B. assert (Q : 0 <= p / c) by (apply Z.div_pos; lia).
  assert (W : p / c < s) by (apply Z.div_lt_upper_bound; nia).
  apply in_turn_none. apply in_map_iff. exists (p mod c). split; [|apply in_py_range; exact B].
  apply in_turn_none. apply in_map_iff. exists (p / c). split; [|apply in_py_range; lia].
  replace (lattice_index_pan c (p mod c) (p / c)) with (Some p).
  - apply int_panel_limit; lia.
  - symmetry. unfold lattice_index_pan, assign_int. assert (0 <= p / c * c) by nia. cbn [ceval join].
    rewrite checked_ok by (cbn [ty_max]; unfold INT_MAX, LATTICE_LIMIT in *; lia). cbn [join]. rewrite checked_ok by (cbn [ty_max]; unfold INT_MAX, LATTICE_LIMIT in *; lia).
    rewrite wrap32_id by (unfold INT_MAX, LATTICE_LIMIT in *; lia). f_equal. lia.
Qed.
Lemma int_sym_loop_over k : forall seg start s c, 0 <= start <= LATTICE_LIMIT -> 1 <= s -> 1 <= c -> s * c <= INT_MAX ->
  LATTICE_LIMIT < start + Z.of_nat k * (s * c) -> int_sym_loop k seg start s c (s * c) = None.
Proof.
  induction k as [|k IH]; intros seg start s c S0 S C M L; [lia|]. cbn [int_sym_loop].
  destruct (Z.le_gt_cases (start + s * c) LATTICE_LIMIT) as [H|H].
  - destruct (in_turn _) as [acc|]; [|reflexivity]. assert (0 < s * c) by nia. rewrite add_ok by (unfold INT_MAX, LATTICE_LIMIT in *; lia).
    rewrite IH; [reflexivity|lia|assumption|assumption|assumption|lia].
  - rewrite (in_turn_none [int_vertex_reads seg; int_panel_loop start s c]); [reflexivity|]. right. left. apply int_panel_loop_over; lia.
Qed.
Lemma int_sym_loop_next k : forall seg start s c r, 0 <= start -> 1 <= s -> 1 <= c -> start + Z.of_nat k * (s * c) <= LATTICE_LIMIT ->
  int_sym_loop k seg start s c (s * c) = Some r -> snd r = start + Z.of_nat k * (s * c).
Proof.
  induction k as [|k IH]; intros seg start s c r S0 S C L E; [injection E as <-; cbn; lia|]. cbn [int_sym_loop] in E.
  assert (0 < s * c) by nia. destruct (in_turn _) as [acc|]; [|discriminate E]. rewrite add_ok in E by (unfold INT_MAX, LATTICE_LIMIT in *; nia).
  destruct (int_sym_loop k seg (start + s * c) s c (s * c)) as [[acc' st]|] eqn:R; [|discriminate E]. injection E as <-.
  specialize (IH seg (start + s * c) s c _ ltac:(lia) S C ltac:(lia) R). cbn [snd] in *. lia.
Qed.
Lemma int_seg_loop_over sym : forall pan seg start, 0 <= start <= LATTICE_LIMIT -> (forall s c, In (s, c) pan -> 1 <= s <= INT_MAX /\ 1 <= c <= INT_MAX) ->
  0 <= seg <= start -> LATTICE_LIMIT < start + made sym seg pan -> int_seg_loop seg start sym pan = None.
Proof.
  induction pan as [|[s c] pan IH]; intros seg start S0 H G L; [cbn [made] in L; lia|]. destruct (H s c (or_introl eq_refl)) as [S C].
  assert (LIM : LATTICE_LIMIT = 178956970) by reflexivity.
  cbn [int_seg_loop]. rewrite (mul_ok seg 2) by (unfold INT_MAX; lia). destruct (assign_int (CAdd _ _)); [|reflexivity]. rewrite !long_ok by lia.
  destruct (Z.le_gt_cases (s * c) INT_MAX) as [M|M]; [|rewrite mul_over by exact M; reflexivity]. assert (1 <= s * c) by nia. rewrite mul_ok by lia.
  cbn [made] in L. set (r := made sym (seg + 1) pan) in *. set (n := if 0 <? sym seg then 2%nat else 1%nat) in *.
  assert (N : 1 <= Z.of_nat n) by (unfold n; destruct (0 <? sym seg); lia).
  assert (L' : LATTICE_LIMIT < start + Z.of_nat n * (s * c) + r) by (unfold n; destruct (0 <? sym seg); lia).
  destruct (Z.le_gt_cases (start + Z.of_nat n * (s * c)) LATTICE_LIMIT) as [K|K]; [|rewrite int_sym_loop_over by lia; reflexivity].
  destruct (int_sym_loop n seg start s c (s * c)) as [[acc st]|] eqn:R; [|reflexivity].
  pose proof (int_sym_loop_next n seg start s c _ ltac:(lia) ltac:(lia) ltac:(lia) K R) as E. cbn [snd] in E.
  assert (s * c <= Z.of_nat n * (s * c)) by nia. rewrite add_ok by (unfold INT_MAX; lia).
  rewrite IH; [reflexivity|lia|intros a b I; apply H; right; exact I|lia|fold r; lia].
Qed.
Lemma int_lattice_over sym pan : (forall s c, In (s, c) pan -> 1 <= s <= INT_MAX /\ 1 <= c <= INT_MAX) -> LATTICE_LIMIT < made sym 0 pan -> int_lattice sym pan = None.
Proof. intros H L. apply int_seg_loop_over; [unfold LATTICE_LIMIT; lia|exact H|lia|lia]. Qed.

(** ** The other functions *)
Lemma singles_ok l : (forall x, In x l -> x <> None) -> exists r, in_turn (map single l) = Some r /\ forall y : arr * Z, In y r <-> In (Some y) l.
Proof.
  induction l as [|x l IH]; intros H; [exists []; split; [reflexivity|intros y; split; intros []]|].
  destruct IH as (r & E & R); [intros y I; apply H; right; exact I|]. destruct x as [x|]; [|exfalso; apply (H None); [left; reflexivity|reflexivity]].
  exists (x :: r). cbn [map single in_turn]. rewrite E. split; [reflexivity|]. intros y. cbn [In]. rewrite R. split; intros [I|I]; auto; left; congruence.
Qed.
Lemma over_ok {A} n (f : Z -> option (list A)) (Q : A -> Prop) : 0 <= n <= INT_MAX -> (forall i, 0 <= i < n -> exists r, f i = Some r /\ Forall Q r) ->
  exists l, over_counters n f = Some l /\ Forall Q l.
Proof.
  intros N F. unfold over_counters, counters. replace (n <=? INT_MAX) with true by (symmetry; apply Z.leb_le; lia).
  destruct (in_turn (map f (py_range 0 n))) as [l|] eqn:E.
  - exists l. split; [reflexivity|]. apply Forall_forall. intros x I. destruct (in_turn_some _ _ E x I) as (y & I1 & I2). apply in_map_iff in I1. destruct I1 as (i & E1 & I1).
    apply in_py_range in I1. destruct (F i I1) as (r & R & Q1). rewrite E1 in R. injection R as <-. rewrite Forall_forall in Q1. apply Q1. exact I2.
  - exfalso. revert E. apply in_turn_defined. intros I. apply in_map_iff in I. destruct I as (i & E1 & I1). apply in_py_range in I1. destruct (F i I1) as (r & R & _). congruence.
Qed.
Lemma over_none {A} n (f : Z -> option (list A)) i : 0 <= i < n -> f i = None -> over_counters n f = None.
Proof.
  intros I E. unfold over_counters. unfold counters. destruct (n <=? INT_MAX); [|reflexivity]. apply in_turn_none. apply in_map_iff. exists i. split; [exact E|apply in_py_range; exact I].
Qed.
Lemma index_i_ok' i : 0 <= i < BOUNDARY_LIMIT -> index_i i = Some (3 * i).
Proof. unfold BOUNDARY_LIMIT. intro I. unfold index_i. evs. f_equal. lia. Qed.
Lemma int_boundary_ok n : 0 <= n <= BOUNDARY_LIMIT -> exists l, int_boundary n = Some l /\ Forall (fun x => of_panels n (fst x) (snd x)) l.
Proof.
  intros N. unfold int_boundary. apply over_ok; [unfold INT_MAX, BOUNDARY_LIMIT in *; lia|]. intros i I.
  assert (CO : forall x, In x (boundary_reads i) -> exists a k, x = Some (a, k) /\ cell_of i a k).
  { intros x H. unfold boundary_reads in H. rewrite index_i_ok' in H by lia. rewrite in_app_iff in H.
    destruct H as [H|H]; (apply coords_ok in H; [destruct H as (d & D & ->)|unfold INT_MAX, BOUNDARY_LIMIT in *; lia]); eexists _, _; (split; [reflexivity|]); unfold cell_of, row_width; lia. }
  destruct (singles_ok (boundary_reads i)) as (r & E & R); [intros x X; destruct (CO x X) as (a & k & -> & _); discriminate|].
  exists r. split; [exact E|]. apply Forall_forall. intros x X. apply R in X. destruct (CO _ X) as (a & k & E1 & C). injection E1 as ->. exists i. split; [exact I|exact C].
Qed.
Lemma int_boundary_over n : BOUNDARY_LIMIT < n -> int_boundary n = None.
Proof.
  intros N. unfold int_boundary. apply (over_none n _ BOUNDARY_LIMIT); [unfold BOUNDARY_LIMIT in *; lia|]. apply in_turn_none. apply in_map_iff. exists None. split; [reflexivity|].
  vm_compute. tauto.
Qed.
Lemma two_ok n f : 0 <= n <= LATTICE_LIMIT -> (forall i j, 0 <= i < LATTICE_LIMIT -> 0 <= j < LATTICE_LIMIT -> cells_of_two i j (f i j)) ->
  exists l, over_counters n (fun i => over_counters n (fun j => in_turn (map single (f i j)))) = Some l /\ Forall (fun x => of_panels n (fst x) (snd x)) l.
Proof.
  intros N F. assert (M : 0 <= n <= INT_MAX) by (unfold INT_MAX, LATTICE_LIMIT in *; lia). apply over_ok; [exact M|]. intros i I. apply over_ok; [exact M|]. intros j J.
  specialize (F i j ltac:(lia) ltac:(lia)). destruct (singles_ok (f i j)) as (r & E & R); [intros x X; destruct (F x X) as (a & k & -> & _); discriminate|].
  exists r. split; [exact E|]. apply Forall_forall. intros x X. apply R in X. destruct (F _ X) as (a & k & E1 & C). injection E1 as ->.
  destruct C as [C|C]; [exists i|exists j]; (split; [assumption|exact C]).
Qed.
Lemma legs_over : In None (flat_map (fun k => coords AV (index_leg LATTICE_LIMIT k) ++ coords AV (index_leg2 LATTICE_LIMIT k)) [0; 1; 2]).
Proof. vm_compute. tauto. Qed.
Lemma two_over n f : LATTICE_LIMIT < n -> (forall i, In None (f i LATTICE_LIMIT)) ->
  over_counters n (fun i => over_counters n (fun j => in_turn (map single (f i j : list (option (arr * Z)))))) = None.
Proof.
  intros N F. assert (0 <= LATTICE_LIMIT) by (unfold LATTICE_LIMIT; lia). apply (over_none n _ 0); [lia|]. apply (over_none n _ LATTICE_LIMIT); [lia|].
  apply in_turn_none. apply in_map_iff. exists None. split; [reflexivity|apply F].
Qed.
Lemma int_runs_ok n : 0 <= n <= LATTICE_LIMIT ->
  (exists l, int_downwash n = Some l /\ Forall (fun x => of_panels n (fst x) (snd x)) l) /\
  (exists l, int_results n = Some l /\ Forall (fun x => of_panels n (fst x) (snd x)) l).
Proof. intros N. split; (apply two_ok; [exact N|]); [exact downwash_reads_ok|exact results_reads_ok]. Qed.
Lemma int_runs_over n : LATTICE_LIMIT < n -> int_downwash n = None /\ int_results n = None.
Proof.
  intros N. split; apply two_over; try exact N; intros i.
  - unfold downwash_reads. rewrite !in_app_iff. right. right. exact legs_over.
  - unfold results_reads. rewrite !in_app_iff. do 5 right. exact legs_over.
Qed.
