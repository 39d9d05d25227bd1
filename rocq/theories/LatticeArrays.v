(** Proofs about the array accesses of the compiled lattice generator (C10). *)
From Coq Require Import List String ZArith Bool Permutation Lia Arith.
From Verif Require Import PyBase StripModel AircraftModel LatticeModel LatticeSpec LatticeProofs.
Import ListNotations.
Open Scope Z_scope.
Local Arguments Z.mul : simpl never.
Local Arguments Z.add : simpl never.
Local Arguments Z.sub : simpl never.

Lemma py_range_In lo hi i : In i (py_range lo hi) <-> lo <= i < hi.
Proof.
  unfold py_range. rewrite in_map_iff. split.
  - intros (k & <- & I). apply in_seq in I. lia.
  - intro H. exists (Z.to_nat (i - lo)). split; [lia|]. apply in_seq. lia.
Qed.

Lemma py_range_NoDup lo hi : NoDup (py_range lo hi).
Proof.
  unfold py_range. apply FinFun.Injective_map_NoDup; [|apply seq_NoDup]. intros x y H. lia.
Qed.

Lemma py_range_nil lo hi : hi <= lo -> py_range lo hi = [].
Proof. intro H. unfold py_range. replace (Z.to_nat (hi - lo)) with 0%nat by lia. reflexivity. Qed.

Lemma py_range_app lo mid hi : lo <= mid <= hi -> py_range lo mid ++ py_range mid hi = py_range lo hi.
Proof.
  intro H. unfold py_range.
  replace (Z.to_nat (hi - lo)) with (Z.to_nat (mid - lo) + Z.to_nat (hi - mid))%nat by lia.
  rewrite seq_app, map_app. f_equal. simpl.
  remember (Z.to_nat (hi - mid)) as n eqn:E. clear E.
  assert (G : forall k, map (fun i => mid + Z.of_nat i) (seq k n) =
              map (fun i => lo + Z.of_nat i) (seq (Z.to_nat (mid - lo) + k) n)).
  { induction n as [|n IH]; intro k; simpl; [reflexivity|]. f_equal; [lia|].
    rewrite IH. f_equal. f_equal. lia. }
  rewrite (G 0%nat). rewrite Nat.add_0_r. reflexivity.
Qed.

Lemma py_range_cons lo hi : lo < hi -> py_range lo hi = lo :: py_range (lo + 1) hi.
Proof.
  intro H. rewrite <- (py_range_app lo (lo + 1) hi) by lia. f_equal.
  unfold py_range. replace (Z.to_nat (lo + 1 - lo)) with 1%nat by lia. simpl. f_equal. lia.
Qed.

Lemma perm_each l lo hi : NoDup l -> (forall i, In i l <-> lo <= i < hi) -> Permutation l (py_range lo hi).
Proof.
  intros N I. apply NoDup_Permutation; [exact N|apply py_range_NoDup|].
  intro i. rewrite I. symmetry. apply py_range_In.
Qed.

Lemma each_of_perm l n : Permutation l (py_range 0 n) -> each_once n l.
Proof.
  intro P. split.
  - apply (Permutation_NoDup (Permutation_sym P)). apply py_range_NoDup.
  - intro i. rewrite <- (py_range_In 0 n i). split; apply Permutation_in; [|apply Permutation_sym]; exact P.
Qed.

Lemma writes_app a l l' : writes a (l ++ l') = writes a l ++ writes a l'.
Proof. unfold writes. apply flat_map_app. Qed.

Lemma writes_flat_map {X} a (f : X -> list access) l :
  writes a (flat_map f l) = flat_map (fun x => writes a (f x)) l.
Proof. induction l; simpl; [reflexivity|]. rewrite writes_app, IHl. reflexivity. Qed.

Ltac nodup := repeat (constructor; [simpl; lia|]); constructor.

Lemma panel_writes a sp ip : is_output a ->
  Permutation (writes a (panel_accesses sp ip)) (py_range (width a * (sp + ip)) (width a * (sp + ip + 1))).
Proof.
  intro O. apply perm_each; destruct a; try contradiction O; clear O;
    unfold writes, panel_accesses, three, NUM_P, NUM_V, NUM_COORD; cbn [flat_map app arr_eqb width];
    generalize (sp + ip); intro p.
  1-6: nodup.
  all: intro i; simpl; lia.
Qed.

Definition pan_idx_list (s c : Z) : list Z :=
  flat_map (fun i => map (fun j => j * c + i) (py_range 0 s)) (py_range 0 c).

Lemma panel_loop_flat sp s c : panel_loop sp s c = flat_map (panel_accesses sp) (pan_idx_list s c).
Proof.
  unfold panel_loop, pan_idx_list. induction (py_range 0 c) as [|i l IH]; simpl; [reflexivity|].
  rewrite flat_map_app, IH. f_equal. clear.
  induction (py_range 0 s) as [|j l IH]; simpl; [reflexivity|]. rewrite IH. reflexivity.
Qed.

Lemma NoDup_app' {A} (l l' : list A) : NoDup l -> NoDup l' -> (forall x, In x l -> ~ In x l') -> NoDup (l ++ l').
Proof.
  induction l as [|x l IH]; simpl; intros N N' D; [exact N'|].
  inversion N; subst. constructor.
  - rewrite in_app_iff. intros [C|C]; [contradiction|]. apply (D x); auto.
  - apply IH; auto.
Qed.

Lemma pan_idx_perm s c : 1 <= s -> 1 <= c -> Permutation (pan_idx_list s c) (py_range 0 (s * c)).
Proof.
  intros Hs Hc. apply perm_each.
  - unfold pan_idx_list. assert (G : forall l, NoDup l -> (forall i, In i l -> 0 <= i < c) ->
      NoDup (flat_map (fun i => map (fun j => j * c + i) (py_range 0 s)) l)).
    { induction l as [|i l IH]; simpl; intros N R; [constructor|]. inversion N; subst.
      apply NoDup_app'.
      - apply FinFun.Injective_map_NoDup; [|apply py_range_NoDup]. intros x y E. nia.
      - apply IH; auto.
      - intros x Ix Iy. apply in_map_iff in Ix. destruct Ix as (j & <- & _).
        apply in_flat_map in Iy. destruct Iy as (i' & Ii' & Iy). apply in_map_iff in Iy.
        destruct Iy as (j' & E & _).
        assert (i = i'); [|subst; contradiction].
        pose proof (R i (or_introl eq_refl)). pose proof (R i' (or_intror Ii')).
        assert (j' = j) by nia. nia. }
    apply G; [apply py_range_NoDup|]. intros i I. apply py_range_In in I. exact I.
  - intro k. unfold pan_idx_list. rewrite in_flat_map. split.
    + intros (i & Ii & Ik). apply in_map_iff in Ik. destruct Ik as (j & <- & Ij).
      apply py_range_In in Ii, Ij. nia.
    + intro H. exists (k mod c). pose proof (Z.mod_pos_bound k c ltac:(lia)).
      pose proof (Z.div_mod k c ltac:(lia)). split; [apply py_range_In; lia|].
      apply in_map_iff. exists (k / c). split; [lia|]. apply py_range_In.
      split; [apply Z.div_pos; lia|]. apply Z.div_lt_upper_bound; lia.
Qed.

Lemma Permutation_flat_map_ext {A B} (f g : A -> list B) l :
  (forall x, Permutation (f x) (g x)) -> Permutation (flat_map f l) (flat_map g l).
Proof. intro H. induction l; simpl; [reflexivity|]. apply Permutation_app; auto. Qed.

Lemma blocks_range w lo hi : 0 <= w -> lo <= hi ->
  flat_map (fun p => py_range (w * p) (w * (p + 1))) (py_range lo hi) = py_range (w * lo) (w * hi).
Proof.
  intros W H. remember (Z.to_nat (hi - lo)) as n eqn:E. revert lo H E.
  induction n as [|n IH]; intros lo H E.
  - assert (hi = lo) by lia. subst. rewrite !py_range_nil by lia. reflexivity.
  - rewrite (py_range_cons lo hi) by lia. simpl. rewrite IH by lia. apply py_range_app. nia.
Qed.

Lemma width_nonneg a : 0 <= width a.
Proof. destruct a; simpl; lia. Qed.

Lemma panel_loop_writes a sp s c : is_output a -> 1 <= s -> 1 <= c ->
  Permutation (writes a (panel_loop sp s c)) (py_range (width a * sp) (width a * (sp + s * c))).
Proof.
  intros O Hs Hc. rewrite panel_loop_flat, writes_flat_map.
  rewrite (Permutation_flat_map _ (pan_idx_perm s c Hs Hc)).
  rewrite (Permutation_flat_map_ext _ (fun p => py_range (width a * (sp + p)) (width a * (sp + p + 1)))).
  2:{ intro x. apply panel_writes. exact O. }
  assert (E : forall n, flat_map (fun p => py_range (width a * (sp + p)) (width a * (sp + p + 1))) (py_range 0 n)
              = flat_map (fun p => py_range (width a * p) (width a * (p + 1))) (py_range sp (sp + n))).
  { intro n. unfold py_range at 2 4. rewrite !flat_map_concat_map, !map_map. f_equal.
    replace (Z.to_nat (sp + n - sp)) with (Z.to_nat (n - 0)) by lia.
    apply map_ext. intro i. f_equal; f_equal; lia. }
  rewrite E. rewrite blocks_range; [reflexivity|apply width_nonneg|nia].
Qed.

Lemma in_bounds_panel size sp ip : 0 <= sp + ip ->
  (forall a, is_output a -> width a * (sp + ip + 1) <= size a) ->
  Forall (in_bounds size) (panel_accesses sp ip).
Proof.
  intros H S. unfold panel_accesses, three, NUM_P, NUM_V, NUM_COORD. cbn [app].
  pose proof (S AP I). pose proof (S AV I). pose proof (S AC I). pose proof (S ABLM I).
  pose proof (S AN I). pose proof (S AA I). simpl width in *.
  repeat (constructor; [unfold in_bounds; lia|]). constructor.
Qed.

(** One subarea without mirroring in C. *)
Definition sub_accesses (k sp s c : Z) : list access :=
  [Rd APan (k * 2); Rd APan (k * 2 + 1); Rd ASym k] ++ (vertex_reads k ++ panel_loop sp s c ++ []).

Lemma vertex_no_writes a k : writes a (vertex_reads k) = [].
Proof. reflexivity. Qed.

Lemma sub_writes a k sp s c : is_output a -> 1 <= s -> 1 <= c ->
  Permutation (writes a (sub_accesses k sp s c)) (py_range (width a * sp) (width a * (sp + s * c))).
Proof.
  intros O Hs Hc. unfold sub_accesses. rewrite !writes_app, vertex_no_writes. simpl. rewrite app_nil_r.
  apply panel_loop_writes; assumption.
Qed.

Definition pan_ok (pan : list (Z * Z)) : Prop := forall s c, In (s, c) pan -> 1 <= s /\ 1 <= c.
Definition pan_total (pan : list (Z * Z)) : Z := zsum (map (fun p => fst p * snd p) pan).

Lemma pan_total_nonneg pan : pan_ok pan -> Z.of_nat (List.length pan) <= pan_total pan.
Proof.
  unfold pan_total. induction pan as [|[s c] pan IH]; intro H; [simpl; lia|].
  assert (P : pan_ok pan) by (intros s' c' I; apply H; right; exact I).
  specialize (IH P). destruct (H s c (or_introl eq_refl)).
  cbn [List.length map zsum fold_right fst snd]. unfold zsum in IH. nia.
Qed.

Lemma seg_loop_unfold k sp sym s c pan : sym k <= 0 ->
  seg_loop k sp sym ((s, c) :: pan) = sub_accesses k sp s c :: seg_loop (k + 1) (sp + s * c) sym pan.
Proof.
  intro H. simpl. destruct (Z.ltb_spec 0 (sym k)); [lia|]. reflexivity.
Qed.

Lemma seg_loop_nth sym pan : forall k sp j acc,
  (forall i, k <= i < k + Z.of_nat (List.length pan) -> sym i <= 0) ->
  nth_error (seg_loop k sp sym pan) j = Some acc ->
  exists s c, nth_error pan j = Some (s, c) /\
    acc = sub_accesses (k + Z.of_nat j) (sp + pan_total (firstn j pan)) s c.
Proof.
  induction pan as [|[s c] pan IH]; intros k sp j acc HS N.
  - destruct j; discriminate.
  - rewrite seg_loop_unfold in N by (apply HS; simpl List.length; lia).
    destruct j as [|j]; simpl in N.
    + injection N as <-. exists s, c. split; [reflexivity|]. simpl. f_equal; unfold pan_total; simpl; lia.
    + destruct (IH (k + 1) (sp + s * c) j acc) as (s' & c' & N' & ->).
      * intros i R. apply HS. simpl List.length. lia.
      * exact N.
      * exists s', c'. split; [exact N'|]. f_equal; [lia|]. unfold pan_total. simpl. lia.
Qed.

Lemma seg_loop_writes sym a pan : is_output a -> forall k sp, pan_ok pan ->
  (forall i, k <= i < k + Z.of_nat (List.length pan) -> sym i <= 0) ->
  Permutation (writes a (List.concat (seg_loop k sp sym pan))) (py_range (width a * sp) (width a * (sp + pan_total pan))).
Proof.
  intro O. induction pan as [|[s c] pan IH]; intros k sp P HS.
  - simpl. unfold pan_total. simpl. rewrite py_range_nil by lia. reflexivity.
  - rewrite seg_loop_unfold by (apply HS; simpl List.length; lia). cbn [List.concat]. rewrite writes_app.
    assert (P' : pan_ok pan) by (intros s' c' I; apply P; right; exact I).
    destruct (P s c (or_introl eq_refl)) as [Hs Hc].
    pose proof (pan_total_nonneg pan P'). pose proof (width_nonneg a).
    rewrite sub_writes by assumption. rewrite IH; [|exact P'|intros i R; apply HS; simpl List.length; lia].
    replace (pan_total ((s, c) :: pan)) with (s * c + pan_total pan) by (unfold pan_total; simpl; lia).
    rewrite py_range_app by nia. rewrite Z.add_assoc. reflexivity.
Qed.

Lemma seg_loop_length sym pan : forall k sp, List.length (seg_loop k sp sym pan) = List.length pan.
Proof.
  induction pan as [|[s c] pan IH]; intros k sp; simpl; [reflexivity|].
  destruct (sym_loop _ _ _ _ _) as [acc sp']. simpl. rewrite IH. reflexivity.
Qed.

Lemma seg_loop_bounds sym n num_p pan : forall k sp, pan_ok pan -> 0 <= k -> 0 <= sp ->
  (forall i, k <= i < k + Z.of_nat (List.length pan) -> sym i <= 0) ->
  k + Z.of_nat (List.length pan) = n -> n <= num_p -> sp + pan_total pan <= num_p ->
  Forall (in_bounds (array_size n num_p)) (List.concat (seg_loop k sp sym pan)).
Proof.
  induction pan as [|[s c] pan IH]; intros k sp P Hk Hsp HS Hn Hp Hsum.
  - constructor.
  - rewrite seg_loop_unfold by (apply HS; simpl List.length; lia). cbn [List.concat]. apply Forall_app.
    assert (P' : pan_ok pan) by (intros s' c' I; apply P; right; exact I).
    destruct (P s c (or_introl eq_refl)) as [Hs Hc].
    pose proof (pan_total_nonneg pan P').
    replace (pan_total ((s, c) :: pan)) with (s * c + pan_total pan) in Hsum by (unfold pan_total; simpl; lia).
    simpl List.length in Hn. split.
    + unfold sub_accesses, vertex_reads, three, NUM_P, NUM_COORD. cbn [flat_map app].
      do 15 (constructor; [simpl; lia|]). rewrite app_nil_r, panel_loop_flat.
      apply Forall_forall. intros x I. apply in_flat_map in I. destruct I as (ip & Iip & I).
      apply (Permutation_in _ (pan_idx_perm s c Hs Hc)) in Iip. apply py_range_In in Iip.
      revert x I. apply Forall_forall. apply in_bounds_panel; [lia|].
      intros a O. destruct a; try contradiction O; simpl; lia.
    + apply IH; try assumption; try nia. intros i R. apply HS. simpl List.length. lia.
Qed.

(** The inputs that a subarea reads are its own. *)
Lemma panel_loop_inputs sp s c a i : In (Rd a i) (panel_loop sp s c) -> a <> APts /\ a <> APan /\ a <> ASym.
Proof.
  rewrite panel_loop_flat. intro I. apply in_flat_map in I as (ip & _ & I). unfold panel_accesses, three in I. cbn [app In] in I.
  repeat destruct I as [I|I]; try discriminate; try contradiction; injection I as <- _; repeat split; discriminate.
Qed.
Theorem own_inputs sym pan : (forall i, 0 <= i < Z.of_nat (List.length pan) -> sym i <= 0) ->
  forall j acc, nth_error (vlm_lattice_accesses sym pan) j = Some acc -> forall i,
  (In (Rd APts i) acc <-> 12 * Z.of_nat j <= i < 12 * (Z.of_nat j + 1)) /\
  (In (Rd APan i) acc <-> 2 * Z.of_nat j <= i < 2 * (Z.of_nat j + 1)) /\
  (In (Rd ASym i) acc <-> i = Z.of_nat j).
Proof.
  intros S j acc N i. unfold vlm_lattice_accesses in N. apply seg_loop_nth in N as (s & c & _ & ->); [|intros; apply S; lia].
  unfold sub_accesses. rewrite app_nil_r. cbn [Z.add]. set (k := Z.of_nat j).
  assert (P := panel_loop_inputs (pan_total (firstn j pan)) s c).
  assert (X : forall a, (a = APts \/ a = APan \/ a = ASym) -> ~ In (Rd a i) (panel_loop (0 + pan_total (firstn j pan)) s c)).
  { intros a A I. destruct (P _ _ I) as (N1 & N2 & N3). destruct A as [->|[->| ->]]; congruence. }
  rewrite !in_app_iff. unfold vertex_reads, three, NUM_P, NUM_COORD. cbn [flat_map app In].
  assert (EQ : forall a b x y, Rd a x = Rd b y <-> a = b /\ x = y) by (intros; split; [intro H; injection H; auto|intros [-> ->]; reflexivity]).
  assert (XP := X APts ltac:(auto)). assert (XN := X APan ltac:(auto)). assert (XS := X ASym ltac:(auto)). clear X P. cbn [Z.add] in *.
  rewrite !EQ. split; [split|split; split].
  - intro H. repeat destruct H as [H|H]; try contradiction; try (destruct H as [H E]; try discriminate H; lia).
  - intro H. right. left. assert (D : i = 12*k \/ i = 12*k+1 \/ i = 12*k+2 \/ i = 12*k+3 \/ i = 12*k+4 \/ i = 12*k+5 \/ i = 12*k+6 \/ i = 12*k+7 \/ i = 12*k+8 \/ i = 12*k+9 \/ i = 12*k+10 \/ i = 12*k+11) by lia.
    repeat destruct D as [D|D]; subst i; repeat first [left; split; [reflexivity|lia] | right].
  - intro H. repeat destruct H as [H|H]; try contradiction; try (destruct H as [H E]; try discriminate H; lia).
  - intro H. left. assert (D : i = k * 2 \/ i = k * 2 + 1) by lia. destruct D; subst i; auto.
  - intro H. repeat destruct H as [H|H]; try contradiction; try (destruct H as [H E]; try discriminate H; lia).
  - intros ->. left. auto.
Qed.

(** ** The call made by [gen_lattice] *)

Lemma consecutive_firstn es : forall p q j e, consecutive p es q ->
  (forall e, In e es -> e_hi e = e_lo e + e_num_c e) ->
  nth_error es j = Some e -> e_lo e = p + zsum (map e_num_c (firstn j es)).
Proof.
  induction es as [|x es IH]; intros p q j e C H N; [destruct j; discriminate|].
  destruct C as (A & B & C). destruct j as [|j]; simpl in *.
  - injection N as <-. lia.
  - rewrite (IH _ _ _ _ C (fun e I => H e (or_intror I)) N).
    rewrite (H x (or_introl eq_refl)). unfold zsum. lia.
Qed.

Lemma array_panels_total es : pan_total (map (fun e => (1, e_num_c e)) es) = zsum (map e_num_c es).
Proof. unfold pan_total, zsum. induction es as [|e es IH]; cbn [map fold_right fst snd]; lia. Qed.

Lemma gen_lattice_arrays st vs : st_inv st vs ->
  let accs := gen_lattice_accesses st in
  let size := array_size (c_subareas st) (c_p st) in
  List.length accs = List.length (bk_list (c_book st)) /\
  Forall (in_bounds size) (List.concat accs) /\
  (forall a, is_output a -> each_once (size a) (writes a (List.concat accs))) /\
  (forall j e acc, nth_error (bk_list (c_book st)) j = Some e -> nth_error accs j = Some acc ->
     forall a, is_output a ->
       forall i, In i (writes a acc) <-> width a * e_lo e <= i < width a * e_hi e).
Proof.
  intros (I1 & I2 & I3 & I4 & I5 & I6 & I7). cbv zeta.
  unfold gen_lattice_accesses, vlm_lattice_accesses, array_panels.
  set (pan := map (fun e => (1, e_num_c e)) (bk_list (c_book st))).
  assert (P : pan_ok pan).
  { intros s c I. apply in_map_iff in I. destruct I as (e & E & I). injection E as <- <-.
    destruct (I5 e I) as (_ & N1 & _). lia. }
  assert (T : pan_total pan = c_p st) by (unfold pan; rewrite array_panels_total; lia).
  assert (L : List.length pan = List.length (bk_list (c_book st))) by (unfold pan; apply map_length).
  pose proof (pan_total_nonneg pan P) as TN.
  assert (HS : forall i, 0 <= i < 0 + Z.of_nat (List.length pan) -> (fun _ : Z => 0) i <= 0) by (intros; lia).
  split; [rewrite seg_loop_length; exact L|]. split; [|split].
  - apply seg_loop_bounds; auto; lia.
  - intros a O. apply each_of_perm.
    rewrite (seg_loop_writes (fun _ => 0) a pan O 0 0 P HS).
    replace (width a * 0) with 0 by lia.
    replace (width a * (0 + pan_total pan)) with (array_size (c_subareas st) (c_p st) a); [reflexivity|].
    destruct a; try contradiction O; simpl; lia.
  - intros j e acc Ne Na a O i.
    apply seg_loop_nth in Na; [|exact HS]. destruct Na as (s & c & Np & ->).
    unfold pan in Np. rewrite nth_error_map, Ne in Np. injection Np as <- <-.
    pose proof (nth_error_In _ _ Ne) as Ie. destruct (I5 e Ie) as (Hh & N1 & _).
    assert (Elo : e_lo e = 0 + pan_total (firstn j pan)).
    { unfold pan. rewrite firstn_map, array_panels_total.
      apply (consecutive_firstn _ 0 (c_p st) j e I1); [|exact Ne]. intros e' I'. apply I5. exact I'. }
    rewrite <- Elo, Hh. rewrite <- py_range_In. replace (e_num_c e) with (1 * e_num_c e) at 2 by lia.
    assert (PW := sub_writes a (0 + Z.of_nat j) (e_lo e) 1 (e_num_c e) O ltac:(lia) N1).
    split; intro H; [eapply Permutation_in; [exact PW|exact H]|
      eapply Permutation_in; [apply Permutation_sym; exact PW|exact H]].
Qed.

(** The general form: any numbers of panels, no mirroring requested. *)
Lemma lattice_arrays sym pan : pan_ok pan ->
  (forall i, 0 <= i < Z.of_nat (List.length pan) -> sym i <= 0) ->
  let accs := vlm_lattice_accesses sym pan in
  let size := array_size (Z.of_nat (List.length pan)) (pan_total pan) in
  Forall (in_bounds size) (List.concat accs) /\
  (forall a, is_output a -> each_once (size a) (writes a (List.concat accs))) /\
  (forall j s c acc, nth_error pan j = Some (s, c) -> nth_error accs j = Some acc ->
     forall a, is_output a ->
       let start := pan_total (firstn j pan) in
       forall i, In i (writes a acc) <-> width a * start <= i < width a * (start + s * c)).
Proof.
  intros P HS. cbv zeta. pose proof (pan_total_nonneg pan P) as TN.
  split; [|split].
  - apply seg_loop_bounds; auto; lia.
  - intros a O. apply each_of_perm.
    rewrite (seg_loop_writes sym a pan O 0 0 P HS).
    replace (width a * 0) with 0 by lia.
    replace (width a * (0 + pan_total pan)) with (array_size (Z.of_nat (List.length pan)) (pan_total pan) a); [reflexivity|].
    destruct a; try contradiction O; simpl; lia.
  - intros j s c acc Np Na a O i.
    apply seg_loop_nth in Na; [|exact HS]. destruct Na as (s' & c' & Np' & ->).
    assert (s' = s /\ c' = c) as [-> ->] by (split; congruence).
    destruct (P s c (nth_error_In _ _ Np)) as [Hs Hc].
    rewrite <- py_range_In.
    assert (PW := sub_writes a (0 + Z.of_nat j) (0 + pan_total (firstn j pan)) s c O Hs Hc).
    simpl in PW |- *.
    split; intro H; [eapply Permutation_in; [exact PW|exact H]|
      eapply Permutation_in; [apply Permutation_sym; exact PW|exact H]].
Qed.
