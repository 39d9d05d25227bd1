(** Spanwise division lines added by [pre_panelling]. *)
From Coq Require Import List String ZArith QArith Bool Lia Lqa Qfield.
From Verif Require Import PyBase PyFacts StripModel StripSpec StripSpan StripChord StripControl AircraftModel WingModel
  PrePanelModel PrePanelSpec.
Import ListNotations.
Open Scope Q_scope.

Section Lines.
Variable ip : Q * Q -> Q * Q -> Q -> res Q.

Lemma tiles_subdiv seg a d ig : tiles_span seg -> tiles_span (fst (add_subdivision ip seg a d ig)).
Proof. exact (tiles_step ip seg (OpSubdiv a d ig)). Qed.

Lemma subdiv_near seg a : tiles_span seg -> 0 < a -> a < 1 ->
  exists y, line_at (fst (add_subdivision ip seg a a true)) y /\ y <= a /\ a < y + (1 # 100).
Proof.
  intros T A0 A1. pose proof T as (T1 & T2). destruct (T2 a ltac:(lra) A1) as (i & sp & N & (C1 & C2) & _).
  destruct (Qlt_le_dec a (eta_a sp + (1 # 100))) as [L|L].
  - assert (LA : line_at seg (eta_a sp)) by (exists sp; split; [exact (nth_error_In _ _ N)|reflexivity]).
    exists (eta_a sp). rewrite (add_subdivision_snaps ip seg a a true (eta_a sp) T LA C1 L). auto.
  - exists a. split; [|lra]. apply creates_line; [exact T|exact A0|exact A1|]. intros y (t & It & Et) Y.
    destruct (Qlt_le_dec (eta_a sp) y) as [B|B]; [|lra]. exfalso.
    destruct (In_nth_error _ _ It) as (j & Nj). destruct (T1 t It) as (T1a & T1b & _).
    assert (Y1 : y < 1) by lra. destruct (T2 y ltac:(lra) Y1) as (i0 & s0 & _ & _ & U).
    assert (J : j = i) by (rewrite (U j t Nj), (U i sp N); [reflexivity| |]; unfold covers; lra).
    subst j. rewrite N in Nj. injection Nj as <-. lra.
Qed.

Lemma frame_lines seg a d ig y : line_at seg y -> line_at (fst (add_subdivision ip seg a d ig)) y.
Proof.
  destruct (add_subdivision ip seg a d ig) as [seg' r] eqn:E. cbn [fst]. destruct (add_subdivision_frame ip seg a d ig seg' r E) as (F & _).
  intros (s & I & Q). destruct (In_nth_error _ _ I) as (i & N). destruct (F i s N) as (s' & N' & Q'). exists s'. split; [exact (nth_error_In _ _ N')|rewrite Q'; exact Q].
Qed.

Lemma add_lines_near etas : forall seg seg', tiles_span seg -> add_lines ip seg etas = (seg', Ok tt) ->
  (forall e, In e etas -> 0 < e -> e < 1 -> exists y, line_at seg' y /\ y <= e /\ e < y + (1 # 100)) /\
  (forall y, line_at seg y -> line_at seg' y) /\
  (forall y, line_at seg' y -> line_at seg y \/ exists e, In e etas /\ y == e).
Proof.
  induction etas as [|e etas IH]; intros seg seg' T; cbn [add_lines].
  - intros [= <-]. split; [intros e []|]. split; auto.
  - destruct (Qeqb e 0 || Qeqb e 1)%bool eqn:B.
    + intro H. destruct (IH seg seg' T H) as (A1 & A2 & A3). split; [|split].
      * intros x [<-|I] P0 P1; [|exact (A1 x I P0 P1)]. apply orb_true_iff in B. destruct B as [B|B]; apply Qeqb_true in B; exfalso; lra.
      * exact A2.
      * intros y L. destruct (A3 y L) as [|(x & I & E)]; [left; assumption|right; exists x; split; [right|]; assumption].
    + destruct (add_subdivision ip seg e e true) as [seg1 o] eqn:E. destruct o as [o|]; [|discriminate]. intro H.
      pose proof (tiles_subdiv seg e e true T) as T'. pose proof (fun A0 A1 => subdiv_near seg e T A0 A1) as SN.
      pose proof (fun y => frame_lines seg e e true y) as FL. rewrite E in T', SN, FL. cbn [fst] in T', SN, FL.
      destruct (IH seg1 seg' T' H) as (A1 & A2 & A3). split; [|split].
      * intros x [<-|I] P0 P1; [|exact (A1 x I P0 P1)]. destruct (SN P0 P1) as (y & L & Y). exists y. split; [exact (A2 y L)|exact Y].
      * auto.
      * intros y L. destruct (A3 y L) as [L1|(x & I & Ex)]; [|right; exists x; split; [right|]; assumption].
        destruct (add_subdivision_frame ip seg e e true seg1 (Ok o) E) as (_ & F & _).
        destruct (F y L1) as [|F1]; [left; assumption|right; exists e; split; [left; reflexivity|exact F1]].
Qed.

(** ** Number of lines *)

Lemma linspace_In n : (1 <= n)%Z -> exists etas, linspace_etas n = Ok etas /\
  (forall e, In e etas <-> exists i, (0 <= i <= n)%Z /\ e = inject_Z i / inject_Z n).
Proof.
  intro N. unfold linspace_etas. replace (n + 1 <? 0)%Z with false by (symmetry; apply Z.ltb_ge; lia).
  replace (n =? 0)%Z with false by (symmetry; apply Z.eqb_neq; lia). eexists. split; [reflexivity|]. intro e. rewrite in_map_iff. split.
  - intros (i & <- & I). apply in_seq in I. exists (Z.of_nat i). split; [lia|reflexivity].
  - intros (i & B & ->). exists (Z.to_nat i). split; [rewrite Z2Nat.id by lia; reflexivity|]. apply in_seq. lia.
Qed.

Variable n : Z.
Hypothesis N1 : (1 <= n)%Z.
Hypothesis N100 : (n <= 100)%Z.

Let e (i : nat) : Q := inject_Z (Z.of_nat i) / inject_Z n.
(** Left border of the i-th strip: the root is the literal 0. *)
Let f (i : nat) : Q := match i with O => 0 | _ => e i end.

Lemma inj_S i : inject_Z (Z.of_nat (S i)) == inject_Z (Z.of_nat i) + 1.
Proof. rewrite Nat2Z.inj_succ. unfold Z.succ. rewrite inject_Z_plus. reflexivity. Qed.
Lemma n_pos : 0 < inject_Z n.
Proof. change 0 with (inject_Z 0). rewrite <- Zlt_Qlt. lia. Qed.
Lemma f_e i : f i == e i.
Proof. destruct i; [|reflexivity]. unfold f, e. cbn. reflexivity. Qed.
Lemma e_S i : e (S i) == e i + 1 / inject_Z n.
Proof. unfold e. rewrite inj_S. pose proof n_pos. field. lra. Qed.
Lemma d_pos : 1 # 100 <= 1 / inject_Z n.
Proof.
  pose proof n_pos. apply Qle_shift_div_l; [exact n_pos|]. assert (inject_Z n <= inject_Z 100) by (rewrite <- Zle_Qle; lia).
  change (inject_Z 100) with 100 in *. lra.
Qed.
Lemma e_le i j : (i <= j)%nat -> e i <= e j.
Proof. induction 1 as [|j L IH]; [lra|]. rewrite e_S. pose proof d_pos. lra. Qed.
Lemma e_lt1 i : (Z.of_nat i < n)%Z -> e i < 1.
Proof. intro L. unfold e. apply Qlt_shift_div_r; [exact n_pos|]. rewrite Qmult_1_l. rewrite <- Zlt_Qlt. exact L. Qed.
Lemma e_0 : e 0 == 0.
Proof. unfold e. cbn. reflexivity. Qed.

Definition plain (a b : Q) : strip := new_strip a b b a.
Definition even (k : nat) : segment := map (fun i => plain (f i) (f (S i))) (seq 0 k) ++ [plain (f k) 1].

Lemma lookup_last i pre s x : (forall t, In t pre -> eta_b t <= x) -> eta_a s <= x -> x < eta_b s ->
  get_subdiv_from i (pre ++ [s]) x = Some ((i + List.length pre)%nat, s, Qeqb x (eta_a s)).
Proof.
  revert i. induction pre as [|t pre IH]; intros i H A B; cbn [app get_subdiv_from].
  - replace (Qleb (eta_a s) x) with true by (symmetry; apply Qleb_true; exact A).
    replace (Qltb x (eta_b s)) with true by (symmetry; apply Qltb_true; exact B). cbn. rewrite Nat.add_0_r. reflexivity.
  - replace (Qltb x (eta_b t)) with false by (symmetry; apply Qltb_false; apply H; left; reflexivity). rewrite andb_false_r.
    rewrite IH; [cbn [List.length]; rewrite Nat.add_succ_r; reflexivity|intros u I; apply H; right; exact I|exact A|exact B].
Qed.

Lemma set_nth_last {A} (l : list A) i x y z : List.length l = i -> set_nth ((l ++ [x]) ++ [y]) i z = (l ++ [z]) ++ [y].
Proof. intros <-. induction l as [|a l IH]; cbn; [reflexivity|]. f_equal. exact IH. Qed.

Lemma nth_last {A} (l : list A) i x y : List.length l = i -> nth_error ((l ++ [x]) ++ [y]) i = Some x.
Proof. intros <-. rewrite <- app_assoc, nth_error_app2, Nat.sub_diag by lia. reflexivity. Qed.

Lemma even_step k : (Z.of_nat (S k) < n)%Z -> exists o, add_subdivision ip (even k) (e (S k)) (e (S k)) true = (even (S k), Ok o).
Proof.
  intro L. pose proof d_pos as D. pose proof (e_lt1 (S k) L) as X1. pose proof (e_S k) as ES. pose proof (f_e k) as FE.
  pose proof (e_le 0 k ltac:(lia)) as E0. rewrite e_0 in E0.
  unfold add_subdivision. replace (Qleb (e (S k)) 0) with false by (symmetry; apply Qleb_false; lra).
  replace (Qleb 1 (e (S k))) with false by (symmetry; apply Qleb_false; lra). cbn [orb]. cbv zeta.
  assert (G : get_subdiv_at_eta (even k) (e (S k)) = Some (k, plain (f k) 1, false)).
  { unfold get_subdiv_at_eta, even. rewrite lookup_last.
    - cbn [plain new_strip eta_a]. rewrite map_length, seq_length. cbn [Nat.add]. f_equal. f_equal. apply Qeqb_false. lra.
    - intros t I. apply in_map_iff in I. destruct I as (i & <- & I). apply in_seq in I. cbn [eta_b plain new_strip f]. apply e_le. lia.
    - cbn. lra.
    - cbn. exact X1. }
  rewrite G. replace (Qltb (e (S k) - eta_a (plain (f k) 1)) MIN_ETA_LIMIT) with false.
  2:{ symmetry. apply Qltb_false. cbn [plain new_strip eta_a]. unfold MIN_ETA_LIMIT. lra. }
  assert (LP : List.length (map (fun i => plain (f i) (f (S i))) (seq 0 k)) = k) by (rewrite map_length, seq_length; reflexivity).
  assert (S1 : set_nth (even k ++ [new_strip (e (S k)) (eta_b (plain (f k) 1)) (eta_c (plain (f k) 1)) (e (S k))]) k (set_bc (plain (f k) 1) (e (S k)) (e (S k))) = even (S k)).
  { unfold even at 1. rewrite (set_nth_last _ k _ _ _ LP). unfold even. rewrite seq_S, map_app, <- !app_assoc. reflexivity. }
  rewrite S1. clear S1.
  assert (IH0 : forall kd ea eb x, inherit ip (even (S k)) k (List.length (even k)) kd ea eb x = (even (S k), Ok tt)).
  { intros. unfold inherit. assert (NE : nth_error (even (S k)) k = Some (plain (f k) (f (S k)))).
    { unfold even. rewrite seq_S, map_app. cbn [map Nat.add]. rewrite (nth_last _ k _ _ LP). reflexivity. }
    rewrite NE. destruct kd; reflexivity. }
  rewrite !IH0. eexists. reflexivity.
Qed.

Lemma even_lines m : forall k, (Z.of_nat (k + m) < n)%Z ->
  add_lines ip (even k) (map e (seq (S k) m)) = (even (k + m), Ok tt).
Proof.
  induction m as [|m IH]; intros k L; cbn [seq map add_lines]; [rewrite Nat.add_0_r; reflexivity|].
  pose proof (e_lt1 (S k) ltac:(lia)) as X1. pose proof (e_S k). pose proof d_pos. pose proof (e_le 0 k ltac:(lia)) as E0. rewrite e_0 in E0.
  replace (Qeqb (e (S k)) 0) with false by (symmetry; apply Qeqb_false; lra).
  replace (Qeqb (e (S k)) 1) with false by (symmetry; apply Qeqb_false; lra). cbn [orb].
  destruct (even_step k ltac:(lia)) as (o & E). rewrite E, (IH (S k)) by lia. rewrite Nat.add_succ_r. reflexivity.
Qed.

Lemma add_lines_app l l' : forall seg seg', add_lines ip seg l = (seg', Ok tt) -> add_lines ip seg (l ++ l') = add_lines ip seg' l'.
Proof.
  induction l as [|x l IH]; intros seg seg'; cbn [app add_lines]; [intros [= <-]; reflexivity|].
  destruct (_ || _)%bool; [apply IH|]. destruct (add_subdivision _ _ _ _ _) as [s [o|]]; [apply IH|discriminate].
Qed.

Lemma even_division : exists etas seg, linspace_etas n = Ok etas /\ add_lines ip new_segment etas = (seg, Ok tt) /\
  List.length seg = Z.to_nat n /\
  forall i s, nth_error seg i = Some s ->
    eta_a s == inject_Z (Z.of_nat i) / inject_Z n /\ eta_b s == inject_Z (Z.of_nat i + 1) / inject_Z n /\
    st_subs s = [(ASegment, new_subarea 0 0 1 1 ASegment)].
Proof.
  unfold linspace_etas. replace (n + 1 <? 0)%Z with false by (symmetry; apply Z.ltb_ge; lia).
  replace (n =? 0)%Z with false by (symmetry; apply Z.eqb_neq; lia). eexists. exists (even (Z.to_nat n - 1)). split; [reflexivity|].
  set (m := (Z.to_nat n - 1)%nat). assert (M : Z.to_nat (n + 1) = S (m + 1)) by (unfold m; lia). assert (Mn : (Z.of_nat m + 1 = n)%Z) by (unfold m; lia).
  fold e. split; [|split].
  - change (fun i => inject_Z (Z.of_nat i) / inject_Z n) with e. rewrite M. cbn [seq map add_lines].
    replace (Qeqb (e 0) 0) with true by (symmetry; apply Qeqb_true; exact e_0). cbn [orb].
    rewrite seq_app, map_app. rewrite (add_lines_app _ _ new_segment (even m)).
    + cbn [seq map add_lines]. replace (Qeqb (e (1 + m)) 1) with true; [rewrite orb_true_r; reflexivity|].
      symmetry. apply Qeqb_true. unfold e. replace (Z.of_nat (1 + m)) with n by lia. pose proof n_pos. field. lra.
    + exact (even_lines m 0 ltac:(lia)).
  - unfold even. rewrite app_length, map_length, seq_length. cbn. lia.
  - intros i s Ni. unfold even in Ni. assert (LP : List.length (map (fun i => plain (f i) (f (S i))) (seq 0 m)) = m) by (rewrite map_length, seq_length; reflexivity).
    destruct (Nat.lt_ge_cases i m) as [L|L].
    + rewrite nth_error_app1 in Ni by lia. rewrite (map_nth_error _ i (seq 0 m) (d := i)) in Ni.
      2:{ rewrite nth_error_nth' with (d := O) by (rewrite seq_length; exact L). rewrite seq_nth by exact L. reflexivity. }
      injection Ni as <-. cbn [plain new_strip eta_a eta_b st_subs]. split; [exact (f_e i)|]. split; [|reflexivity].
      transitivity (e (S i)); [exact (f_e (S i))|]. unfold e. replace (Z.of_nat (S i)) with (Z.of_nat i + 1)%Z by lia. reflexivity.
    + rewrite nth_error_app2 in Ni by lia. rewrite LP in Ni. destruct (i - m)%nat as [|j] eqn:J; cbn in Ni; [|destruct j; discriminate].
      injection Ni as <-. assert (i = m) by lia. subst i. cbn [plain new_strip eta_a eta_b st_subs]. split; [exact (f_e m)|]. split; [|reflexivity].
      replace (Z.of_nat m + 1)%Z with n by lia. pose proof n_pos. field. lra.
Qed.
End Lines.
