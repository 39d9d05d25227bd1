(** Proofs about the spanwise structure of the strips (properties C01, C02, C03). *)
From Coq Require Import List String ZArith QArith Bool Arith Lia Lqa.
From Verif Require Import PyBase PyFacts StripModel StripSpec.
Import ListNotations.
Open Scope Q_scope.

(** The spanwise borders of a strip. *)
Definition quad (s : strip) : Q * Q * Q * Q := (eta_a s, eta_b s, eta_c s, eta_d s).
Definition q_a (q : Q * Q * Q * Q) : Q := let '(a, _, _, _) := q in a.
Definition q_b (q : Q * Q * Q * Q) : Q := let '(_, b, _, _) := q in b.
Definition q_c (q : Q * Q * Q * Q) : Q := let '(_, _, c, _) := q in c.
Definition q_d (q : Q * Q * Q * Q) : Q := let '(_, _, _, d) := q in d.

Lemma set_subs_quad s l : quad (set_subs s l) = quad s.
Proof. reflexivity. Qed.

Lemma upd_sub_quad s k f : quad (fst (upd_sub s k f)) = quad s.
Proof. unfold upd_sub. destruct (sget _ _); reflexivity. Qed.

Lemma then_quad p f q :
  quad (fst p) = q -> (forall s, quad s = q -> quad (fst (f s)) = q) -> quad (fst (then_ p f)) = q.
Proof. destruct p as [s [u|e]]; simpl; auto. Qed.

Lemma add_subarea_quad s c x1 x2 o1 o2 :
  quad (fst (add_subarea s c x1 x2 o1 o2)) = quad s.
Proof.
  unfold add_subarea. destruct (ct_type c) as [k|]; [|reflexivity].
  destruct (smem _ _); [reflexivity|].
  destruct (_ || _)%bool; [reflexivity|]. destruct (_ || _)%bool; [reflexivity|].
  match goal with |- context [if ?b then _ else _] => destruct b; [reflexivity|] end.
  match goal with |- context [if ?b then _ else _] => destruct b; [reflexivity|] end.
  apply then_quad.
  - destruct k; rewrite upd_sub_quad; reflexivity.
  - intros s' H. rewrite upd_sub_quad. exact H.
Qed.

Lemma update_subarea_quad s k x1 x2 h1 h2 :
  quad (fst (update_subarea s k x1 x2 h1 h2)) = quad s.
Proof.
  unfold update_subarea.
  destruct k; (apply then_quad; [apply upd_sub_quad|intros s1 H1]);
    (apply then_quad; [rewrite upd_sub_quad; exact H1|intros s2 H2]);
    rewrite upd_sub_quad; exact H2.
Qed.

Lemma set_nth_quad seg i s s' :
  nth_error seg i = Some s -> quad s' = quad s -> map quad (set_nth seg i s') = map quad seg.
Proof.
  intros N Q. rewrite set_nth_map, Q. apply set_nth_same_id.
  apply map_nth_error. exact N.
Qed.

(** The strip found by the lookup. *)
Lemma get_subdiv_from_spec seg i eta ip sp ob :
  get_subdiv_from i seg eta = Some (ip, sp, ob) ->
  exists j, ip = (i + j)%nat /\ nth_error seg j = Some sp /\ covers sp eta /\
            ob = Qeqb eta (eta_a sp).
Proof.
  revert i. induction seg as [|s seg IH]; intros i H; simpl in H; [discriminate|].
  destruct (Qleb (eta_a s) eta && Qltb eta (eta_b s)) eqn:E.
  - injection H as <- <- <-. exists O. split; [lia|]. split; [reflexivity|].
    split; [|reflexivity]. qbool. split; assumption.
  - apply IH in H. destruct H as (j & -> & N & C & B).
    exists (S j). split; [lia|]. auto.
Qed.

Lemma get_subdiv_spec seg eta ip sp ob :
  get_subdiv_at_eta seg eta = Some (ip, sp, ob) ->
  nth_error seg ip = Some sp /\ covers sp eta /\ ob = Qeqb eta (eta_a sp).
Proof.
  intro H. apply get_subdiv_from_spec in H. destruct H as (j & -> & H). exact H.
Qed.

Lemma get_subdiv_from_none seg i eta :
  get_subdiv_from i seg eta = None -> forall s, In s seg -> ~ covers s eta.
Proof.
  revert i. induction seg as [|s seg IH]; intros i H t I; [destruct I|]. simpl in H.
  destruct (Qleb (eta_a s) eta && Qltb eta (eta_b s)) eqn:E; [discriminate|].
  destruct I as [<-|I].
  - intros [C1 C2]. apply Qleb_true in C1. apply Qltb_true in C2. rewrite C1, C2 in E. discriminate.
  - exact (IH _ H _ I).
Qed.

Section WithInterp.
Variable interp : Q * Q -> Q * Q -> Q -> res Q.

Lemma inherit_quad seg ip inew k ea eb eta :
  ip <> inew ->
  map quad (fst (inherit interp seg ip inew k ea eb eta)) = map quad seg.
Proof.
  intro NE. unfold inherit.
  destruct (nth_error seg ip) as [sp|] eqn:Ep; [|reflexivity].
  destruct (sget (st_subs sp) (ADev k)) as [v|]; [|reflexivity].
  destruct (sa_hinge v) as [[h1 h2]|]; [|reflexivity].
  destruct (sa_ctrl v) as [c|]; [|reflexivity].
  destruct (interp _ _ eta) as [xs|]; [|reflexivity].
  destruct (interp _ _ eta) as [hs|]; [|reflexivity].
  destruct (nth_error seg inew) as [sn|] eqn:En; [|reflexivity].
  pose proof (add_subarea_quad sn c xs (match k with Flap => xsi_b v | Slat => xsi_c v end)
                (Some hs) (Some h2)) as Ea.
  destruct (add_subarea _ _ _ _ _ _) as [sn' r]. simpl in Ea.
  assert (H1 : map quad (set_nth seg inew sn') = map quad seg)
    by (apply set_nth_quad with sn; auto).
  destruct r; [|exact H1].
  pose proof (update_subarea_quad sp k (match k with Flap => xsi_a v | Slat => xsi_d v end)
                xs h1 hs) as Eu.
  destruct (update_subarea _ _ _ _ _ _) as [sp' r']. simpl in Eu. simpl.
  rewrite <- H1. apply set_nth_quad with sp; [|exact Eu].
  rewrite nth_error_set_nth_other by auto. exact Ep.
Qed.

(** Effect of [add_subdivision] on the borders. *)
Lemma add_subdivision_quads seg etaA etaD ig :
  (fst (add_subdivision interp seg etaA etaD ig) = seg) \/
  (exists ip sp,
     nth_error seg ip = Some sp /\
     0 < etaA /\ etaA < 1 /\ eta_a sp + MIN_ETA_LIMIT <= etaA /\ etaA < eta_b sp /\
     map quad (fst (add_subdivision interp seg etaA etaD ig)) =
       set_nth (map quad seg ++ [(etaA, eta_b sp, eta_c sp, etaD)]) ip
               (eta_a sp, etaA, etaD, eta_d sp)).
Proof.
  unfold add_subdivision.
  destruct (Qleb etaA 0 || Qleb 1 etaA) eqn:E0; [left; reflexivity|].
  destruct (get_subdiv_at_eta seg etaA) as [[[ip sp] ob]|] eqn:Eg; [|left; reflexivity].
  apply get_subdiv_spec in Eg. destruct Eg as (N & [C1 C2] & B).
  destruct ob; [left; reflexivity|].
  destruct (Qltb (etaA - eta_a sp) MIN_ETA_LIMIT) eqn:E1; [left; reflexivity|].
  right. exists ip, sp. qbool.
  split; [exact N|]. split; [assumption|]. split; [assumption|].
  split; [lra|]. split; [exact C2|].
  pose proof (nth_error_lt _ _ _ N) as L.
  set (seg1 := set_nth _ ip _).
  assert (Hq : map quad seg1 =
    set_nth (map quad seg ++ [(etaA, eta_b sp, eta_c sp, etaD)]) ip (eta_a sp, etaA, etaD, eta_d sp)).
  { unfold seg1. rewrite set_nth_map, map_app. reflexivity. }
  rewrite <- Hq.
  assert (NE : ip <> List.length seg) by lia.
  pose proof (inherit_quad seg1 ip (List.length seg) Flap (eta_a sp) (eta_b sp) etaA NE) as I1.
  destruct (inherit interp seg1 ip (List.length seg) Flap (eta_a sp) (eta_b sp) etaA) as [seg2 r2].
  simpl in I1. destruct r2; [|exact I1].
  pose proof (inherit_quad seg2 ip (List.length seg) Slat (eta_a sp) (eta_b sp) etaA NE) as I2.
  destruct (inherit interp seg2 ip (List.length seg) Slat (eta_a sp) (eta_b sp) etaA) as [seg3 r3].
  simpl in I2. destruct r3; simpl; congruence.
Qed.

Lemma add_rows_quad seg c rows : map quad (fst (add_rows seg c rows)) = map quad seg.
Proof.
  revert seg. induction rows as [|r rows IH]; intro seg; simpl; [reflexivity|].
  destruct (nth_error seg (r_idx r)) as [s|] eqn:E; [|reflexivity].
  pose proof (add_subarea_quad s c (r_x1 r) (r_x2 r) (Some (r_h1 r)) (Some (r_h2 r))) as Ea.
  destruct (add_subarea _ _ _ _ _ _) as [s' o]. simpl in Ea.
  assert (H : map quad (set_nth seg (r_idx r) s') = map quad seg)
    by (apply set_nth_quad with s; auto).
  destruct o; [rewrite IH|]; exact H.
Qed.

(** ** Reachability of the border structure *)

(** [cut_of q1 q2]: [q2] is [q1] after one legal cut, or [q1] itself. *)
Inductive cut_step (q : list (Q*Q*Q*Q)) : Q -> Q -> list (Q*Q*Q*Q) -> Prop :=
| cut_same x d : cut_step q x d q
| cut_new x d ip sp : nth_error q ip = Some sp ->
    0 < x -> x < 1 -> q_a sp + MIN_ETA_LIMIT <= x -> x < q_b sp ->
    cut_step q x d
      (set_nth (q ++ [(x, q_b sp, q_c sp, d)]) ip (q_a sp, x, d, q_d sp)).

Lemma add_subdivision_cut seg x d ig :
  cut_step (map quad seg) x d (map quad (fst (add_subdivision interp seg x d ig))).
Proof.
  destruct (add_subdivision_quads seg x d ig) as [H | (ip & sp & N & H0 & H1 & Ha & Hb & H)].
  - rewrite H. constructor.
  - rewrite H. apply (cut_new (map quad seg) x d ip (quad sp)); auto.
    apply map_nth_error. exact N.
Qed.

(** [add_subdivision_for_control] performs at most two cuts, at etaA and etaB. *)
Lemma add_control_cut (seg : segment) a b c x1 x2 o1 o2 :
  exists q1, cut_step (map quad seg) a a q1 /\
    cut_step q1 b b (map quad (fst (add_subdivision_for_control interp seg a b c x1 x2 o1 o2))).
Proof.
  unfold add_subdivision_for_control.
  set (p1 := if Qeqb a 0 then (seg, Ok (Some O)) : segment * res (option nat) else add_subdivision interp seg a a false).
  assert (H1 : cut_step (map quad seg) a a (map quad (fst p1))).
  { unfold p1. destruct (Qeqb a 0); [constructor|]. apply add_subdivision_cut. }
  exists (map quad (fst p1)). split; [exact H1|]. clear H1.
  clearbody p1. destruct p1 as [seg1 r1]. cbn [fst].
  destruct r1 as [[i1|]|]; try (simpl; constructor).
  destruct (nth_error seg1 i1) as [sd1|]; [|simpl; constructor].
  destruct (Qeqb b (eta_b sd1)); [rewrite add_rows_quad; constructor|].
  destruct (Qltb b (eta_b sd1)).
  { pose proof (add_subdivision_cut seg1 b b false) as H.
    destruct (add_subdivision interp seg1 b b false) as [seg2 r2].
    destruct r2; [rewrite add_rows_quad|]; exact H. }
  destruct (get_outer_neighbour seg1 (eta_b sd1)) as [nb|]; [|simpl; constructor].
  destruct (nth_error seg1 nb) as [snb|]; [|simpl; constructor].
  match goal with |- context [match ?e with Ok _ => _ | Err _ => _ end] => destruct e as [[rows last]|] end;
    [|simpl; constructor].
  destruct (nth_error seg1 last) as [sl|]; [|simpl; constructor].
  destruct (Qltb b (eta_b sl)).
  { pose proof (add_subdivision_cut seg1 b b false) as H.
    destruct (add_subdivision interp seg1 b b false) as [seg2 r2].
    destruct r2; [rewrite add_rows_quad|]; exact H. }
  rewrite add_rows_quad. constructor.
Qed.

End WithInterp.

(** ** Tiling *)

Definition qcov (q : Q*Q*Q*Q) (e : Q) : Prop := q_a q <= e /\ e < q_b q.

Definition qtiles (l : list (Q*Q*Q*Q)) : Prop :=
  (forall q, In q l -> 0 <= q_a q /\ q_a q < q_b q /\ q_b q <= 1) /\
  (forall e, 0 <= e -> e < 1 -> exists i q, nth_error l i = Some q /\ qcov q e /\
     forall j t, nth_error l j = Some t -> qcov t e -> j = i).

Definition qaligned (l : list (Q*Q*Q*Q)) : Prop :=
  forall q, In q l -> q_d q == q_a q /\ q_c q == q_b q.

Lemma nth_error_cut {A} (l : list A) x ip y j :
  (ip < List.length l)%nat ->
  nth_error (set_nth (l ++ [x]) ip y) j =
    if Nat.eqb ip j then Some y
    else if Nat.eqb j (List.length l) then Some x else nth_error l j.
Proof.
  intro L. rewrite nth_error_set_nth by (rewrite app_length; simpl; lia).
  destruct (Nat.eqb_spec ip j) as [->|N]; [reflexivity|].
  destruct (Nat.eqb_spec j (List.length l)) as [->|N2].
  - rewrite nth_error_app2 by lia. rewrite Nat.sub_diag. reflexivity.
  - destruct (Nat.lt_ge_cases j (List.length l)).
    + apply nth_error_app1. assumption.
    + rewrite nth_error_app2 by lia.
      replace (nth_error l j) with (@None A) by (symmetry; apply nth_error_None; lia).
      apply nth_error_None. simpl. lia.
Qed.

Lemma In_cut {A} (l : list A) x ip y z :
  (ip < List.length l)%nat ->
  In z (set_nth (l ++ [x]) ip y) ->
  z = x \/ z = y \/ In z l.
Proof.
  intros L H. apply In_set_nth in H. destruct H as [->|H]; auto.
  apply in_app_or in H. destruct H as [H|[->|[]]]; auto.
Qed.

Lemma qtiles_cut q x d q' : qtiles q -> cut_step q x d q' -> qtiles q'.
Proof.
  intros [T1 T2] H. destruct H as [x d|x d ip sp N P0 P1 Pa Pb]; [split; assumption|].
  pose proof (nth_error_lt _ _ _ N) as L.
  pose proof (T1 sp (nth_error_In _ _ N)) as Tsp.
  assert (Hlim : 0 < MIN_ETA_LIMIT) by (unfold MIN_ETA_LIMIT; lra).
  split.
  - intros z Hz. apply In_cut in Hz; [|exact L].
    destruct Hz as [->|[->|Hz]]; simpl; [lra|lra|auto].
  - intros e He0 He1. destruct (T2 e He0 He1) as (i & t & Ni & [C1 C2] & U).
    destruct (Nat.eq_dec i ip) as [->|NE].
    + assert (t = sp) by congruence. subst t.
      destruct (Qlt_le_dec e x) as [Lx|Lx].
      * exists ip, (q_a sp, x, d, q_d sp). rewrite nth_error_cut, Nat.eqb_refl by exact L.
        split; [reflexivity|]. split; [split; simpl; assumption|].
        intros j t Nj Cj. rewrite nth_error_cut in Nj by exact L.
        destruct (Nat.eqb_spec ip j); [auto|].
        destruct (Nat.eqb_spec j (List.length q)).
        -- injection Nj as <-. destruct Cj as [Cj _]. simpl in Cj. lra.
        -- eapply U; eauto.
      * exists (List.length q), (x, q_b sp, q_c sp, d). rewrite nth_error_cut by exact L.
        destruct (Nat.eqb_spec ip (List.length q)); [lia|]. rewrite Nat.eqb_refl.
        split; [reflexivity|]. split; [split; simpl; assumption|].
        intros j t Nj Cj. rewrite nth_error_cut in Nj by exact L.
        destruct (Nat.eqb_spec ip j).
        -- injection Nj as <-. destruct Cj as [_ Cj]. simpl in Cj. lra.
        -- destruct (Nat.eqb_spec j (List.length q)); [auto|].
           exfalso. apply n0. assert (j = ip) by (eapply U; eauto). congruence.
    + exists i, t. rewrite nth_error_cut by exact L.
      pose proof (nth_error_lt _ _ _ Ni) as Li.
      destruct (Nat.eqb_spec ip i); [congruence|].
      destruct (Nat.eqb_spec i (List.length q)); [lia|].
      split; [exact Ni|]. split; [split; assumption|].
      intros j t' Nj Cj. rewrite nth_error_cut in Nj by exact L.
      assert (Nsp : qcov sp e -> False) by (intro C; apply NE; symmetry; eapply U; eauto).
      destruct (Nat.eqb_spec ip j).
      * injection Nj as <-. destruct Cj as [Cj1 Cj2]. simpl in Cj1, Cj2.
        exfalso. apply Nsp. split; lra.
      * destruct (Nat.eqb_spec j (List.length q)).
        -- injection Nj as <-. destruct Cj as [Cj1 Cj2]. simpl in Cj1, Cj2.
           exfalso. apply Nsp. split; lra.
        -- eapply U; eauto.
Qed.

Lemma qaligned_cut q x d q' : d == x -> qaligned q -> cut_step q x d q' -> qaligned q'.
Proof.
  intros E A H. destruct H as [x d|x d ip sp N P0 P1 Pa Pb]; [exact A|].
  pose proof (A sp (nth_error_In _ _ N)) as [As1 As2].
  intros z Hz. apply In_cut in Hz; [|exact (nth_error_lt _ _ _ N)].
  destruct Hz as [->|[->|Hz]]; simpl; auto.
Qed.

Lemma qtiles_iff seg : qtiles (map quad seg) <-> tiles_span seg.
Proof.
  unfold qtiles, tiles_span. split; intros [H1 H2]; split.
  - intros s I. apply (H1 (quad s)). apply in_map. exact I.
  - intros e E0 E1. destruct (H2 e E0 E1) as (i & q & N & C & U).
    rewrite nth_error_map in N. destruct (nth_error seg i) as [s|] eqn:Es; [|discriminate].
    injection N as <-. exists i, s. split; [exact Es|]. split; [exact C|].
    intros j t Nj Cj. apply (U j (quad t)); [|exact Cj]. apply map_nth_error. exact Nj.
  - intros q I. apply in_map_iff in I. destruct I as (s & <- & I). apply (H1 s I).
  - intros e E0 E1. destruct (H2 e E0 E1) as (i & s & N & C & U).
    exists i, (quad s). split; [apply map_nth_error; exact N|]. split; [exact C|].
    intros j t Nj Cj. rewrite nth_error_map in Nj.
    destruct (nth_error seg j) as [s'|] eqn:Es; [|discriminate].
    injection Nj as <-. apply (U j s'); assumption.
Qed.

Lemma qaligned_iff seg : qaligned (map quad seg) <-> cuts_aligned seg.
Proof.
  unfold qaligned, cuts_aligned. split; intros H.
  - intros s I. apply (H (quad s)). apply in_map. exact I.
  - intros q I. apply in_map_iff in I. destruct I as (s & <- & I). apply (H s I).
Qed.

Lemma lookup_total seg e : tiles_span seg -> 0 <= e -> e < 1 ->
  exists i s b, get_subdiv_at_eta seg e = Some (i, s, b) /\ nth_error seg i = Some s /\ covers s e.
Proof.
  intros [_ T] E0 E1. destruct (T e E0 E1) as (i & s & N & C & U).
  destruct (get_subdiv_at_eta seg e) as [[[ip sp] ob]|] eqn:G.
  - exists ip, sp, ob. split; [reflexivity|]. apply get_subdiv_spec in G. tauto.
  - exfalso. eapply get_subdiv_from_none; eauto. eapply nth_error_In; eauto.
Qed.

Definition op_aligned (o : op) : Prop :=
  match o with OpSubdiv a d _ => d == a | OpControl _ _ _ _ _ _ _ => True end.

Section Runs.
Variable interp : Q * Q -> Q * Q -> Q -> res Q.

Lemma tiles_new : tiles_span new_segment.
Proof.
  split.
  - intros s [<-|[]]. simpl. lra.
  - intros e E0 E1. exists O, (new_strip 0 1 1 0). split; [reflexivity|].
    split; [split; simpl; assumption|]. intros [|[|j]] t N _; simpl in N; congruence.
Qed.

Lemma aligned_new : cuts_aligned new_segment.
Proof. intros s [<-|[]]. simpl. lra. Qed.

Lemma tiles_step seg o : tiles_span seg -> tiles_span (step interp seg o).
Proof.
  rewrite <- !qtiles_iff. intro T. destruct o as [a d ig|a b c x1 x2 o1 o2]; simpl.
  - eapply qtiles_cut; [exact T|]. apply add_subdivision_cut.
  - destruct (add_control_cut interp seg a b c x1 x2 o1 o2) as (q1 & C1 & C2).
    eapply qtiles_cut; [|exact C2]. eapply qtiles_cut; [exact T|exact C1].
Qed.

Lemma aligned_step seg o :
  op_aligned o -> cuts_aligned seg -> cuts_aligned (step interp seg o).
Proof.
  rewrite <- !qaligned_iff. intros O A. destruct o as [a d ig|a b c x1 x2 o1 o2]; simpl.
  - eapply qaligned_cut; [exact O|exact A|]. apply add_subdivision_cut.
  - destruct (add_control_cut interp seg a b c x1 x2 o1 o2) as (q1 & C1 & C2).
    eapply qaligned_cut; [|clear C2|exact C2]; [reflexivity|].
    eapply qaligned_cut; [|exact A|exact C1]. reflexivity.
Qed.

Lemma fold_inv (P : segment -> Prop) (Q' : op -> Prop) ops seg :
  (forall s o, Q' o -> P s -> P (step interp s o)) ->
  P seg -> Forall Q' ops -> P (fold_left (step interp) ops seg).
Proof.
  intros HS. revert seg. induction ops as [|o ops IH]; intros seg HP HF; simpl; [exact HP|].
  inversion HF; subst. apply IH; auto.
Qed.

Lemma run_tiles ops : tiles_span (run interp ops).
Proof.
  apply (fold_inv tiles_span (fun _ => True)).
  - intros; apply tiles_step; assumption.
  - apply tiles_new.
  - apply Forall_forall. auto.
Qed.

Lemma run_aligned ops : Forall op_aligned ops -> cuts_aligned (run interp ops).
Proof.
  apply (fold_inv cuts_aligned op_aligned).
  - intros; apply aligned_step; assumption.
  - apply aligned_new.
Qed.

End Runs.

(** ** Division lines (C02, C03) *)

Section Lines.
Variable interp : Q * Q -> Q * Q -> Q -> res Q.

Lemma covers_unique seg e i j s t :
  tiles_span seg -> nth_error seg i = Some s -> nth_error seg j = Some t ->
  covers s e -> covers t e -> i = j.
Proof.
  intros [T1 T2] Ni Nj Ci Cj.
  assert (E : 0 <= e /\ e < 1).
  { pose proof (T1 s (nth_error_In _ _ Ni)). destruct Ci. lra. }
  destruct (T2 e (proj1 E) (proj2 E)) as (k & u & _ & _ & U).
  rewrite (U i s), (U j t); auto.
Qed.

Lemma line_at_In_quad seg x : line_at seg x <-> exists q, In q (map quad seg) /\ q_a q == x.
Proof.
  split.
  - intros (s & I & E). exists (quad s). split; [apply in_map; exact I|exact E].
  - intros (q & I & E). apply in_map_iff in I. destruct I as (s & <- & I). exists s. auto.
Qed.

Lemma add_subdivision_frame seg a d ig seg' r :
  add_subdivision interp seg a d ig = (seg', r) ->
  (forall i s, nth_error seg i = Some s ->
     exists s', nth_error seg' i = Some s' /\ eta_a s' = eta_a s) /\
  (forall x, line_at seg' x -> line_at seg x \/ x == a) /\
  (List.length seg' = List.length seg \/ List.length seg' = S (List.length seg)).
Proof.
  intro H.
  destruct (add_subdivision_quads interp seg a d ig) as [E | (ip & sp & N & H0 & H1 & Ha & Hb & E)];
    rewrite H in E; simpl in E.
  - subst seg'. split; [|split]; eauto.
  - pose proof (nth_error_lt _ _ _ N) as L.
    assert (L' : (ip < List.length (map quad seg))%nat) by (rewrite map_length; exact L).
    split; [|split].
    + intros i s Ni.
      assert (Q : nth_error (map quad seg') i =
                    Some (if Nat.eqb ip i then (eta_a sp, a, d, eta_d sp) else quad s)).
      { rewrite E, nth_error_cut by exact L'.
        destruct (Nat.eqb_spec ip i); [reflexivity|].
        destruct (Nat.eqb_spec i (List.length (map quad seg))).
        - apply nth_error_lt in Ni. rewrite map_length in e. lia.
        - apply map_nth_error. exact Ni. }
      rewrite nth_error_map in Q. destruct (nth_error seg' i) as [s'|]; [|discriminate].
      exists s'. split; [reflexivity|]. injection Q as Q.
      destruct (Nat.eqb_spec ip i).
      * subst i. assert (s = sp) by congruence. subst. unfold quad in Q. congruence.
      * unfold quad in Q. congruence.
    + intros x Hx. apply line_at_In_quad in Hx. destruct Hx as (q & I & Ex).
      rewrite E in I. apply In_cut in I; [|exact L'].
      destruct I as [->|[->|I]].
      * right. simpl in Ex. lra.
      * left. exists sp. split; [eapply nth_error_In; eauto|exact Ex].
      * left. apply line_at_In_quad. eauto.
    + right. apply (f_equal (@List.length _)) in E.
      rewrite set_nth_length, app_length, !map_length in E. simpl in E. lia.
Qed.

Lemma add_subdivision_existing seg a d ig seg' r :
  tiles_span seg -> 0 < a -> line_at seg a ->
  add_subdivision interp seg a d ig = (seg', r) ->
  seg' = seg /\ exists i s, r = Ok (Some i) /\ nth_error seg i = Some s /\ eta_a s == a.
Proof.
  intros T P (s & I & E) H. destruct T as [T1 T2]. pose proof (T1 s I) as Ts.
  apply In_nth_error in I. destruct I as [i Ni].
  assert (A1 : a < 1) by lra.
  unfold add_subdivision in H.
  assert (F : Qleb a 0 || Qleb 1 a = false).
  { apply orb_false_iff. split; apply Qleb_false; assumption. }
  rewrite F in H.
  destruct (lookup_total seg a (conj T1 T2) (Qlt_le_weak _ _ P) A1) as (ip & sp & b & G & Np & C).
  rewrite G in H. apply get_subdiv_spec in G. destruct G as (_ & _ & B).
  assert (i = ip).
  { eapply covers_unique with (e := a); [exact (conj T1 T2)|exact Ni|exact Np| |exact C]. split; lra. }
  subst ip. assert (s = sp) by congruence. subst sp.
  assert (b = true) by (rewrite B; apply Qeqb_true; lra). rewrite H0 in H.
  injection H as <- <-. split; [reflexivity|]. exists i, s. auto.
Qed.

Lemma add_subdivision_outside seg a d ig :
  (a <= 0 \/ 1 <= a) ->
  add_subdivision interp seg a d ig = (seg, if ig then Ok None else Err ValueError).
Proof.
  intro H. unfold add_subdivision.
  assert (Qleb a 0 || Qleb 1 a = true) as ->; [|reflexivity].
  apply orb_true_iff. destruct H; [left|right]; apply Qleb_true; assumption.
Qed.

(** A line that is at least 1/100 outboard of every line on its inboard side is created. *)
Lemma add_subdivision_creates seg a d ig :
  tiles_span seg -> 0 < a -> a < 1 ->
  (forall y, line_at seg y -> y <= a -> y + (1 # 100) <= a) ->
  exists seg' r ip sp,
    add_subdivision interp seg a d ig = (seg', r) /\
    nth_error seg ip = Some sp /\ covers sp a /\
    map quad seg' = set_nth (map quad seg ++ [(a, eta_b sp, eta_c sp, d)]) ip
                            (eta_a sp, a, d, eta_d sp).
Proof.
  intros T P0 P1 Far.
  destruct (lookup_total seg a T (Qlt_le_weak _ _ P0) P1) as (ip & sp & b & G & Np & C).
  destruct (add_subdivision interp seg a d ig) as [seg' r] eqn:H.
  exists seg', r, ip, sp. split; [reflexivity|]. split; [exact Np|]. split; [exact C|].
  assert (D : eta_a sp + (1 # 100) <= a).
  { apply Far; [|apply C]. exists sp. split; [eapply nth_error_In; eauto|reflexivity]. }
  destruct (add_subdivision_quads interp seg a d ig) as [E | (ip' & sp' & N & H0 & H1 & Ha & Hb & E)].
  - exfalso.
    unfold add_subdivision in H, E.
    assert (F : Qleb a 0 || Qleb 1 a = false).
    { apply orb_false_iff. split; apply Qleb_false; assumption. }
    rewrite F in H, E. rewrite G in H, E. apply get_subdiv_spec in G. destruct G as (_ & _ & B).
    assert (H0 : b = false) by (rewrite B; apply Qeqb_false; lra).
    rewrite H0 in H, E. clear H0.
    assert (F2 : Qltb (a - eta_a sp) MIN_ETA_LIMIT = false).
    { apply Qltb_false. unfold MIN_ETA_LIMIT. lra. }
    rewrite F2 in H, E. clear H.
    pose proof (nth_error_lt _ _ _ Np) as L.
    apply (f_equal (fun l => List.length (map quad l))) in E.
    set (seg1 := set_nth _ ip _) in E.
    assert (L1 : List.length (map quad seg1) = S (List.length seg)).
    { unfold seg1. rewrite map_length, set_nth_length, app_length. simpl. lia. }
    assert (NE : ip <> List.length seg) by lia.
    pose proof (inherit_quad interp seg1 ip (List.length seg) Flap (eta_a sp) (eta_b sp) a NE) as I1.
    destruct (inherit interp seg1 ip (List.length seg) Flap (eta_a sp) (eta_b sp) a) as [seg2 r2].
    simpl in I1. destruct r2; [|simpl in E; rewrite I1, L1, map_length in E; lia].
    pose proof (inherit_quad interp seg2 ip (List.length seg) Slat (eta_a sp) (eta_b sp) a NE) as I2.
    destruct (inherit interp seg2 ip (List.length seg) Slat (eta_a sp) (eta_b sp) a) as [seg3 r3].
    simpl in I2. destruct r3; simpl in E; rewrite I2, I1, L1, map_length in E; lia.
  - rewrite H in E. simpl in E.
    assert (ip' = ip).
    { eapply covers_unique with (e := a); eauto. split; [|assumption].
      unfold MIN_ETA_LIMIT in Ha. lra. }
    subst ip'. assert (sp' = sp) by congruence. subst sp'. exact E.
Qed.

Lemma creates_line seg a d ig :
  tiles_span seg -> 0 < a -> a < 1 ->
  (forall y, line_at seg y -> y <= a -> y + (1 # 100) <= a) ->
  line_at (fst (add_subdivision interp seg a d ig)) a.
Proof.
  intros T P0 P1 Far.
  destruct (add_subdivision_creates seg a d ig T P0 P1 Far) as (seg' & r & ip & sp & E & N & C & Q).
  rewrite E. simpl. apply line_at_In_quad. exists (a, eta_b sp, eta_c sp, d).
  split; [|reflexivity]. rewrite Q.
  apply nth_error_In with (List.length (map quad seg)).
  assert (ip < List.length (map quad seg))%nat
    by (rewrite map_length; eapply nth_error_lt; eauto).
  rewrite nth_error_cut by assumption.
  destruct (Nat.eqb_spec ip (List.length (map quad seg))); [lia|]. rewrite Nat.eqb_refl. reflexivity.
Qed.

(** A request closer than 1/100 outboard of an existing line changes nothing. *)
Lemma add_subdivision_snaps seg a d ig y :
  tiles_span seg -> line_at seg y -> y <= a -> a < y + (1 # 100) ->
  fst (add_subdivision interp seg a d ig) = seg.
Proof.
  intros T (s & I & Es) L1 L2.
  destruct (add_subdivision_quads interp seg a d ig) as [E | (ip & sp & N & H0 & H1 & Ha & Hb & E)];
    [exact E|].
  exfalso. destruct T as [T1 T2]. pose proof (T1 s I) as Ts. pose proof (T1 sp (nth_error_In _ _ N)) as Tp.
  unfold MIN_ETA_LIMIT in Ha.
  (* eta_a sp < eta_a s <= a < eta_b sp, so sp covers eta_a s *)
  apply In_nth_error in I. destruct I as [i Ni].
  assert (i = ip).
  { eapply covers_unique with (e := eta_a s); [exact (conj T1 T2)|exact Ni|exact N| |];
      split; lra. }
  subst ip. assert (s = sp) by congruence. subst sp. lra.
Qed.

(** Widths after a cut: only the new outboard piece can be narrow. *)
Lemma add_subdivision_widths seg a d ig :
  (forall s, In s seg -> eta_a s + (1 # 100) <= eta_b s) ->
  forall i s, nth_error (fst (add_subdivision interp seg a d ig)) i = Some s ->
    eta_a s + (1 # 100) <= eta_b s \/ (i = List.length seg /\ eta_a s == a).
Proof.
  intros W i s N.
  destruct (add_subdivision_quads interp seg a d ig) as [E | (ip & sp & Np & H0 & H1 & Ha & Hb & E)].
  - rewrite E in N. left. apply W. eapply nth_error_In; eauto.
  - assert (Q : nth_error (map quad (fst (add_subdivision interp seg a d ig))) i = Some (quad s))
      by (apply map_nth_error; exact N).
    pose proof (nth_error_lt _ _ _ Np) as L.
    rewrite E, nth_error_cut in Q by (rewrite map_length; exact L).
    destruct (Nat.eqb_spec ip i).
    + injection Q as Q1 Q2 Q3 Q4. left. rewrite <- Q1, <- Q2. exact Ha.
    + destruct (Nat.eqb_spec i (List.length (map quad seg))).
      * right. rewrite map_length in e. injection Q as Q1 Q2 Q3 Q4. split; [exact e|]. rewrite <- Q1. reflexivity.
      * left. rewrite nth_error_map in Q. destruct (nth_error seg i) as [t|] eqn:Et; [|discriminate].
        injection Q as Q1 Q2 Q3 Q4. rewrite <- Q1, <- Q2. apply W. eapply nth_error_In; eauto.
Qed.

End Lines.
