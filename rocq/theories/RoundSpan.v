(** The spanwise structure of the strips with rounded arithmetic: as in [StripSpan], for any rounding. *)
From Coq Require Import List String ZArith QArith Bool Arith Lia Lqa.
From Verif Require Import PyBase PyFacts StripModel StripSpec StripSpan RoundModel.
Import ListNotations.
Open Scope Q_scope.

Section Rounded.
Variable rnd : Q -> Q.

Lemma fadd_subarea_quad s c x1 x2 o1 o2 :
  quad (fst (fadd_subarea rnd s c x1 x2 o1 o2)) = quad s.
Proof.
  unfold fadd_subarea. destruct (ct_type c) as [k|]; [|reflexivity].
  destruct (smem _ _); [reflexivity|].
  destruct (_ || _)%bool; [reflexivity|]. destruct (_ || _)%bool; [reflexivity|].
  match goal with |- context [if ?b then _ else _] => destruct b; [reflexivity|] end.
  match goal with |- context [if ?b then _ else _] => destruct b; [reflexivity|] end.
  apply then_quad.
  - destruct k; rewrite upd_sub_quad; reflexivity.
  - intros s' H. rewrite upd_sub_quad. exact H.
Qed.

Section WithInterp.
Variable interp : Q * Q -> Q * Q -> Q -> res Q.

Lemma finherit_quad seg ip inew k ea eb eta :
  ip <> inew ->
  map quad (fst (finherit rnd interp seg ip inew k ea eb eta)) = map quad seg.
Proof.
  intro NE. unfold finherit.
  destruct (nth_error seg ip) as [sp|] eqn:Ep; [|reflexivity].
  destruct (sget (st_subs sp) (ADev k)) as [v|]; [|reflexivity].
  destruct (sa_hinge v) as [[h1 h2]|]; [|reflexivity].
  destruct (sa_ctrl v) as [c|]; [|reflexivity].
  destruct (interp _ _ eta) as [xs|]; [|reflexivity].
  destruct (interp _ _ eta) as [hs|]; [|reflexivity].
  destruct (nth_error seg inew) as [sn|] eqn:En; [|reflexivity].
  pose proof (fadd_subarea_quad sn c xs (match k with Flap => xsi_b v | Slat => xsi_c v end)
                (Some hs) (Some h2)) as Ea.
  destruct (fadd_subarea rnd _ _ _ _ _ _) as [sn' r]. simpl in Ea.
  assert (H1 : map quad (set_nth seg inew sn') = map quad seg)
    by (apply set_nth_quad with sn; auto).
  destruct r; [|exact H1].
  pose proof (update_subarea_quad sp k (match k with Flap => xsi_a v | Slat => xsi_d v end)
                xs h1 hs) as Eu.
  destruct (update_subarea _ _ _ _ _ _) as [sp' r']. simpl in Eu. simpl.
  rewrite <- H1. apply set_nth_quad with sp; [|exact Eu].
  rewrite nth_error_set_nth_other by auto. exact Ep.
Qed.

(** Effect of [add_subdivision] on the borders. *)
Lemma fadd_subdivision_quads seg etaA etaD ig :
  (fst (fadd_subdivision rnd interp seg etaA etaD ig) = seg) \/
  (exists ip sp,
     nth_error seg ip = Some sp /\
     0 < etaA /\ etaA < 1 /\ eta_a sp < etaA /\ etaA < eta_b sp /\
     map quad (fst (fadd_subdivision rnd interp seg etaA etaD ig)) =
       set_nth (map quad seg ++ [(etaA, eta_b sp, eta_c sp, etaD)]) ip
               (eta_a sp, etaA, etaD, eta_d sp)).
Proof.
  unfold fadd_subdivision.
  destruct (Qleb etaA 0 || Qleb 1 etaA) eqn:E0; [left; reflexivity|].
  destruct (get_subdiv_at_eta seg etaA) as [[[ip sp] ob]|] eqn:Eg; [|left; reflexivity].
  apply get_subdiv_spec in Eg. destruct Eg as (N & [C1 C2] & B).
  destruct ob; [left; reflexivity|].
  destruct (Qltb (fsub rnd etaA (eta_a sp)) (LIMIT rnd)) eqn:E1; [left; reflexivity|].
  right. exists ip, sp. qbool.
  split; [exact N|]. split; [assumption|]. split; [assumption|].
  split; [symmetry in B; qbool; lra|]. split; [exact C2|].
  pose proof (nth_error_lt _ _ _ N) as L.
  set (seg1 := set_nth _ ip _).
  assert (Hq : map quad seg1 =
    set_nth (map quad seg ++ [(etaA, eta_b sp, eta_c sp, etaD)]) ip (eta_a sp, etaA, etaD, eta_d sp)).
  { unfold seg1. rewrite set_nth_map, map_app. reflexivity. }
  rewrite <- Hq. cbv zeta.
  assert (NE : ip <> List.length seg) by lia.
  pose proof (finherit_quad seg1 ip (List.length seg) Flap (eta_a sp) (eta_b sp) etaA NE) as I1.
  destruct (finherit rnd interp seg1 ip (List.length seg) Flap (eta_a sp) (eta_b sp) etaA) as [seg2 r2].
  simpl in I1. destruct r2; [|exact I1].
  pose proof (finherit_quad seg2 ip (List.length seg) Slat (eta_a sp) (eta_b sp) etaA NE) as I2.
  destruct (finherit rnd interp seg2 ip (List.length seg) Slat (eta_a sp) (eta_b sp) etaA) as [seg3 r3].
  simpl in I2. destruct r3; simpl; congruence.
Qed.

Lemma fadd_rows_quad seg c rows : map quad (fst (fadd_rows rnd seg c rows)) = map quad seg.
Proof.
  revert seg. induction rows as [|r rows IH]; intro seg; simpl; [reflexivity|].
  destruct (nth_error seg (r_idx r)) as [s|] eqn:E; [|reflexivity].
  pose proof (fadd_subarea_quad s c (r_x1 r) (r_x2 r) (Some (r_h1 r)) (Some (r_h2 r))) as Ea.
  destruct (fadd_subarea rnd _ _ _ _ _ _) as [s' o]. simpl in Ea.
  assert (H : map quad (set_nth seg (r_idx r) s') = map quad seg)
    by (apply set_nth_quad with s; auto).
  destruct o; [rewrite IH|]; exact H.
Qed.

(** ** Reachability of the border structure *)

(** [cut_of q1 q2]: [q2] is [q1] after one legal cut, or [q1] itself. *)
Inductive fcut_step (q : list (Q*Q*Q*Q)) : Q -> Q -> list (Q*Q*Q*Q) -> Prop :=
| fcut_same x d : fcut_step q x d q
| fcut_new x d ip sp : nth_error q ip = Some sp ->
    0 < x -> x < 1 -> q_a sp < x -> x < q_b sp ->
    fcut_step q x d
      (set_nth (q ++ [(x, q_b sp, q_c sp, d)]) ip (q_a sp, x, d, q_d sp)).

Lemma fadd_subdivision_cut seg x d ig :
  fcut_step (map quad seg) x d (map quad (fst (fadd_subdivision rnd interp seg x d ig))).
Proof.
  destruct (fadd_subdivision_quads seg x d ig) as [H | (ip & sp & N & H0 & H1 & Ha & Hb & H)].
  - rewrite H. constructor.
  - rewrite H. apply (fcut_new (map quad seg) x d ip (quad sp)); auto.
    apply map_nth_error. exact N.
Qed.

(** [add_subdivision_for_control] performs at most two cuts, at etaA and etaB. *)
Lemma fadd_control_cut (seg : segment) a b c x1 x2 o1 o2 :
  exists q1, fcut_step (map quad seg) a a q1 /\
    fcut_step q1 b b (map quad (fst (fadd_subdivision_for_control rnd interp seg a b c x1 x2 o1 o2))).
Proof.
  unfold fadd_subdivision_for_control.
  set (p1 := if Qeqb a 0 then (seg, Ok (Some O)) : segment * res (option nat) else fadd_subdivision rnd interp seg a a false).
  assert (H1 : fcut_step (map quad seg) a a (map quad (fst p1))).
  { unfold p1. destruct (Qeqb a 0); [constructor|]. apply fadd_subdivision_cut. }
  exists (map quad (fst p1)). split; [exact H1|]. clear H1.
  clearbody p1. destruct p1 as [seg1 r1]. cbn [fst].
  destruct r1 as [[i1|]|]; try (simpl; constructor).
  destruct (nth_error seg1 i1) as [sd1|]; [|simpl; constructor].
  destruct (Qeqb b (eta_b sd1)); [rewrite fadd_rows_quad; constructor|].
  destruct (Qltb b (eta_b sd1)).
  { pose proof (fadd_subdivision_cut seg1 b b false) as H.
    destruct (fadd_subdivision rnd interp seg1 b b false) as [seg2 r2].
    destruct r2; [rewrite fadd_rows_quad|]; exact H. }
  destruct (fget_outer_neighbour rnd seg1 (eta_b sd1)) as [nb|]; [|simpl; constructor].
  destruct (nth_error seg1 nb) as [snb|]; [|simpl; constructor].
  match goal with |- context [match ?e with Ok _ => _ | Err _ => _ end] => destruct e as [[rows last]|] end;
    [|simpl; constructor].
  destruct (nth_error seg1 last) as [sl|]; [|simpl; constructor].
  destruct (Qltb b (eta_b sl)).
  { pose proof (fadd_subdivision_cut seg1 b b false) as H.
    destruct (fadd_subdivision rnd interp seg1 b b false) as [seg2 r2].
    destruct r2; [rewrite fadd_rows_quad|]; exact H. }
  rewrite fadd_rows_quad. constructor.
Qed.

End WithInterp.

Lemma fqtiles_cut q x d q' : qtiles q -> fcut_step q x d q' -> qtiles q'.
Proof.
  intros [T1 T2] H. destruct H as [x d|x d ip sp N P0 P1 Pa Pb]; [split; assumption|].
  pose proof (nth_error_lt _ _ _ N) as L.
  pose proof (T1 sp (nth_error_In _ _ N)) as Tsp.
  split.
  - intros z Hz. apply In_cut in Hz; [|exact L].
    destruct Hz as [->|[->|Hz]]; simpl; [lra|lra|auto].
  - intros e He0 He1. destruct (T2 e He0 He1) as (i & t & Ni & [C1 C2] & U).
    destruct (Nat.eq_dec i ip) as [->|NE].
    + assert (t = sp) by congruence. subst t.
      destruct (Qlt_le_dec e x) as [Lx|Lx].
      * exists ip, (q_a sp, x, d, q_d sp). rewrite nth_error_cut, Nat.eqb_refl by exact L.
        split; [reflexivity|]. split; [split; simpl; assumption|].
        intros j t Nj Cj. rewrite nth_error_cut in Nj by exact L.
        destruct (Nat.eqb_spec ip j); [auto|].
        destruct (Nat.eqb_spec j (List.length q)).
        -- injection Nj as <-. destruct Cj as [Cj _]. simpl in Cj. lra.
        -- eapply U; eauto.
      * exists (List.length q), (x, q_b sp, q_c sp, d). rewrite nth_error_cut by exact L.
        destruct (Nat.eqb_spec ip (List.length q)); [lia|]. rewrite Nat.eqb_refl.
        split; [reflexivity|]. split; [split; simpl; assumption|].
        intros j t Nj Cj. rewrite nth_error_cut in Nj by exact L.
        destruct (Nat.eqb_spec ip j).
        -- injection Nj as <-. destruct Cj as [_ Cj]. simpl in Cj. lra.
        -- destruct (Nat.eqb_spec j (List.length q)); [auto|].
           exfalso. apply n0. assert (j = ip) by (eapply U; eauto). congruence.
    + exists i, t. rewrite nth_error_cut by exact L.
      pose proof (nth_error_lt _ _ _ Ni) as Li.
      destruct (Nat.eqb_spec ip i); [congruence|].
      destruct (Nat.eqb_spec i (List.length q)); [lia|].
      split; [exact Ni|]. split; [split; assumption|].
      intros j t' Nj Cj. rewrite nth_error_cut in Nj by exact L.
      assert (Nsp : qcov sp e -> False) by (intro C; apply NE; symmetry; eapply U; eauto).
      destruct (Nat.eqb_spec ip j).
      * injection Nj as <-. destruct Cj as [Cj1 Cj2]. simpl in Cj1, Cj2.
        exfalso. apply Nsp. split; lra.
      * destruct (Nat.eqb_spec j (List.length q)).
        -- injection Nj as <-. destruct Cj as [Cj1 Cj2]. simpl in Cj1, Cj2.
           exfalso. apply Nsp. split; lra.
        -- eapply U; eauto.
Qed.

Lemma fqaligned_cut q x d q' : d == x -> qaligned q -> fcut_step q x d q' -> qaligned q'.
Proof.
  intros E A H. destruct H as [x d|x d ip sp N P0 P1 Pa Pb]; [exact A|].
  pose proof (A sp (nth_error_In _ _ N)) as [As1 As2].
  intros z Hz. apply In_cut in Hz; [|exact (nth_error_lt _ _ _ N)].
  destruct Hz as [->|[->|Hz]]; simpl; auto.
Qed.

Section Runs.
Variable interp : Q * Q -> Q * Q -> Q -> res Q.

Lemma ftiles_step seg o : tiles_span seg -> tiles_span (fstep rnd interp seg o).
Proof.
  rewrite <- !qtiles_iff. intro T. destruct o as [a d ig|a b c x1 x2 o1 o2]; simpl.
  - eapply fqtiles_cut; [exact T|]. apply fadd_subdivision_cut.
  - destruct (fadd_control_cut interp seg a b c x1 x2 o1 o2) as (q1 & C1 & C2).
    eapply fqtiles_cut; [|exact C2]. eapply fqtiles_cut; [exact T|exact C1].
Qed.

Lemma faligned_step seg o :
  op_aligned o -> cuts_aligned seg -> cuts_aligned (fstep rnd interp seg o).
Proof.
  rewrite <- !qaligned_iff. intros O A. destruct o as [a d ig|a b c x1 x2 o1 o2]; simpl.
  - eapply fqaligned_cut; [exact O|exact A|]. apply fadd_subdivision_cut.
  - destruct (fadd_control_cut interp seg a b c x1 x2 o1 o2) as (q1 & C1 & C2).
    eapply fqaligned_cut; [|clear C2|exact C2]; [reflexivity|].
    eapply fqaligned_cut; [|exact A|exact C1]. reflexivity.
Qed.

Lemma ffold_inv (P : segment -> Prop) (Q' : op -> Prop) ops seg :
  (forall s o, Q' o -> P s -> P (fstep rnd interp s o)) ->
  P seg -> Forall Q' ops -> P (fold_left (fstep rnd interp) ops seg).
Proof.
  intros HS. revert seg. induction ops as [|o ops IH]; intros seg HP HF; simpl; [exact HP|].
  inversion HF; subst. apply IH; auto.
Qed.

Lemma frun_tiles ops : tiles_span (frun rnd interp ops).
Proof.
  apply (ffold_inv tiles_span (fun _ => True)).
  - intros; apply ftiles_step; assumption.
  - apply tiles_new.
  - apply Forall_forall. auto.
Qed.

Lemma frun_aligned ops : Forall op_aligned ops -> cuts_aligned (frun rnd interp ops).
Proof.
  apply (ffold_inv cuts_aligned op_aligned).
  - intros; apply faligned_step; assumption.
  - apply aligned_new.
Qed.

End Runs.

Section Lines.
Variable interp : Q * Q -> Q * Q -> Q -> res Q.

Lemma fadd_subdivision_frame seg a d ig seg' r :
  fadd_subdivision rnd interp seg a d ig = (seg', r) ->
  (forall i s, nth_error seg i = Some s ->
     exists s', nth_error seg' i = Some s' /\ eta_a s' = eta_a s) /\
  (forall x, line_at seg' x -> line_at seg x \/ x == a) /\
  (List.length seg' = List.length seg \/ List.length seg' = S (List.length seg)).
Proof.
  intro H.
  destruct (fadd_subdivision_quads interp seg a d ig) as [E | (ip & sp & N & H0 & H1 & Ha & Hb & E)];
    rewrite H in E; simpl in E.
  - subst seg'. split; [|split]; eauto.
  - pose proof (nth_error_lt _ _ _ N) as L.
    assert (L' : (ip < List.length (map quad seg))%nat) by (rewrite map_length; exact L).
    split; [|split].
    + intros i s Ni.
      assert (Q : nth_error (map quad seg') i =
                    Some (if Nat.eqb ip i then (eta_a sp, a, d, eta_d sp) else quad s)).
      { rewrite E, nth_error_cut by exact L'.
        destruct (Nat.eqb_spec ip i); [reflexivity|].
        destruct (Nat.eqb_spec i (List.length (map quad seg))).
        - apply nth_error_lt in Ni. rewrite map_length in e. lia.
        - apply map_nth_error. exact Ni. }
      rewrite nth_error_map in Q. destruct (nth_error seg' i) as [s'|]; [|discriminate].
      exists s'. split; [reflexivity|]. injection Q as Q.
      destruct (Nat.eqb_spec ip i).
      * subst i. assert (s = sp) by congruence. subst. unfold quad in Q. congruence.
      * unfold quad in Q. congruence.
    + intros x Hx. apply line_at_In_quad in Hx. destruct Hx as (q & I & Ex).
      rewrite E in I. apply In_cut in I; [|exact L'].
      destruct I as [->|[->|I]].
      * right. simpl in Ex. lra.
      * left. exists sp. split; [eapply nth_error_In; eauto|exact Ex].
      * left. apply line_at_In_quad. eauto.
    + right. apply (f_equal (@List.length _)) in E.
      rewrite set_nth_length, app_length, !map_length in E. simpl in E. lia.
Qed.

Lemma fadd_subdivision_existing seg a d ig seg' r :
  tiles_span seg -> 0 < a -> line_at seg a ->
  fadd_subdivision rnd interp seg a d ig = (seg', r) ->
  seg' = seg /\ exists i s, r = Ok (Some i) /\ nth_error seg i = Some s /\ eta_a s == a.
Proof.
  intros T P (s & I & E) H. destruct T as [T1 T2]. pose proof (T1 s I) as Ts.
  apply In_nth_error in I. destruct I as [i Ni].
  assert (A1 : a < 1) by lra.
  unfold fadd_subdivision in H.
  assert (F : Qleb a 0 || Qleb 1 a = false).
  { apply orb_false_iff. split; apply Qleb_false; assumption. }
  rewrite F in H.
  destruct (lookup_total seg a (conj T1 T2) (Qlt_le_weak _ _ P) A1) as (ip & sp & b & G & Np & C).
  rewrite G in H. apply get_subdiv_spec in G. destruct G as (_ & _ & B).
  assert (i = ip).
  { eapply covers_unique with (e := a); [exact (conj T1 T2)|exact Ni|exact Np| |exact C]. split; lra. }
  subst ip. assert (s = sp) by congruence. subst sp.
  assert (b = true) by (rewrite B; apply Qeqb_true; lra). rewrite H0 in H.
  injection H as <- <-. split; [reflexivity|]. exists i, s. auto.
Qed.

Lemma fadd_subdivision_outside seg a d ig :
  (a <= 0 \/ 1 <= a) ->
  fadd_subdivision rnd interp seg a d ig = (seg, if ig then Ok None else Err ValueError).
Proof.
  intro H. unfold fadd_subdivision.
  assert (Qleb a 0 || Qleb 1 a = true) as ->; [|reflexivity].
  apply orb_true_iff. destruct H; [left|right]; apply Qleb_true; assumption.
Qed.

End Lines.
End Rounded.
