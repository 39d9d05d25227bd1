(** Proofs for the checks of a control definition (C39). *)
From Coq Require Import List String ZArith QArith Bool Lia.
From Verif Require Import PyBase PyFacts PyVal SchemaModel ControlModel ControlSpec.
Import ListNotations.
Open Scope string_scope.

Lemma num_val_iff v q : num_val v q <-> number_of v = Some (Some q).
Proof.
  split.
  - intro H. destruct H; reflexivity.
  - destruct v as [| [|] | | |  | | |]; cbn; intro H; try discriminate; injection H as <- || (injection H as ->); constructor.
Qed.

Section P.
Variable none_ok int_ok : bool.

Lemma validate_ok req s d :
  validate none_ok req s d = Ok tt <->
  (forall k, In k req -> dget d k <> None) /\
  (forall k r, In (k, r) s -> forall v, dget d k = Some v -> passes none_ok r v = true).
Proof.
  unfold validate.
  destruct (forallb (dmem d) req) eqn:E1; cbn [andb].
  - rewrite forallb_forall in E1.
    assert (A : forall k, In k req -> dget d k <> None).
    { intros k I. specialize (E1 k I). unfold dmem in E1. destruct (dget d k); [discriminate|discriminate]. }
    match goal with |- context [if ?b then _ else _] => destruct b eqn:E2 end.
    + rewrite forallb_forall in E2. split; [intros _|reflexivity]. split; [exact A|].
      intros k r I v G. specialize (E2 _ I). cbn in E2. rewrite G in E2. exact E2.
    + split; [discriminate|]. intros [_ B]. exfalso.
      assert (T : forallb (fun kr => match dget d (fst kr) with Some v => passes none_ok (snd kr) v | None => true end) s = true).
      { apply forallb_forall. intros [k r] I. cbn. destruct (dget d k) eqn:G; [|reflexivity]. apply (B k r I _ G). }
      rewrite T in E2. discriminate.
  - split; [discriminate|]. intros [A _]. exfalso.
    assert (T : forallb (dmem d) req = true).
    { apply forallb_forall. intros k I. unfold dmem. specialize (A k I). destruct (dget d k); [reflexivity|congruence]. }
    congruence.
Qed.

Lemma validate_cases req s d : validate none_ok req s d = Ok tt \/ validate none_ok req s d = Err SchemaError.
Proof. unfold validate. destruct (_ && _); auto. Qed.

Lemma passes_unit v : passes none_ok (r_float_in int_ok 0 1) v = true <->
  (none_ok = true /\ v = PNone) \/ exists q, unit_pos int_ok v q.
Proof.
  unfold passes, r_float_in, unit_pos. split.
  - intro H. destruct v; [left; auto|right; cbn in H; qbool..]; try discriminate.
    + destruct b; eexists; (split; [constructor|]); (split; [split; assumption|right; assumption]).
    + eexists. split; [constructor|]. split; [split; assumption|right; assumption].
    + destruct x as [q|]; [|discriminate]. qbool. eexists. split; [constructor|]. split; [split; assumption|left; eexists; reflexivity].
  - intros [[-> ->]|(q & N & B & T)]; [reflexivity|].
    assert (K : r_float int_ok v = true).
    { destruct N; try reflexivity; destruct T as [[x T]|T]; try discriminate; exact T. }
    apply num_val_iff in N.
    destruct v; try discriminate; rewrite K, N; cbn [andb]; apply andb_true_iff; split; apply Qleb_true; apply B.
Qed.

Lemma unit_at_iff d k : (exists v, dget d k = Some v /\ passes none_ok (r_float_in int_ok 0 1) v = true) <-> unit_at none_ok int_ok d k.
Proof.
  unfold unit_at, unset. split.
  - intros (v & G & H). apply passes_unit in H as [[H ->]|[q H]]; [left; auto|right; eauto].
  - intros [[H G]|(v & q & G & H)]; eexists; (split; [exact G|]); apply passes_unit; [left; auto|right; eauto].
Qed.

Lemma text_at_iff d k : (exists v, dget d k = Some v /\ passes none_ok r_str v = true) <-> text_at none_ok d k.
Proof.
  unfold text_at, unset. split.
  - intros (v & G & H). destruct v; try discriminate; [left; auto|right; eauto].
  - intros [[H G]|(s & G)]; eexists; (split; [exact G|]); [exact H|reflexivity].
Qed.

Lemma seg_schema d :
  validate none_ok ["inner"; "outer"] [("inner", r_str); ("outer", r_str)] d = Ok tt <->
  text_at none_ok d "inner" /\ text_at none_ok d "outer".
Proof.
  rewrite validate_ok, <- !text_at_iff. split.
  - intros [A B]. split.
    + destruct (dget d "inner") eqn:G; [|exfalso; apply (A "inner"); cbn; auto]. eexists. split; [reflexivity|]. eapply B; [|exact G]. cbn; auto.
    + destruct (dget d "outer") eqn:G; [|exfalso; apply (A "outer"); cbn; auto]. eexists. split; [reflexivity|]. eapply B; [|exact G]. cbn; auto.
  - intros [(v & G & H) (w & G' & H')]. split.
    + intros k [<-|[<-|[]]]; congruence.
    + intros k r [E|[E|[]]] x Gx; injection E as <- <-; congruence.
Qed.

Lemma hinge_schema d :
  validate none_ok ["xsi_inner"; "xsi_outer"] [("xsi_inner", r_float_in int_ok 0 1); ("xsi_outer", r_float_in int_ok 0 1)] d = Ok tt <->
  unit_at none_ok int_ok d "xsi_inner" /\ unit_at none_ok int_ok d "xsi_outer".
Proof.
  rewrite validate_ok, <- !unit_at_iff. split.
  - intros [A B]. split.
    + destruct (dget d "xsi_inner") eqn:G; [|exfalso; apply (A "xsi_inner"); cbn; auto]. eexists. split; [reflexivity|]. eapply B; [|exact G]. cbn; auto.
    + destruct (dget d "xsi_outer") eqn:G; [|exfalso; apply (A "xsi_outer"); cbn; auto]. eexists. split; [reflexivity|]. eapply B; [|exact G]. cbn; auto.
  - intros [(v & G & H) (w & G' & H')]. split.
    + intros k [<-|[<-|[]]]; congruence.
    + intros k r [E|[E|[]]] x Gx; injection E as <- <-; congruence.
Qed.

Lemma rel_schema d :
  validate none_ok ["eta_inner"; "eta_outer"; "xsi_inner"; "xsi_outer"]
    [("eta_inner", r_float_in int_ok 0 1); ("eta_outer", r_float_in int_ok 0 1); ("xsi_inner", r_float_in int_ok 0 1); ("xsi_outer", r_float_in int_ok 0 1)] d = Ok tt <->
  unit_at none_ok int_ok d "eta_inner" /\ unit_at none_ok int_ok d "eta_outer" /\
  unit_at none_ok int_ok d "xsi_inner" /\ unit_at none_ok int_ok d "xsi_outer".
Proof.
  rewrite validate_ok, <- !unit_at_iff. split.
  - intros [A B].
    assert (X : forall k, In k ["eta_inner"; "eta_outer"; "xsi_inner"; "xsi_outer"] ->
              exists v, dget d k = Some v /\ passes none_ok (r_float_in int_ok 0 1) v = true).
    { intros k I. specialize (A k I). destruct (dget d k) eqn:G; [|congruence]. eexists. split; [reflexivity|].
      eapply B; [|exact G]. cbn in *. intuition (subst; auto). }
    repeat split; apply X; cbn; auto.
  - intros ((v1 & G1 & H1) & (v2 & G2 & H2) & (v3 & G3 & H3) & (v4 & G4 & H4)). split.
    + intros k [<-|[<-|[<-|[<-|[]]]]]; congruence.
    + intros k r [E|[E|[E|[E|[]]]]] x Gx; injection E as <- <-; congruence.
Qed.

Lemma panel_schema d :
  validate none_ok [] [("num_c", r_int_pos)] d = Ok tt <->
  dget d "num_c" = None \/ unset none_ok d "num_c" \/ dget d "num_c" = Some (PBool true) \/
  exists n, dget d "num_c" = Some (PInt n) /\ (0 < n)%Z.
Proof.
  rewrite validate_ok. unfold unset. split.
  - intros [_ B]. destruct (dget d "num_c") as [v|] eqn:G; [|left; reflexivity]. right.
    specialize (B "num_c" r_int_pos (or_introl eq_refl) v G). destruct v; try discriminate.
    + left. auto.
    + right. left. cbn in B. subst b. reflexivity.
    + right. right. exists z. split; [reflexivity|]. apply Z.ltb_lt. exact B.
  - intro H. split; [intros k []|]. intros k r [E|[]] v G. injection E as <- <-.
    destruct H as [H|[[O H]|[H|(n & H & L)]]]; rewrite H in G; try discriminate; injection G as <-; cbn; auto.
    apply Z.ltb_lt. exact L.
Qed.

Lemma schemas_ok c :
  check_schemas none_ok int_ok c = Ok tt <->
  (text_at none_ok (cd_segment c) "inner" /\ text_at none_ok (cd_segment c) "outer") /\
  (dget (cd_panels c) "num_c" = None \/ unset none_ok (cd_panels c) "num_c" \/ dget (cd_panels c) "num_c" = Some (PBool true) \/
   exists n, dget (cd_panels c) "num_c" = Some (PInt n) /\ (0 < n)%Z) /\
  (unit_at none_ok int_ok (cd_rel c) "eta_inner" /\ unit_at none_ok int_ok (cd_rel c) "eta_outer" /\
   unit_at none_ok int_ok (cd_rel c) "xsi_inner" /\ unit_at none_ok int_ok (cd_rel c) "xsi_outer") /\
  (unit_at none_ok int_ok (cd_hinge c) "xsi_inner" /\ unit_at none_ok int_ok (cd_hinge c) "xsi_outer").
Proof.
  unfold check_schemas. rewrite <- seg_schema, <- panel_schema, <- rel_schema, <- hinge_schema.
  match goal with |- context [bind ?a _] => destruct a as [[]|] end; cbn [bind]; [|split; [discriminate|intros (X & _); discriminate]].
  match goal with |- context [bind ?a _] => destruct a as [[]|] end; cbn [bind]; [|split; [discriminate|intros (_ & X & _); discriminate]].
  match goal with |- context [bind ?a _] => destruct a as [[]|] end; cbn [bind]; [|split; [discriminate|intros (_ & _ & X & _); discriminate]].
  split; [intro H; repeat split; auto|intros (_ & _ & _ & H); exact H].
Qed.

Lemma order_ok c :
  text_at none_ok (cd_segment c) "inner" -> text_at none_ok (cd_segment c) "outer" ->
  unit_at none_ok int_ok (cd_rel c) "eta_inner" -> unit_at none_ok int_ok (cd_rel c) "eta_outer" ->
  (check_order c = Ok tt <->
   (dget (cd_segment c) "inner" = dget (cd_segment c) "outer" ->
     exists v w a b, dget (cd_rel c) "eta_inner" = Some v /\ dget (cd_rel c) "eta_outer" = Some w /\
       num_val v a /\ num_val w b /\ (a < b)%Q)).
Proof.
  intros T1 T2 U1 U2. unfold text_at, unset in T1, T2. unfold unit_at, unset in U1, U2. unfold check_order, getitem.
  assert (S : forall i o, dget (cd_segment c) "inner" = Some i -> dget (cd_segment c) "outer" = Some o ->
     (same_uid i o = true <-> i = o)).
  { intros i o Gi Go.
    assert (Ti : i = PNone \/ exists s, i = PStr s) by (destruct T1 as [[_ X]|[s X]]; [left|right; exists s]; congruence).
    assert (To : o = PNone \/ exists s, o = PStr s) by (destruct T2 as [[_ X]|[s X]]; [left|right; exists s]; congruence).
    destruct Ti as [->|[s ->]], To as [->|[s' ->]]; cbn; try (split; congruence); try tauto.
    rewrite String.eqb_eq. split; congruence. }
  destruct (dget (cd_segment c) "inner") as [i|]; [|destruct T1 as [[_ X]|[? X]]; discriminate].
  destruct (dget (cd_segment c) "outer") as [o|]; [|destruct T2 as [[_ X]|[? X]]; discriminate].
  specialize (S i o eq_refl eq_refl). cbn [bind].
  destruct (same_uid i o) eqn:E.
  - assert (EQ : i = o) by (apply S; reflexivity). subst o.
    destruct (dget (cd_rel c) "eta_outer") as [w|]; [|destruct U2 as [[_ X]|(? & ? & X & _)]; discriminate].
    destruct (dget (cd_rel c) "eta_inner") as [v|]; [|destruct U1 as [[_ X]|(? & ? & X & _)]; discriminate].
    cbn [bind]. unfold py_le. split.
    + intros H _.
      assert (NV : v = PNone \/ exists a, num_val v a).
      { destruct U1 as [[_ X]|(? & ? & X & (N & _))]; injection X as <-; eauto. }
      assert (NW : w = PNone \/ exists b, num_val w b).
      { destruct U2 as [[_ X]|(? & ? & X & (N & _))]; injection X as <-; eauto. }
      destruct NW as [->|[b NW]]; [discriminate|]. rewrite (proj1 (num_val_iff _ _) NW) in H.
      destruct NV as [->|[a NV]]; [discriminate|]. rewrite (proj1 (num_val_iff _ _) NV) in H. cbn [bind] in H.
      destruct (Qleb b a) eqn:L; [discriminate|]. qbool. exists v, w, a, b. auto.
    + intro H. destruct (H eq_refl) as (v' & w' & a & b & Ev & Ew & Nv & Nw & L). injection Ev as <-. injection Ew as <-.
      rewrite (proj1 (num_val_iff _ _) Nv), (proj1 (num_val_iff _ _) Nw). cbn [bind].
      apply Qleb_false in L. rewrite L. reflexivity.
  - split; [|reflexivity]. intros _ EQ. injection EQ as EQ. apply S in EQ. discriminate.
Qed.

Lemma angle_ok d d' : check_angle d = Ok d' <-> exists q, angle d q /\ d' = PFlt (Some q).
Proof.
  unfold check_angle, angle, is_num, in_90, to_flt. split.
  - intro H. destruct (number_of d) as [[q|]|] eqn:E; cbn in H; try discriminate.
    destruct (Qleb (-90) q && Qleb q 90)%bool eqn:L; cbn in H; [|discriminate]. qbool. exists q. split; [|congruence].
    split; [apply num_val_iff; exact E|]. auto.
  - intros (q & (N & B1 & B2) & ->). apply num_val_iff in N. rewrite N. cbn.
    apply Qleb_true in B1, B2. rewrite B1, B2. reflexivity.
Qed.

Lemma angle_fail d : (forall q, ~ angle d q) -> exists e, check_angle d = Err e.
Proof.
  intro H. destruct (check_angle d) as [d'|e] eqn:E; [|eauto]. apply angle_ok in E as (q & A & _). destruct (H q A).
Qed.

Lemma angle_det d q q' : angle d q -> angle d q' -> q = q'.
Proof. intros [A _] [B _]. apply num_val_iff in A, B. congruence. Qed.

(** The common part before the mirrored deflection. *)
Definition first_part (c : ctldef) : res pyval :=
  let? _ := check_schemas none_ok int_ok c in
  let? _ := (match cd_device c with None => Err ComponentDefinitionError | Some _ => Ok tt end) in
  let? _ := check_order c in
  match cd_deflection c with PNone => Err ComponentDefinitionError | d => check_angle d end.

Lemma first_ok sym c d :
  first_part c = Ok d -> (control_ok none_ok int_ok sym c <-> (sym = true -> cd_mirror c = PNone \/ exists q, angle (cd_mirror c) q)) /\
  exists q, angle (cd_deflection c) q /\ d = PFlt (Some q).
Proof.
  unfold first_part. intro H. destruct (check_schemas none_ok int_ok c) as [[]|] eqn:S; [|discriminate]. cbn [bind] in H.
  apply schemas_ok in S. destruct S as ((T1 & T2) & PN & (U1 & U2 & U3 & U4) & HN).
  destruct (cd_device c) eqn:DV; [|discriminate]. cbn [bind] in H.
  destruct (check_order c) as [[]|] eqn:OR; [|discriminate]. cbn [bind] in H.
  assert (A : check_angle (cd_deflection c) = Ok d) by (destruct (cd_deflection c); try discriminate; exact H).
  apply angle_ok in A. destruct A as (q & A & ->). split; [|eauto].
  unfold control_ok. split.
  - intros (_ & _ & _ & _ & _ & _ & _ & M). exact M.
  - intro M. repeat split; auto; try (apply HN); try congruence; [|eauto]. apply order_ok; assumption.
Qed.

Lemma first_conv sym c : control_ok none_ok int_ok sym c -> exists d, first_part c = Ok d.
Proof.
  intros ((T1 & T2) & PN & (U1 & U2 & U3 & U4) & HN & DV & OR & (q & A) & _). unfold first_part.
  assert (S : check_schemas none_ok int_ok c = Ok tt) by (apply schemas_ok; tauto). rewrite S. cbn [bind].
  destruct (cd_device c); [|congruence]. cbn [bind].
  assert (O : check_order c = Ok tt) by (apply order_ok; assumption). rewrite O. cbn [bind].
  assert (K : check_angle (cd_deflection c) = Ok (PFlt (Some q))) by (apply angle_ok; eauto).
  exists (PFlt (Some q)). destruct A as [N _]. destruct (cd_deflection c); try exact K. inversion N.
Qed.

Lemma check_none sym c d : first_part c = Ok d -> cd_mirror c = PNone ->
  check none_ok int_ok sym c = (set_deflections c d (if sym then d else PNone), Ok tt).
Proof. intros F M. unfold check. fold (first_part c). rewrite F, M. reflexivity. Qed.
Lemma check_some sym c d : first_part c = Ok d -> cd_mirror c <> PNone ->
  check none_ok int_ok sym c =
    if sym then match check_angle (cd_mirror c) with
                | Ok m' => (set_deflections c d m', Ok tt)
                | Err e => (set_deflections c d (cd_mirror c), Err e)
                end
    else (set_deflections c d (cd_mirror c), Ok tt).
Proof. intros F M. unfold check. fold (first_part c). rewrite F. destruct (cd_mirror c); [congruence|reflexivity..]. Qed.
Lemma check_err sym c e : first_part c = Err e -> check none_ok int_ok sym c = (c, Err e).
Proof. intros F. unfold check. fold (first_part c). rewrite F. reflexivity. Qed.
Lemma none_dec (v : pyval) : v = PNone \/ v <> PNone.
Proof. destruct v; [left; reflexivity|right; discriminate..]. Qed.

Theorem check_iff sym c : snd (check none_ok int_ok sym c) = Ok tt <-> control_ok none_ok int_ok sym c.
Proof.
  split.
  - intro H. destruct (first_part c) as [d|e] eqn:F; [|rewrite (check_err _ _ _ F) in H; discriminate].
    destruct (first_ok sym c d F) as [K _]. apply K. intros ->.
    destruct (none_dec (cd_mirror c)) as [M|M]; [left; exact M|right].
    rewrite (check_some _ _ _ F M) in H. destruct (check_angle (cd_mirror c)) as [m'|] eqn:A; [|discriminate].
    apply angle_ok in A. destruct A as (q & A & _). eauto.
  - intro K. destruct (first_conv sym c K) as [d F]. destruct (first_ok sym c d F) as [I _]. pose proof (proj1 I K) as K1.
    destruct (none_dec (cd_mirror c)) as [M|M]; [rewrite (check_none _ _ _ F M); reflexivity|].
    rewrite (check_some _ _ _ F M). destruct sym; [|reflexivity].
    destruct (K1 eq_refl) as [C|[q A]]; [contradiction|].
    assert (A' : check_angle (cd_mirror c) = Ok (PFlt (Some q))) by (apply angle_ok; eauto). rewrite A'. reflexivity.
Qed.

(** What an accepted control looks like. *)
Theorem check_result sym c c' :
  check none_ok int_ok sym c = (c', Ok tt) ->
  (cd_uid c' = cd_uid c /\ cd_device c' = cd_device c /\ cd_segment c' = cd_segment c /\ cd_rel c' = cd_rel c /\
   cd_hinge c' = cd_hinge c /\ cd_panels c' = cd_panels c) /\
  exists q, angle (cd_deflection c) q /\ cd_deflection c' = PFlt (Some q) /\
  (sym = false -> cd_mirror c' = cd_mirror c) /\
  (sym = true -> cd_mirror c = PNone -> cd_mirror c' = PFlt (Some q)) /\
  (sym = true -> cd_mirror c <> PNone -> exists m, angle (cd_mirror c) m /\ cd_mirror c' = PFlt (Some m)).
Proof.
  intro H. destruct (first_part c) as [d|e] eqn:F; [|rewrite (check_err _ _ _ F) in H; discriminate].
  destruct (first_ok sym c d F) as [_ (q & A & ->)].
  destruct (none_dec (cd_mirror c)) as [M|M].
  - rewrite (check_none _ _ _ F M) in H. injection H as <-. split; [repeat split; reflexivity|]. exists q. split; [exact A|].
    cbn. repeat split; [intros ->; congruence|intros -> _; reflexivity|intros _ C; contradiction].
  - rewrite (check_some _ _ _ F M) in H. destruct sym.
    + destruct (check_angle (cd_mirror c)) as [m'|] eqn:E; [|discriminate]. injection H as <-.
      split; [repeat split; reflexivity|]. exists q. split; [exact A|]. cbn.
      repeat split; [discriminate|intros _ C; contradiction|]. intros _ _. apply angle_ok in E. destruct E as (m & E & ->). eauto.
    + injection H as <-. split; [repeat split; reflexivity|]. exists q. split; [exact A|]. cbn.
      repeat split; discriminate.
Qed.

Theorem set_device_iff c v : (exists c', set_device c v = Ok c') <-> v = PStr "slat" \/ v = PStr "flap".
Proof.
  unfold set_device. split.
  - intros [c' H]. destruct v; try discriminate. destruct (String.eqb s "slat") eqn:E; cbn in H; [left; apply String.eqb_eq in E; congruence|].
    destruct (String.eqb s "flap") eqn:E'; cbn in H; [right; apply String.eqb_eq in E'; congruence|discriminate].
  - intros [->| ->]; eexists; reflexivity.
Qed.

(** Checking a second time changes nothing. *)
Theorem check_again sym c c' : check none_ok int_ok sym c = (c', Ok tt) -> check none_ok int_ok sym c' = (c', Ok tt).
Proof.
  intro H. assert (K : control_ok none_ok int_ok sym c) by (apply check_iff; rewrite H; reflexivity).
  destruct (check_result _ _ _ H) as ((E1 & E2 & E3 & E4 & E5 & E6) & q & A & D & M0 & M1 & M2).
  assert (K' : control_ok none_ok int_ok sym c').
  { destruct K as (K1 & K2 & K3 & K4 & K5 & K6 & K7 & K8). unfold control_ok. rewrite E2, E3, E4, E5, E6.
    repeat (split; [assumption|]). rewrite D. split; [exists q; split; [constructor|apply A]|].
    intro S. right. destruct (none_dec (cd_mirror c)) as [M|M].
    - rewrite (M1 S M). exists q. split; [constructor|apply A].
    - destruct (M2 S M) as (m & Am & ->). exists m. split; [constructor|apply Am]. }
  apply check_iff in K'. destruct (check none_ok int_ok sym c') as [c'' r] eqn:E. cbn in K'. subst r. f_equal.
  destruct (check_result _ _ _ E) as ((F1 & F2 & F3 & F4 & F5 & F6) & q' & A' & D' & M0' & M1' & M2').
  rewrite D in A'. destruct A' as [A' _]. inversion A'; subst q'.
  destruct c' as [u dv d m sg rl hg pn], c'' as [u2 dv2 d2 m2 sg2 rl2 hg2 pn2]. cbn in *. subst.
  f_equal. destruct sym; [|apply M0'; reflexivity].
  assert (X : exists x, m = PFlt (Some x)).
  { destruct (none_dec (cd_mirror c)) as [MC|MC]; [rewrite (M1 eq_refl MC); eauto|]. destruct (M2 eq_refl MC) as (x & _ & ->). eauto. }
  destruct X as [x ->]. destruct (M2' eq_refl ltac:(discriminate)) as (y & (N & _) & ->). inversion N. reflexivity.
Qed.

(** ** Exceptions *)
Lemma angle_raises d e : check_angle d = Err e -> angle_error d e.
Proof.
  unfold check_angle, is_num, in_90. intro H. destruct (number_of d) as [[q|]|] eqn:E; cbn in H.
  - destruct (Qleb (-90) q && Qleb q 90)%bool eqn:L; cbn in H; [discriminate|]. injection H as <-.
    apply (ae_range d q); [apply num_val_iff; exact E|]. intros [B1 B2]. apply Qleb_true in B1, B2. rewrite B1, B2 in L. discriminate.
  - injection H as <-. apply ae_nan. destruct d as [| [|] | | [q|] | | | |]; cbn in E; congruence.
  - injection H as <-. apply ae_type; [intros q N; apply num_val_iff in N; congruence|]. intros ->. discriminate.
Qed.
Lemma schemas_raise c e : check_schemas none_ok int_ok c = Err e -> e = SchemaError.
Proof.
  unfold check_schemas. intro H.
  do 3 match type of H with
  | bind (validate ?n ?a ?b ?d) _ = _ => let V := fresh in destruct (validate_cases a b d) as [V|V]; rewrite V in H; cbn [bind] in H; [|congruence]
  end.
  match type of H with validate ?n ?a ?b ?d = _ => destruct (validate_cases a b d); congruence end.
Qed.
Lemma order_raises sym c e : positions_ok none_ok int_ok c -> check_order c = Err e -> control_error none_ok int_ok sym c e.
Proof.
  intros ((T1 & T2) & _ & (U1 & U2 & _) & _) H. unfold check_order, getitem in H. unfold text_at, unset in T1, T2. unfold unit_at, unset in U1, U2.
  destruct (dget (cd_segment c) "inner") as [i|] eqn:EI; [|destruct T1 as [[_ X]|[? X]]; discriminate].
  destruct (dget (cd_segment c) "outer") as [o|] eqn:EO; [|destruct T2 as [[_ X]|[? X]]; discriminate].
  cbn [bind] in H. destruct (same_uid i o) eqn:E; [|discriminate].
  assert (S : one_segment c).
  { unfold one_segment. rewrite EI, EO. destruct i, o; try discriminate; [reflexivity|]. apply String.eqb_eq in E. congruence. }
  destruct (dget (cd_rel c) "eta_outer") as [w|] eqn:EW; [|destruct U2 as [[_ X]|(? & ? & X & _)]; discriminate].
  destruct (dget (cd_rel c) "eta_inner") as [v|] eqn:EV; [|destruct U1 as [[_ X]|(? & ? & X & _)]; discriminate].
  cbn [bind] in H.
  assert (NV : v = PNone \/ exists a, num_val v a).
  { destruct U1 as [[_ X]|(? & ? & X & (N & _))]; injection X as <-; eauto. }
  assert (NW : w = PNone \/ exists b, num_val w b).
  { destruct U2 as [[_ X]|(? & ? & X & (N & _))]; injection X as <-; eauto. }
  destruct NV as [->|[a NV]].
  { assert (e = TypeError) as ->.
    { unfold py_le in H. destruct (number_of w) as [[]|]; cbn in H; congruence. }
    exact (ce_unordered _ _ _ _ "eta_inner" S (or_introl eq_refl) EV). }
  destruct NW as [->|[b NW]].
  { assert (e = TypeError) as -> by (cbn in H; congruence). exact (ce_unordered _ _ _ _ "eta_outer" S (or_intror eq_refl) EW). }
  unfold py_le in H. rewrite (proj1 (num_val_iff _ _) NV), (proj1 (num_val_iff _ _) NW) in H. cbn [bind] in H.
  destruct (Qleb b a) eqn:L; [|discriminate]. injection H as <-. apply Qleb_true in L. exact (ce_order _ _ _ _ v w a b S EV EW NV NW L).
Qed.
Theorem check_raises sym c e : snd (check none_ok int_ok sym c) = Err e -> control_error none_ok int_ok sym c e.
Proof.
  intro H. destruct (first_part c) as [d|e'] eqn:F.
  - destruct (none_dec (cd_mirror c)) as [M|M]; [rewrite (check_none _ _ _ F M) in H; discriminate|].
    rewrite (check_some _ _ _ F M) in H. destruct sym; [|discriminate]. destruct (check_angle (cd_mirror c)) as [m'|] eqn:A; [discriminate|].
    injection H as <-. apply ce_mirror; auto. apply angle_raises. exact A.
  - rewrite (check_err _ _ _ F) in H. injection H as <-. unfold first_part in F.
    destruct (check_schemas none_ok int_ok c) as [[]|] eqn:S; cbn [bind] in F.
    2:{ injection F as <-. rewrite (schemas_raise _ _ S). apply ce_schema. intro P. apply schemas_ok in P. congruence. }
    apply schemas_ok in S. destruct (cd_device c) eqn:D; cbn [bind] in F; [|injection F as <-; apply ce_device; exact D].
    destruct (check_order c) as [[]|] eqn:O; cbn [bind] in F; [|injection F as <-; exact (order_raises _ _ _ S O)].
    destruct (none_dec (cd_deflection c)) as [N|N].
    + rewrite N in F. injection F as <-. apply ce_missing. exact N.
    + apply ce_deflection; [exact N|]. apply angle_raises. destruct (cd_deflection c); [congruence|exact F..].
Qed.
End P.
