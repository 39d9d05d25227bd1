(** Proofs for deformed wings (C65, C66, C67). *)
From Coq Require Import Reals ZArith Lra Bool String.
From Verif Require Import PyBase Vec PanelModel GeomModel GeomSpec GeomProofs MirrorProofs DeformGeomModel DeformGeomSpec.
Open Scope R_scope.

Lemma seg_point_0 q eta : seg_point q eta 0 = along (qa q) (qb q) eta.
Proof. unfold seg_point. vring. Qed.
Lemma seg_point_1 q eta : seg_point q eta 1 = along (qd q) (qc q) eta.
Proof. unfold seg_point. vring. Qed.

Definition quad_map (g : vec -> vec) (q : quad) : quad := mkQuad (g (qa q)) (g (qb q)) (g (qc q)) (g (qd q)).

Lemma point_plain f seg eta xsi s : deformed_point f seg eta xsi false s = Ok (moves f false (seg_point seg eta xsi)).
Proof. unfold deformed_point, moves. cbn [bind]. destruct (f_field f); reflexivity. Qed.
Lemma point_mirror f seg eta xsi p :
  deformed_point f seg eta xsi true (plane_num p) = Ok (moves f true (refl p (seg_point seg eta xsi))).
Proof.
  unfold deformed_point, moves. rewrite (mirror_point_ok _ _ p) by (left; reflexivity). cbn [snd bind].
  destruct (f_mirror f); reflexivity.
Qed.
Lemma not_deformed f m p : is_deformed f = false -> moves f m p = p.
Proof. unfold is_deformed, moves. destruct (f_field f), (f_mirror f), m; try discriminate; reflexivity. Qed.

Lemma quad_map_id f m q : is_deformed f = false -> quad_map (moves f m) q = q.
Proof. intro D. unfold quad_map. rewrite !(not_deformed f m _ D). destruct q; reflexivity. Qed.

(** The strip is the deformed undeformed strip. *)
Lemma strip_d_plain f seg e s : strip_vertices_d f seg e false s = Ok (quad_map (moves f false) (strip_quad seg e)).
Proof.
  unfold strip_vertices_d. destruct (is_deformed f) eqn:D.
  - rewrite !point_plain. cbn [bind]. rewrite !seg_point_0, !seg_point_1. reflexivity.
  - rewrite strip_plain, (quad_map_id _ _ _ D). reflexivity.
Qed.
Lemma strip_d_mirror f seg e p : strip_vertices_d f seg e true (plane_num p) =
  Ok (quad_order p (quad_map (moves f true) (quad_refl p (strip_quad seg e)))).
Proof.
  unfold strip_vertices_d. destruct (is_deformed f) eqn:D.
  - rewrite !point_mirror. cbn [bind]. rewrite (order_mirrored_ok _ _ _ _ _ p) by (left; reflexivity).
    rewrite !seg_point_0, !seg_point_1. reflexivity.
  - rewrite strip_mirror, (quad_map_id _ _ _ D). reflexivity.
Qed.

(** The strip [q] as a segment. *)
Definition whole : etas := mkEtas 0 1 1 0.
Lemma whole_strip q : strip_quad q whole = q.
Proof. destruct q as [a b c d]. unfold strip_quad, whole. cbn [qa qb qc qd r_eta_a r_eta_b r_eta_c r_eta_d]. f_equal; vring. Qed.

Lemma sub_d f seg e x m s sd : strip_vertices_d f seg e m s = Ok sd -> forall q, strip_vertices q whole m s = Ok sd ->
  subarea_vertices_d f seg e x m s = subarea_vertices q whole x m s.
Proof. intros H q H'. unfold subarea_vertices_d, subarea_vertices. rewrite H, H'. reflexivity. Qed.
Lemma hinge_d f seg e h1 h2 m s sd : strip_vertices_d f seg e m s = Ok sd -> forall q, strip_vertices q whole m s = Ok sd ->
  hinge_vertices_d f seg e h1 h2 m s = hinge_vertices q whole h1 h2 m s.
Proof. intros H q H'. unfold hinge_vertices_d, hinge_vertices. rewrite H, H'. reflexivity. Qed.

(** ** C65 *)
Lemma at_rest_map f m q : at_rest f m -> quad_map (moves f m) q = q.
Proof. intro H. unfold quad_map. rewrite !H. destruct q; reflexivity. Qed.

Lemma err_plane sym : (forall p, sym <> plane_num p) -> forall p, ~ names (PlInt sym) p.
Proof. intros H p [E|E]; [injection E as ->; exact (H p eq_refl)|discriminate]. Qed.
Lemma plane_cases sym : (exists p, sym = plane_num p) \/ forall p, sym <> plane_num p.
Proof.
  destruct (Z.eq_dec sym 1) as [->|A]; [left; exists XY; reflexivity|]. destruct (Z.eq_dec sym 2) as [->|B]; [left; exists XZ; reflexivity|].
  destruct (Z.eq_dec sym 3) as [->|C]; [left; exists YZ; reflexivity|]. right. intros []; assumption.
Qed.

Theorem strip_at_rest f seg e m sym : at_rest f m -> strip_vertices_d f seg e m sym = strip_vertices seg e m sym.
Proof.
  intro H. destruct m.
  - destruct (plane_cases sym) as [[p ->]|N].
    + rewrite strip_d_mirror, strip_mirror, (at_rest_map _ _ _ H). reflexivity.
    + unfold strip_vertices_d, strip_vertices. destruct (is_deformed f); [|reflexivity]. unfold deformed_point.
      rewrite (mirror_point_err _ _ (err_plane sym N)), (mirror_vertices_err _ _ (err_plane sym N)). reflexivity.
  - rewrite strip_d_plain, strip_plain, (at_rest_map _ _ _ H). reflexivity.
Qed.
Theorem all_at_rest f seg e x h1 h2 m sym : at_rest f m ->
  strip_vertices_d f seg e m sym = strip_vertices seg e m sym /\
  subarea_vertices_d f seg e x m sym = subarea_vertices seg e x m sym /\
  hinge_vertices_d f seg e h1 h2 m sym = hinge_vertices seg e h1 h2 m sym.
Proof.
  intro H. assert (S := strip_at_rest f seg e m sym H). split; [exact S|].
  split; [unfold subarea_vertices_d, subarea_vertices|unfold hinge_vertices_d, hinge_vertices]; rewrite S; reflexivity.
Qed.

(** ** C66 *)
Lemma symmetric_strip f seg e p : symmetric f p ->
  strip_vertices_d f seg e true (plane_num p) =
  strip_vertices (quad_map (moves f false) (strip_quad seg e)) whole true (plane_num p).
Proof.
  intro H. rewrite strip_d_mirror, strip_mirror, whole_strip. unfold quad_refl, quad_map. cbn [qa qb qc qd]. rewrite !H. reflexivity.
Qed.
Lemma plain_strip f seg e s :
  strip_vertices_d f seg e false s = strip_vertices (quad_map (moves f false) (strip_quad seg e)) whole false s.
Proof. rewrite strip_d_plain, strip_plain, whole_strip. reflexivity. Qed.

Lemma symmetric_sub f seg e x h1 h2 p m : symmetric f p ->
  let q := quad_map (moves f false) (strip_quad seg e) in
  strip_vertices_d f seg e m (plane_num p) = strip_vertices q whole m (plane_num p) /\
  subarea_vertices_d f seg e x m (plane_num p) = subarea_vertices q whole x m (plane_num p) /\
  hinge_vertices_d f seg e h1 h2 m (plane_num p) = hinge_vertices q whole h1 h2 m (plane_num p).
Proof.
  intros H q. assert (S : strip_vertices_d f seg e m (plane_num p) = strip_vertices q whole m (plane_num p)).
  { destruct m; [exact (symmetric_strip f seg e p H)|exact (plain_strip f seg e _)]. }
  split; [exact S|]. split; [unfold subarea_vertices_d, subarea_vertices|unfold hinge_vertices_d, hinge_vertices]; rewrite S; reflexivity.
Qed.

Theorem symmetric_image f seg e x h1 h2 p : symmetric f p -> p <> YZ ->
  (exists q q', subarea_vertices_d f seg e x false (plane_num p) = Ok q /\
     subarea_vertices_d f seg e x true (plane_num p) = Ok q' /\
     forall v, on_surface q' v <-> on_surface q (refl p v)) /\
  (exists i o i' o', hinge_vertices_d f seg e h1 h2 false (plane_num p) = Ok (i, o) /\
     hinge_vertices_d f seg e h1 h2 true (plane_num p) = Ok (i', o') /\
     forall v, on_segment i' o' v <-> on_segment i o (refl p v)).
Proof.
  intros H N. destruct (symmetric_sub f seg e x h1 h2 p true H) as (_ & S1 & H1). destruct (symmetric_sub f seg e x h1 h2 p false H) as (_ & S2 & H2).
  rewrite S1, H1, S2, H2. split; [apply mirrored_subarea|apply mirrored_hinge]; auto.
Qed.
Theorem symmetric_panels f alpha beta seg e x n i p : symmetric f p -> (1 <= n)%Z -> p <> YZ ->
  exists q q', subarea_vertices_d f seg e x false (plane_num p) = Ok q /\
    subarea_vertices_d f seg e x true (plane_num p) = Ok q' /\
    let pan := make_panel (trail_dir alpha beta) q 1 n i 0 in
    let pan' := make_panel (trail_dir alpha beta) q' 1 n i 0 in
    pC pan' = refl p (pC pan) /\ pB pan' = refl p (pB pan) /\
    vz (pN pan') = vz (pN pan) /\ pA pan' = pA pan.
Proof.
  intros H N P. destruct (symmetric_sub f seg e x 0 0 p true H) as (_ & S1 & _). destruct (symmetric_sub f seg e x 0 0 p false H) as (_ & S2 & _).
  rewrite S1, S2. destruct (mirrored_subarea_panels alpha beta (quad_map (moves f false) (strip_quad seg e)) whole x n i p N P) as (q & q' & A & B & C & D & E & F & _).
  exists q, q'. auto 10.
Qed.

(** ** C67 *)
Lemma meet_spanwise_sym q1 q2 : meet_spanwise q1 q2 -> meet_spanwise q2 q1.
Proof. intros [[A B]|[A B]]; [right|left]; auto. Qed.
Lemma meet_order p q1 q2 : qb q1 = qa q2 -> qc q1 = qd q2 -> meet_spanwise (quad_order p q1) (quad_order p q2).
Proof.
  destruct q1 as [a b c d], q2 as [a' b' c' d']. cbn [qa qb qc qd]. intros -> ->. unfold meet_spanwise, quad_order, order4, quad_of. destruct p; cbn [qa qb qc qd]; auto.
Qed.

(** Two strips with a common edge before the deformation. *)
Lemma strips_meet f seg1 seg2 e1 e2 m sym q1 q2 :
  qb (strip_quad seg1 e1) = qa (strip_quad seg2 e2) -> qc (strip_quad seg1 e1) = qd (strip_quad seg2 e2) ->
  strip_vertices_d f seg1 e1 m sym = Ok q1 -> strip_vertices_d f seg2 e2 m sym = Ok q2 -> meet_spanwise q1 q2.
Proof.
  intros B C H1 H2. destruct m.
  - destruct (plane_cases sym) as [[p ->]|N].
    + rewrite strip_d_mirror in H1, H2. injection H1 as <-. injection H2 as <-. apply meet_order; unfold quad_map, quad_refl; cbn [qa qb qc qd]; congruence.
    + exfalso. unfold strip_vertices_d, strip_vertices, deformed_point in H1.
      rewrite (mirror_point_err _ _ (err_plane sym N)), (mirror_vertices_err _ _ (err_plane sym N)) in H1. destruct (is_deformed f); discriminate.
  - rewrite strip_d_plain in H1, H2. injection H1 as <-. injection H2 as <-. left. unfold quad_map. cbn [qa qb qc qd]. split; congruence.
Qed.
Theorem neighbour_strips f seg e1 e2 m sym q1 q2 : r_eta_b e1 = r_eta_a e2 -> r_eta_c e1 = r_eta_d e2 ->
  strip_vertices_d f seg e1 m sym = Ok q1 -> strip_vertices_d f seg e2 m sym = Ok q2 -> meet_spanwise q1 q2.
Proof.
  intros B C. apply strips_meet; unfold strip_quad; cbn [qa qb qc qd]; congruence.
Qed.
Theorem neighbour_segments f seg1 seg2 e1 e2 m sym q1 q2 : qb seg1 = qa seg2 -> qc seg1 = qd seg2 ->
  r_eta_b e1 = 1 -> r_eta_c e1 = 1 -> r_eta_a e2 = 0 -> r_eta_d e2 = 0 ->
  strip_vertices_d f seg1 e1 m sym = Ok q1 -> strip_vertices_d f seg2 e2 m sym = Ok q2 -> meet_spanwise q1 q2.
Proof.
  intros B C E1 E2 E3 E4. apply strips_meet; unfold strip_quad; cbn [qa qb qc qd]; rewrite ?E1, ?E2, ?E3, ?E4.
  - transitivity (qb seg1); [vring|]. rewrite B. vring.
  - transitivity (qc seg1); [vring|]. rewrite C. vring.
Qed.
Theorem neighbour_subareas f seg e x1 x2 m sym q1 q2 : r_xsi_d x1 = r_xsi_a x2 -> r_xsi_c x1 = r_xsi_b x2 ->
  subarea_vertices_d f seg e x1 m sym = Ok q1 -> subarea_vertices_d f seg e x2 m sym = Ok q2 -> meet_chordwise q1 q2.
Proof.
  intros D C H1 H2. unfold subarea_vertices_d in H1, H2. destruct (strip_vertices_d f seg e m sym) as [sd|]; [|discriminate]. cbn [bind] in H1, H2.
  destruct m.
  - destruct (plane_cases sym) as [[p ->]|N].
    + rewrite (order_mirrored_ok _ _ _ _ _ p) in H1 by (left; reflexivity). rewrite (order_mirrored_ok _ _ _ _ _ p) in H2 by (left; reflexivity).
      unfold meet_chordwise. destruct p; cbn [bind order4] in H1, H2; injection H1 as <-; injection H2 as <-; cbn [qa qb qc qd]; rewrite ?D, ?C; auto.
    + exfalso. assert (E1 := is_plane_false (PlInt sym) XY (err_plane sym N XY)). assert (E2 := is_plane_false (PlInt sym) XZ (err_plane sym N XZ)).
      assert (E3 := is_plane_false (PlInt sym) YZ (err_plane sym N YZ)). cbn [plane_str plane_num] in E1, E2, E3. unfold order_mirrored in H1. rewrite E1, E2, E3 in H1. discriminate.
  - cbn [bind] in H1, H2. injection H1 as <-. injection H2 as <-. left. cbn [qa qb qc qd]. rewrite ?D, ?C. auto.
Qed.

Lemma devices_meet f seg1 seg2 e1 e2 x1 x2 m sym q1 q2 :
  qb (strip_quad seg1 e1) = qa (strip_quad seg2 e2) -> qc (strip_quad seg1 e1) = qd (strip_quad seg2 e2) ->
  r_xsi_b x1 = r_xsi_a x2 -> r_xsi_c x1 = r_xsi_d x2 ->
  subarea_vertices_d f seg1 e1 x1 m sym = Ok q1 -> subarea_vertices_d f seg2 e2 x2 m sym = Ok q2 -> meet_spanwise q1 q2.
Proof.
  intros B C XB XC H1 H2. unfold subarea_vertices_d in H1, H2. destruct m.
  - destruct (plane_cases sym) as [[p ->]|N].
    + rewrite strip_d_mirror in H1, H2. cbn [bind] in H1, H2.
      set (s1 := strip_quad seg1 e1) in *. set (s2 := strip_quad seg2 e2) in *. clearbody s1 s2.
      destruct s1 as [a1 b1 c1 d1], s2 as [a2 b2 c2 d2]. cbn [qa qb qc qd] in B, C. subst b1 c1.
      rewrite (order_mirrored_ok _ _ _ _ _ p) in H1 by (left; reflexivity). rewrite (order_mirrored_ok _ _ _ _ _ p) in H2 by (left; reflexivity).
      unfold meet_spanwise, quad_order, quad_map, quad_refl, quad_of in *.
      destruct p; cbn [bind order4 qa qb qc qd] in H1, H2; injection H1 as <-; injection H2 as <-; cbn [qa qb qc qd]; rewrite XB, XC; auto.
    + exfalso. unfold strip_vertices_d, strip_vertices, deformed_point in H1.
      rewrite (mirror_point_err _ _ (err_plane sym N)), (mirror_vertices_err _ _ (err_plane sym N)) in H1. destruct (is_deformed f); discriminate.
  - rewrite strip_d_plain in H1, H2. cbn [bind] in H1, H2.
    set (s1 := strip_quad seg1 e1) in *. set (s2 := strip_quad seg2 e2) in *. clearbody s1 s2.
    destruct s1 as [a1 b1 c1 d1], s2 as [a2 b2 c2 d2]. cbn [qa qb qc qd] in B, C. subst b1 c1. injection H1 as <-. injection H2 as <-. left. unfold quad_map. cbn [qa qb qc qd].
    rewrite XB, XC. auto.
Qed.
Theorem neighbour_devices f seg e1 e2 x1 x2 m sym q1 q2 : r_eta_b e1 = r_eta_a e2 -> r_eta_c e1 = r_eta_d e2 ->
  r_xsi_b x1 = r_xsi_a x2 -> r_xsi_c x1 = r_xsi_d x2 ->
  subarea_vertices_d f seg e1 x1 m sym = Ok q1 -> subarea_vertices_d f seg e2 x2 m sym = Ok q2 -> meet_spanwise q1 q2.
Proof. intros B C. apply devices_meet; unfold strip_quad; cbn [qa qb qc qd]; congruence. Qed.
