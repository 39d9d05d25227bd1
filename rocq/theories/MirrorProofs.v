(** Proofs about mirroring and collocation positions (C14, C15, C16, C43). *)
From Coq Require Import Reals List ZArith String Lra Lia Psatz.
From Verif Require Import PyBase Vec PanelModel GeomModel GeomSpec GeomProofs.
Import ListNotations.
Open Scope R_scope.

(** ** C14 *)

Lemma mirror_point_ok v a p : names a p -> mirror_point v a = (v, Ok (refl p v)).
Proof. intros [->| ->]; destruct p; reflexivity. Qed.

Lemma is_plane_false a p : ~ names a p -> is_plane a (plane_str p) (plane_num p) = false.
Proof.
  intro H. destruct a as [n|s]; simpl.
  - apply Z.eqb_neq. intro E. apply H. left. congruence.
  - apply String.eqb_neq. intro E. apply H. right. congruence.
Qed.

Lemma mirror_point_err v a : (forall p, ~ names a p) -> mirror_point v a = (v, Err ValueError).
Proof.
  intro H. unfold mirror_point.
  pose proof (is_plane_false a XY (H XY)) as E1. pose proof (is_plane_false a XZ (H XZ)) as E2.
  pose proof (is_plane_false a YZ (H YZ)) as E3. simpl in E1, E2, E3. rewrite E1, E2, E3. reflexivity.
Qed.

Lemma refl_invol p v : refl p (refl p v) = v.
Proof. destruct p; destruct v; simpl; f_equal; ring. Qed.

Lemma refl_dist p u v : dist (refl p u) (refl p v) = dist u v.
Proof. unfold dist, vnorm. f_equal. destruct p; vsimp; ring. Qed.

Lemma refl_fixed p v : refl p v = v <-> in_plane p v.
Proof.
  destruct p; destruct v as [x y z]; simpl; split; intro H.
  all: try (injection H; intros; lra).
  all: rewrite H; f_equal; ring.
Qed.

Lemma plane_dec a : {p | names a p} + {forall p, ~ names a p}.
Proof.
  destruct a as [n|s].
  - destruct (Z.eq_dec n 1) as [->|N1]; [left; exists XY; left; reflexivity|].
    destruct (Z.eq_dec n 2) as [->|N2]; [left; exists XZ; left; reflexivity|].
    destruct (Z.eq_dec n 3) as [->|N3]; [left; exists YZ; left; reflexivity|].
    right. intros p [E|E]; [|discriminate]. injection E as E. destruct p; simpl in E; congruence.
  - destruct (string_dec s "xy") as [->|N1]; [left; exists XY; right; reflexivity|].
    destruct (string_dec s "xz") as [->|N2]; [left; exists XZ; right; reflexivity|].
    destruct (string_dec s "yz") as [->|N3]; [left; exists YZ; right; reflexivity|].
    right. intros p [E|E]; [discriminate|]. injection E as E. destruct p; simpl in E; congruence.
Qed.

Definition order4 {A} (p : plane) (a b c d : A) : A * A * A * A :=
  match p with XY => (a, b, c, d) | XZ => (b, a, d, c) | YZ => (d, c, b, a) end.

Lemma order_mirrored_ok {A} (a b c d : A) x p : names x p -> order_mirrored (a, b, c, d) x = Ok (order4 p a b c d).
Proof. intros [->| ->]; destruct p; reflexivity. Qed.

Lemma mirror_vertices_ok a b c d x p : names x p ->
  mirror_vertices (a, b, c, d) x = Ok (order4 p (refl p a) (refl p b) (refl p c) (refl p d)).
Proof.
  intros [->| ->]; destruct p; reflexivity.
Qed.

Lemma mirror_vertices_twice a b c d x p : names x p ->
  exists v, mirror_vertices (a, b, c, d) x = Ok v /\ mirror_vertices v x = Ok (a, b, c, d).
Proof.
  intro H. rewrite (mirror_vertices_ok _ _ _ _ _ _ H). eexists. split; [reflexivity|].
  destruct p; unfold order4; rewrite (mirror_vertices_ok _ _ _ _ _ _ H), !refl_invol; reflexivity.
Qed.

Lemma mirror_vertices_err v x : (forall p, ~ names x p) -> mirror_vertices v x = Err ValueError.
Proof. destruct v as [[[a b] c] d]. intro H. unfold mirror_vertices. rewrite (mirror_point_err _ _ H). reflexivity. Qed.

(** ** Reflection and the vector operations *)

Lemma refl_along p a b t : refl p (along a b t) = along (refl p a) (refl p b) t.
Proof. destruct p; vring. Qed.

Lemma along_rev a b t : along a b t = along b a (1 - t).
Proof. vring. Qed.

Definition quad_refl (p : plane) (q : quad) : quad := mkQuad (refl p (qa q)) (refl p (qb q)) (refl p (qc q)) (refl p (qd q)).
Definition quad_order (p : plane) (q : quad) : quad := quad_of (order4 p (qa q) (qb q) (qc q) (qd q)).

(** Parameters of the same point after reordering. *)
Definition par_s (p : plane) (s : R) : R := match p with XZ => 1 - s | _ => s end.
Definition par_c (p : plane) (c : R) : R := match p with YZ => 1 - c | _ => c end.

Lemma surface_refl p q s c : surface (quad_refl p q) s c = refl p (surface q s c).
Proof. unfold surface. rewrite !refl_along. reflexivity. Qed.

Lemma surface_order p q s c : surface (quad_order p q) (par_s p s) (par_c p c) = surface q s c.
Proof. destruct p; unfold quad_order, order4; simpl; vring. Qed.

Lemma par_unit p s c : unit_interval s -> unit_interval c -> unit_interval (par_s p s) /\ unit_interval (par_c p c).
Proof. unfold unit_interval. destruct p; simpl; lra. Qed.

Lemma par_invol p s c : par_s p (par_s p s) = s /\ par_c p (par_c p c) = c.
Proof. destruct p; simpl; split; ring. Qed.

(** The surface of the mirrored and reordered vertices is the mirror image. *)
Lemma mirrored_surface p q v :
  on_surface (quad_order p (quad_refl p q)) v <-> on_surface q (refl p v).
Proof.
  split; intros (s & c & S & C & E).
  - destruct (par_unit p s c S C) as [S' C']. exists (par_s p s), (par_c p c). split; [exact S'|]. split; [exact C'|].
    destruct (par_invol p s c) as [I1 I2]. rewrite <- I1, <- I2, surface_order, surface_refl in E.
    rewrite E. apply refl_invol.
  - destruct (par_unit p s c S C) as [S' C']. exists (par_s p s), (par_c p c). split; [exact S'|]. split; [exact C'|].
    rewrite surface_order, surface_refl, <- E. symmetry. apply refl_invol.
Qed.

(** ** C15 *)

Definition strip_quad (seg : quad) (e : etas) : quad :=
  mkQuad (along (qa seg) (qb seg) (r_eta_a e)) (along (qa seg) (qb seg) (r_eta_b e))
         (along (qd seg) (qc seg) (r_eta_c e)) (along (qd seg) (qc seg) (r_eta_d e)).
Definition sub_quad (sd : quad) (x : xsis) : quad :=
  mkQuad (along (qa sd) (qd sd) (r_xsi_a x)) (along (qb sd) (qc sd) (r_xsi_b x))
         (along (qb sd) (qc sd) (r_xsi_c x)) (along (qa sd) (qd sd) (r_xsi_d x)).

Lemma vadd_along a b t : vadd a (vscale t (vsub b a)) = along a b t.
Proof. vring. Qed.

Lemma strip_plain seg e s : strip_vertices seg e false s = Ok (strip_quad seg e).
Proof. unfold strip_vertices, strip_quad. rewrite !vadd_along. reflexivity. Qed.

Lemma strip_mirror seg e p :
  strip_vertices seg e true (plane_num p) = Ok (quad_order p (quad_refl p (strip_quad seg e))).
Proof.
  unfold strip_vertices. rewrite (mirror_vertices_ok _ _ _ _ _ p) by (left; reflexivity).
  rewrite !vadd_along. cbn [bind]. f_equal.
Qed.

Lemma sub_plain seg e x s : subarea_vertices seg e x false s = Ok (sub_quad (strip_quad seg e) x).
Proof. unfold subarea_vertices. rewrite strip_plain. cbn [bind]. rewrite !vadd_along. reflexivity. Qed.

Definition xsis_order (p : plane) (x : xsis) : xsis :=
  let '(a, b, c, d) := order4 p (r_xsi_a x) (r_xsi_b x) (r_xsi_c x) (r_xsi_d x) in mkXsis a b c d.

Lemma sub_mirror seg e x p :
  subarea_vertices seg e x true (plane_num p) =
  Ok (sub_quad (quad_order p (quad_refl p (strip_quad seg e))) (xsis_order p x)).
Proof.
  unfold subarea_vertices. rewrite strip_mirror. cbn [bind].
  rewrite (order_mirrored_ok _ _ _ _ _ p) by (left; reflexivity).
  destruct p; cbn [bind order4]; rewrite !vadd_along; reflexivity.
Qed.

Lemma sub_mirror_12 sd x p : p <> YZ ->
  sub_quad (quad_order p (quad_refl p sd)) (xsis_order p x) = quad_order p (quad_refl p (sub_quad sd x)).
Proof.
  intro H. destruct p; [| |congruence]; unfold sub_quad, quad_order, quad_refl, order4, quad_of, xsis_order, order4; cbn [qa qb qc qd r_xsi_a r_xsi_b r_xsi_c r_xsi_d].
  - rewrite !(refl_along XY). reflexivity.
  - rewrite !(refl_along XZ). reflexivity.
Qed.

Lemma sub_mirror_3 sd x : r_xsi_a x + r_xsi_d x = 1 -> r_xsi_b x + r_xsi_c x = 1 ->
  sub_quad (quad_order YZ (quad_refl YZ sd)) (xsis_order YZ x) = quad_refl YZ (sub_quad sd x).
Proof.
  intros H1 H2. unfold sub_quad, quad_order, quad_refl, order4, quad_of, xsis_order, order4; cbn [qa qb qc qd r_xsi_a r_xsi_b r_xsi_c r_xsi_d].
  f_equal.
  - rewrite refl_along, along_rev. f_equal. lra.
  - rewrite refl_along, along_rev. f_equal. lra.
  - rewrite refl_along, along_rev. f_equal. lra.
  - rewrite refl_along, along_rev. f_equal. lra.
Qed.

Lemma mirrored_subarea seg e x p :
  p <> YZ \/ (r_xsi_a x + r_xsi_d x = 1 /\ r_xsi_b x + r_xsi_c x = 1) ->
  exists q q', subarea_vertices seg e x false (plane_num p) = Ok q /\
    subarea_vertices seg e x true (plane_num p) = Ok q' /\
    forall v, on_surface q' v <-> on_surface q (refl p v).
Proof.
  intro H. eexists _, _. split; [apply sub_plain|]. split; [apply sub_mirror|]. intro v.
  assert (D : p <> YZ \/ p = YZ) by (destruct p; [left|left|right]; congruence).
  destruct D as [D|D].
  - rewrite sub_mirror_12 by exact D. apply mirrored_surface.
  - subst p. destruct H as [H|[H1 H2]]; [congruence|]. rewrite sub_mirror_3 by assumption.
    split; intros (s & c & S & C & E).
    + exists s, c. rewrite surface_refl in E. rewrite E, refl_invol. auto.
    + exists s, c. rewrite surface_refl, <- E, refl_invol. auto.
Qed.

Lemma hinge_plain seg e h1 h2 s :
  let sd := strip_quad seg e in
  hinge_vertices seg e h1 h2 false s = Ok (along (qa sd) (qd sd) h1, along (qb sd) (qc sd) h2).
Proof. cbv zeta. unfold hinge_vertices. rewrite strip_plain. cbn [bind]. simpl. rewrite !vadd_along. reflexivity. Qed.

Lemma hinge_mirror seg e h1 h2 p :
  let sd := quad_refl p (strip_quad seg e) in
  hinge_vertices seg e h1 h2 true (plane_num p) =
  Ok match p with
     | XY => (along (qa sd) (qd sd) h1, along (qb sd) (qc sd) h2)
     | XZ => (along (qb sd) (qc sd) h2, along (qa sd) (qd sd) h1)
     | YZ => (along (qd sd) (qa sd) h1, along (qc sd) (qb sd) h2)
     end.
Proof.
  cbv zeta. unfold hinge_vertices. rewrite strip_mirror. cbn [bind].
  destruct p; cbn [plane_num andb Z.eqb]; unfold quad_order, order4, quad_of; cbn [qa qb qc qd];
    simpl; rewrite !vadd_along; reflexivity.
Qed.

Lemma mirrored_hinge seg e h1 h2 p :
  p <> YZ \/ (h1 = 1 / 2 /\ h2 = 1 / 2) ->
  exists i o i' o', hinge_vertices seg e h1 h2 false (plane_num p) = Ok (i, o) /\
    hinge_vertices seg e h1 h2 true (plane_num p) = Ok (i', o') /\
    forall v, on_segment i' o' v <-> on_segment i o (refl p v).
Proof.
  intro H.
  destruct p; eexists _, _, _, _; (split; [apply hinge_plain|]); (split; [rewrite hinge_mirror; reflexivity|]); intro v;
    unfold quad_refl; cbn [qa qb qc qd]; rewrite <- !refl_along.
  - split; intros (t & T & E); exists t; (split; [exact T|]).
    + rewrite E, <- !refl_along, refl_invol. reflexivity.
    + rewrite <- !refl_along, <- E, refl_invol. reflexivity.
  - split; intros (t & T & E); exists (1 - t); (split; [unfold unit_interval in *; lra|]).
    + rewrite E, <- !refl_along, refl_invol. apply along_rev.
    + rewrite <- !refl_along, along_rev. replace (1 - (1 - t)) with t by ring. rewrite <- E, refl_invol. reflexivity.
  - destruct H as [H|[-> ->]]; [congruence|].
    set (sd := strip_quad seg e).
    rewrite (along_rev (qd sd) (qa sd)), (along_rev (qc sd) (qb sd)). replace (1 - 1 / 2) with (1 / 2) by field.
    split; intros (t & T & E); exists t; (split; [exact T|]).
    + rewrite E, <- !refl_along, refl_invol. reflexivity.
    + rewrite <- !refl_along, <- E, refl_invol. reflexivity.
Qed.

(** ** C16 *)

Lemma up_mirror p q s c : up (quad_order p (quad_refl p q)) (par_s p s) (par_c p c) = up q s c.
Proof.
  unfold up, tangent_s, tangent_c, quad_order, quad_refl, order4, quad_of, along.
  destruct p; cbn [par_s par_c]; vsimp; ring.
Qed.

Lemma mirrored_up a b c d x p : names x p ->
  exists a' b' c' d', mirror_vertices (a, b, c, d) x = Ok (a', b', c', d') /\
  let q := mkQuad a b c d in let q' := mkQuad a' b' c' d' in
  forall s t, unit_interval s -> unit_interval t ->
  exists s' t', unit_interval s' /\ unit_interval t' /\
    surface q' s' t' = refl p (surface q s t) /\ up q' s' t' = up q s t.
Proof.
  intro N. rewrite (mirror_vertices_ok _ _ _ _ _ _ N).
  set (o := order4 p (refl p a) (refl p b) (refl p c) (refl p d)).
  exists (fst (fst (fst o))), (snd (fst (fst o))), (snd (fst o)), (snd o).
  split; [destruct p; reflexivity|]. cbv zeta.
  assert (E : mkQuad (fst (fst (fst o))) (snd (fst (fst o))) (snd (fst o)) (snd o) =
              quad_order p (quad_refl p (mkQuad a b c d))) by (destruct p; reflexivity).
  rewrite E. intros s t S T. destruct (par_unit p s t S T) as [S' T'].
  exists (par_s p s), (par_c p t). split; [exact S'|]. split; [exact T'|].
  rewrite surface_order, surface_refl. split; [reflexivity|]. apply up_mirror.
Qed.

(** Panels of the mirrored subarea, as the compiled code makes them. *)
Definition flip (p : plane) (v : vec) : vec := match p with XY => vscale (-1) (refl XY v) | _ => refl p v end.

Lemma vnorm_refl p v : vnorm (refl p v) = vnorm v.
Proof. unfold vnorm. f_equal. destruct p; vsimp; ring. Qed.

Lemma raw_xz P Q R S : raw (refl XZ Q) (refl XZ P) (refl XZ S) (refl XZ R) = refl XZ (raw P Q R S).
Proof. rewrite !raw_eq. vring. Qed.
Lemma raw_xy P Q R S : raw (refl XY P) (refl XY Q) (refl XY R) (refl XY S) = vscale (-1) (refl XY (raw P Q R S)).
Proof. rewrite !raw_eq. vring. Qed.

Lemma panel_xz dir P Q R S :
  let p := panel_of_corners dir P Q R S in
  let p' := panel_of_corners (refl XZ dir) (refl XZ Q) (refl XZ P) (refl XZ S) (refl XZ R) in
  pV1 p' = refl XZ (pV4 p) /\ pV2 p' = refl XZ (pV3 p) /\ pV3 p' = refl XZ (pV2 p) /\ pV4 p' = refl XZ (pV1 p) /\
  pC p' = refl XZ (pC p) /\ pB p' = refl XZ (pB p) /\ pN p' = refl XZ (pN p) /\ pA p' = pA p.
Proof.
  cbv zeta. rewrite !pN_eq, raw_xz, vnorm_refl.
  repeat split; try (unfold panel_of_corners; vring; fail).
  unfold panel_of_corners, pan_span, pan_chord. vsimp.
  f_equal; unfold vnorm; f_equal; vsimp; ring.
Qed.

Lemma panel_xy dir P Q R S :
  let p := panel_of_corners dir P Q R S in
  let p' := panel_of_corners (refl XY dir) (refl XY P) (refl XY Q) (refl XY R) (refl XY S) in
  pV1 p' = refl XY (pV1 p) /\ pV2 p' = refl XY (pV2 p) /\ pV3 p' = refl XY (pV3 p) /\ pV4 p' = refl XY (pV4 p) /\
  pC p' = refl XY (pC p) /\ pB p' = refl XY (pB p) /\ pN p' = flip XY (pN p) /\ pA p' = pA p.
Proof.
  cbv zeta. rewrite !pN_eq, raw_xy.
  replace (vnorm (vscale (-1) (refl XY (raw P Q R S)))) with (vnorm (raw P Q R S)).
  2:{ rewrite vnorm_scale, vnorm_refl, Rabs_left by lra. ring. }
  repeat split; try (unfold panel_of_corners; vring; fail).
  - unfold flip. vring.
  - unfold panel_of_corners, pan_span, pan_chord. vsimp.
    f_equal; unfold vnorm; f_equal; vsimp; ring.
Qed.

(** The normal of panel (i, j) keeps its vertical component on the other side (planes 1 and 2). *)
Lemma mirrored_panel_normal dir q ps pc i j p : (1 <= ps)%Z -> (1 <= pc)%Z -> p <> YZ ->
  let j' := match p with XZ => (ps - 1 - j)%Z | _ => j end in
  let pan := make_panel dir q ps pc i j in
  let pan' := make_panel (refl p dir) (quad_order p (quad_refl p q)) ps pc i j' in
  pC pan' = refl p (pC pan) /\ pB pan' = refl p (pB pan) /\ vz (pN pan') = vz (pN pan) /\ pA pan' = pA pan.
Proof.
  intros Hs Hc H. cbv zeta.
  pose proof (IZR_pos _ Hs) as Ps. pose proof (IZR_pos _ Hc) as Pc.
  unfold make_panel. rewrite !corner_surface.
  destruct p; [| |congruence].
  - change (quad_order XY (quad_refl XY q)) with (quad_refl XY q). rewrite !surface_refl.
    destruct (panel_xy dir (surface q (1 / IZR ps * IZR j) (1 / IZR pc * IZR i))
      (surface q (1 / IZR ps * (IZR j + 1)) (1 / IZR pc * IZR i))
      (surface q (1 / IZR ps * (IZR j + 1)) (1 / IZR pc * (IZR i + 1)))
      (surface q (1 / IZR ps * IZR j) (1 / IZR pc * (IZR i + 1)))) as (_ & _ & _ & _ & A & B & N & C).
    rewrite A, B, N, C. repeat split. unfold flip. vsimp. ring.
  - assert (E : forall s c, surface (quad_order XZ (quad_refl XZ q)) s c = refl XZ (surface q (1 - s) c)).
    { intros s c. rewrite <- surface_refl, <- (surface_order XZ (quad_refl XZ q) (1 - s) c). cbn [par_s par_c].
      replace (1 - (1 - s)) with s by ring. reflexivity. }
    rewrite !E. rewrite !minus_IZR.
    replace (1 - 1 / IZR ps * (IZR ps - 1 - IZR j)) with (1 / IZR ps * (IZR j + 1)) by (field; lra).
    replace (1 - 1 / IZR ps * (IZR ps - 1 - IZR j + 1)) with (1 / IZR ps * IZR j) by (field; lra).
    destruct (panel_xz dir (surface q (1 / IZR ps * IZR j) (1 / IZR pc * IZR i))
      (surface q (1 / IZR ps * (IZR j + 1)) (1 / IZR pc * IZR i))
      (surface q (1 / IZR ps * (IZR j + 1)) (1 / IZR pc * (IZR i + 1)))
      (surface q (1 / IZR ps * IZR j) (1 / IZR pc * (IZR i + 1)))) as (_ & _ & _ & _ & A & B & N & C).
    rewrite A, B, N, C. repeat split.
Qed.

(** ** C43 *)

Lemma collocation_point dir sd x n i : (1 <= n)%Z ->
  let c := (IZR i + 3 / 4) / IZR n in
  let left := r_xsi_a x + c * (r_xsi_d x - r_xsi_a x) in
  let right := r_xsi_b x + c * (r_xsi_c x - r_xsi_b x) in
  pC (make_panel dir (sub_quad sd x) 1 n i 0) = midpoint (along (qa sd) (qd sd) left) (along (qb sd) (qc sd) right) /\
  collocation_xsi x n i = (left + right) / 2.
Proof.
  intro Hn. pose proof (IZR_pos _ Hn). cbv zeta. split.
  - unfold make_panel. rewrite !corner_surface. unfold panel_of_corners, sub_quad, surface, midpoint, along.
    replace 0.125 with (1 / 8) by lra. replace 0.375 with (3 / 8) by lra.
    apply vec_eq; vsimp; field; lra.
  - unfold collocation_xsi. replace 0.75 with (3 / 4) by lra. field. lra.
Qed.

Lemma collocation_exact dir sd x n i : (1 <= n)%Z -> r_xsi_a x = r_xsi_b x -> r_xsi_c x = r_xsi_d x ->
  pC (make_panel dir (sub_quad sd x) 1 n i 0) = surface sd (1 / 2) (collocation_xsi x n i).
Proof.
  intros Hn E1 E2. destruct (collocation_point dir sd x n i Hn) as [A B]. rewrite A, B, E1, E2.
  pose proof (IZR_pos _ Hn). unfold surface, midpoint, along. apply vec_eq; vsimp; field; lra.
Qed.

Lemma collocation_range x n i : (0 <= i < n)%Z -> r_xsi_a x + r_xsi_b x < r_xsi_c x + r_xsi_d x ->
  (r_xsi_a x + r_xsi_b x) / 2 < collocation_xsi x n i < (r_xsi_c x + r_xsi_d x) / 2 /\
  collocation_xsi x n i < collocation_xsi x n (i + 1).
Proof.
  intros [Hi Hn] L. assert (0 <= IZR i) by (apply (IZR_le 0); lia).
  assert (IZR i + 1 <= IZR n) by (rewrite <- plus_IZR; apply IZR_le; lia).
  unfold collocation_xsi. rewrite plus_IZR.
  assert (0 < (IZR i + 0.75) / IZR n) by (apply Rdiv_lt_0_compat; lra).
  assert ((IZR i + 0.75) / IZR n < 1) by (apply (Rmult_lt_reg_r (IZR n)); [lra|]; unfold Rdiv; rewrite Rmult_assoc, Rinv_l by lra; lra).
  assert ((IZR i + 1 + 0.75) / IZR n = (IZR i + 0.75) / IZR n + / IZR n) by (field; lra).
  assert (0 < / IZR n) by (apply Rinv_0_lt_compat; lra).
  rewrite H3. nra.
Qed.

(** ** Combinations for the property theorems *)

Lemma mirror_point_spec v a :
  fst (mirror_point v a) = v /\
  (forall p, names a p -> exists w, snd (mirror_point v a) = Ok w /\ snd (mirror_point w a) = Ok v /\
     (w = v <-> in_plane p v) /\
     forall v' w', snd (mirror_point v' a) = Ok w' -> dist w w' = dist v v') /\
  ((forall p, ~ names a p) -> snd (mirror_point v a) = Err ValueError).
Proof.
  split; [reflexivity|]. split.
  - intros p N. exists (refl p v). rewrite !(mirror_point_ok _ _ _ N). cbn [snd]. rewrite refl_invol.
    split; [reflexivity|]. split; [reflexivity|]. split; [apply refl_fixed|].
    intros v' w' E. rewrite (mirror_point_ok _ _ _ N) in E. injection E as <-. apply refl_dist.
  - intro N. rewrite (mirror_point_err _ _ N). reflexivity.
Qed.

(** The lattice does not depend on the trailing direction except through V1 and V4. *)
Lemma panel_dir d d' q ps pc i j :
  let p := make_panel d q ps pc i j in let p' := make_panel d' q ps pc i j in
  pC p = pC p' /\ pB p = pB p' /\ pN p = pN p' /\ pA p = pA p' /\ pP p = pP p' /\ pQ p = pQ p' /\ pR p = pR p' /\ pS p = pS p'.
Proof. repeat split. Qed.

Lemma mirrored_panel_full dir q n i p : (1 <= n)%Z -> p <> YZ ->
  let pan := make_panel dir q 1 n i 0 in
  let pan' := make_panel dir (quad_order p (quad_refl p q)) 1 n i 0 in
  pC pan' = refl p (pC pan) /\ pB pan' = refl p (pB pan) /\ vz (pN pan') = vz (pN pan) /\ pA pan' = pA pan /\
  (p = XZ -> pN pan' = refl XZ (pN pan)) /\ (p = XY -> pN pan' = vscale (-1) (refl XY (pN pan))).
Proof.
  intros Hc H. cbv zeta.
  destruct (mirrored_panel_normal dir q 1 n i 0 p ltac:(lia) Hc H) as (A & B & N & C).
  destruct (panel_dir (refl p dir) dir (quad_order p (quad_refl p q)) 1 n i 0) as (D1 & D2 & D3 & D4 & _).
  replace (match p with XZ => (1 - 1 - 0)%Z | _ => 0%Z end) with 0%Z in * by (destruct p; reflexivity).
  rewrite D1 in A. rewrite D2 in B. rewrite D3 in N. rewrite D4 in C.
  repeat (split; [assumption|]).
  unfold make_panel. rewrite !corner_surface, !pN_eq. split; intros ->.
  - assert (E : forall s c, surface (quad_order XZ (quad_refl XZ q)) s c = refl XZ (surface q (1 - s) c)).
    { intros s c. rewrite <- surface_refl, <- (surface_order XZ (quad_refl XZ q) (1 - s) c). cbn [par_s par_c].
      replace (1 - (1 - s)) with s by ring. reflexivity. }
    rewrite !E.
    replace (1 - 1 / 1 * 0) with (1 / 1 * (0 + 1)) by field. replace (1 - 1 / 1 * (0 + 1)) with (1 / 1 * 0) by field.
    rewrite raw_xz, vnorm_refl. vring.
  - change (quad_order XY (quad_refl XY q)) with (quad_refl XY q). rewrite !surface_refl, raw_xy, vnorm_scale, vnorm_refl, Rabs_left by lra.
    replace (- -1) with 1 by ring. rewrite Rmult_1_l. vring.
Qed.

Lemma mirrored_subarea_panels alpha beta seg e x n i p : (1 <= n)%Z -> p <> YZ ->
  exists q q', subarea_vertices seg e x false (plane_num p) = Ok q /\
    subarea_vertices seg e x true (plane_num p) = Ok q' /\
    let pan := make_panel (trail_dir alpha beta) q 1 n i 0 in
    let pan' := make_panel (trail_dir alpha beta) q' 1 n i 0 in
    pC pan' = refl p (pC pan) /\ pB pan' = refl p (pB pan) /\
    vz (pN pan') = vz (pN pan) /\ pA pan' = pA pan /\
    (p = XZ -> pN pan' = refl XZ (pN pan)) /\ (p = XY -> pN pan' = vscale (-1) (refl XY (pN pan))).
Proof.
  intros Hn H. eexists _, _. split; [apply sub_plain|]. split; [apply sub_mirror|].
  rewrite sub_mirror_12 by exact H. apply mirrored_panel_full; assumption.
Qed.

Definition sq : quad := mkQuad (mkV 0 0 0) (mkV 0 1 0) (mkV 1 1 0) (mkV 1 0 0).
Definition full : etas := mkEtas 0 1 1 0.

Lemma sq_planar : planar sq. Proof. unfold planar, seg_normal, sq, vdot. vsimp. ring. Qed.
Lemma sq_convex : convex sq. Proof. unfold convex, turns, seg_normal, sq, vdot. vsimp. lra. Qed.

Lemma mirror3_refuted : exists seg e x q q' v,
  subarea_vertices seg e x false 3 = Ok q /\ subarea_vertices seg e x true 3 = Ok q' /\
  planar seg /\ convex seg /\ on_surface q' v /\ ~ on_surface q (refl YZ v).
Proof.
  exists sq, full, (mkXsis (7/10) (7/10) 1 1). eexists _, _, (mkV 0 0 0).
  split; [apply sub_plain|]. split; [apply (sub_mirror sq full _ YZ)|].
  split; [apply sq_planar|]. split; [apply sq_convex|]. split.
  - exists 0, 0. split; [unfold unit_interval; lra|]. split; [unfold unit_interval; lra|].
    unfold sub_quad, quad_order, quad_refl, strip_quad, sq, full, xsis_order, order4, quad_of. vring.
  - intros (s & c & S & C & E). unfold unit_interval in *. apply (f_equal vx) in E.
    unfold sub_quad, strip_quad, sq, full, surface, along in E. vsimp. nra.
Qed.

Lemma hinge3_refuted : exists seg e h i o i' o',
  hinge_vertices seg e h h false 3 = Ok (i, o) /\ hinge_vertices seg e h h true 3 = Ok (i', o') /\
  planar seg /\ convex seg /\ ~ on_segment i o (refl YZ i').
Proof.
  exists sq, full, (7/10). eexists _, _, _, _.
  split; [apply hinge_plain|]. split; [apply (hinge_mirror sq full _ _ YZ)|].
  split; [apply sq_planar|]. split; [apply sq_convex|].
  intros (t & T & E). unfold unit_interval in *. apply (f_equal vx) in E.
  unfold quad_refl, strip_quad, sq, full, along in E. vsimp. nra.
Qed.

Lemma up3_refuted : exists seg e x q q',
  subarea_vertices seg e x false 3 = Ok q /\ subarea_vertices seg e x true 3 = Ok q' /\
  planar seg /\ convex seg /\
  (forall v, on_surface q' v <-> on_surface q (refl YZ v)) /\
  forall s t, unit_interval s -> unit_interval t -> up q s t < 0 /\ 0 < up q' s t.
Proof.
  destruct (mirrored_subarea sq full (mkXsis 0 0 1 1) YZ) as (q & q' & A & B & C).
  { right. vsimp. lra. }
  exists sq, full, (mkXsis 0 0 1 1), q, q'. split; [exact A|]. split; [exact B|].
  split; [apply sq_planar|]. split; [apply sq_convex|]. split; [exact C|].
  rewrite sub_plain in A. rewrite (sub_mirror sq full _ YZ) in B. injection A as <-. injection B as <-.
  intros s t S T. unfold up, tangent_s, tangent_c, sub_quad, quad_order, quad_refl, strip_quad, sq, full, xsis_order, order4, quad_of, along.
  vsimp. lra.
Qed.

Lemma collocation_spec alpha beta seg e x n i sym : (0 <= i < n)%Z ->
  exists sd q, strip_vertices seg e false sym = Ok sd /\ subarea_vertices seg e x false sym = Ok q /\
  let pan := make_panel (trail_dir alpha beta) q 1 n i 0 in
  let xsi := collocation_xsi x n i in
  (exists left right,
     along (pP pan) (pS pan) (3 / 4) = along (qa sd) (qd sd) left /\
     along (pQ pan) (pR pan) (3 / 4) = along (qb sd) (qc sd) right /\
     xsi = (left + right) / 2) /\
  (r_xsi_a x = r_xsi_b x -> r_xsi_c x = r_xsi_d x -> pC pan = surface sd (1 / 2) xsi) /\
  (r_xsi_a x + r_xsi_b x < r_xsi_c x + r_xsi_d x ->
     (r_xsi_a x + r_xsi_b x) / 2 < xsi < (r_xsi_c x + r_xsi_d x) / 2 /\ xsi < collocation_xsi x n (i + 1)).
Proof.
  intro Hi. assert (Hn : (1 <= n)%Z) by lia. pose proof (IZR_pos _ Hn) as Pn.
  eexists _, _. split; [apply strip_plain|]. split; [apply sub_plain|]. cbv zeta. split; [|split].
  - eexists _, _. split; [|split; [|apply (proj2 (collocation_point vzero (strip_quad seg e) x n i Hn))]].
    + unfold make_panel, panel_of_corners. vsimp. rewrite !corner_surface. unfold surface, sub_quad, along.
      apply vec_eq; vsimp; field; lra.
    + unfold make_panel, panel_of_corners. vsimp. rewrite !corner_surface. unfold surface, sub_quad, along.
      apply vec_eq; vsimp; field; lra.
  - intros. apply collocation_exact; assumption.
  - intros. apply collocation_range; assumption.
Qed.

Lemma collocation_mirrored alpha beta seg e x n i p : (0 <= i < n)%Z -> p <> YZ ->
  r_xsi_a x = r_xsi_b x -> r_xsi_c x = r_xsi_d x ->
  exists sd q', strip_vertices seg e false (plane_num p) = Ok sd /\ subarea_vertices seg e x true (plane_num p) = Ok q' /\
  pC (make_panel (trail_dir alpha beta) q' 1 n i 0) = refl p (surface sd (1 / 2) (collocation_xsi x n i)).
Proof.
  intros Hi H E1 E2. eexists _, _. split; [apply strip_plain|]. split; [apply sub_mirror|].
  rewrite sub_mirror_12 by exact H.
  rewrite (proj1 (mirrored_panel_full _ _ n i p ltac:(lia) H)), collocation_exact by (assumption || lia). reflexivity.
Qed.

Lemma pC_x dir P Q R S : vx (pC (panel_of_corners dir P Q R S)) = 0.125 * (vx P + vx Q) + 0.375 * (vx R + vx S).
Proof. reflexivity. Qed.

Lemma collocation3_refuted : exists seg e x n sd q',
  strip_vertices seg e false 3 = Ok sd /\ subarea_vertices seg e x true 3 = Ok q' /\
  r_xsi_a x = r_xsi_b x /\ r_xsi_c x = r_xsi_d x /\ (0 < n)%Z /\
  forall alpha beta, pC (make_panel (trail_dir alpha beta) q' 1 n 0 0) <> refl YZ (surface sd (1 / 2) (collocation_xsi x n 0)).
Proof.
  exists sq, full, (mkXsis (7/10) (7/10) 1 1), 1%Z. eexists _, _.
  split; [apply strip_plain|]. split; [apply (sub_mirror sq full _ YZ)|].
  split; [reflexivity|]. split; [reflexivity|]. split; [lia|].
  intros alpha beta E. apply (f_equal vx) in E. unfold make_panel in E. rewrite !corner_surface in E.
  rewrite pC_x in E. unfold collocation_xsi, surface in E.
  unfold sub_quad, quad_order, quad_refl, strip_quad, sq, full, xsis_order, order4, quad_of, along in E.
  vsimp. lra.
Qed.
