(** Vectors in three dimensions over the reals: vocabulary for geometry and aerodynamics. *)
From Coq Require Import Reals Lra Psatz List.
Import ListNotations.
Open Scope R_scope.

Record vec := mkV { vx : R; vy : R; vz : R }.

Definition vzero : vec := mkV 0 0 0.
Definition vadd (u v : vec) : vec := mkV (vx u + vx v) (vy u + vy v) (vz u + vz v).
Definition vsub (u v : vec) : vec := mkV (vx u - vx v) (vy u - vy v) (vz u - vz v).
Definition vscale (k : R) (v : vec) : vec := mkV (k * vx v) (k * vy v) (k * vz v).
Definition vdot (u v : vec) : R := vx u * vx v + vy u * vy v + vz u * vz v.
Definition vcross (u v : vec) : vec :=
  mkV (vy u * vz v - vz u * vy v) (vz u * vx v - vx u * vz v) (vx u * vy v - vy u * vx v).
Definition vnorm (v : vec) : R := sqrt (vx v * vx v + vy v * vy v + vz v * vz v).
Definition vsum (l : list vec) : vec := fold_right vadd vzero l.

Lemma vec_eq u v : vx u = vx v -> vy u = vy v -> vz u = vz v -> u = v.
Proof. destruct u, v; simpl; intros; subst; reflexivity. Qed.

(** Goal [u = v] on vectors: component by component. *)
Ltac vec_eq := apply vec_eq; cbn [vx vy vz vadd vsub vscale vcross vzero].

Lemma sq_nonneg x : 0 <= x * x.
Proof. nra. Qed.

Lemma vdot_self_nonneg v : 0 <= vdot v v.
Proof. unfold vdot. nra. Qed.

Lemma vnorm_nonneg v : 0 <= vnorm v.
Proof. apply sqrt_pos. Qed.

Lemma vnorm_sq v : vnorm v * vnorm v = vdot v v.
Proof. unfold vnorm, vdot. apply sqrt_sqrt. pose proof (vdot_self_nonneg v). unfold vdot in *. lra. Qed.

Lemma vdot_zero v : vdot v v = 0 -> v = vzero.
Proof. unfold vdot. intro H. apply vec_eq; simpl; nra. Qed.

Lemma vnorm_zero v : vnorm v = 0 <-> v = vzero.
Proof.
  split; intro H.
  - apply vdot_zero. rewrite <- vnorm_sq, H. lra.
  - subst. unfold vnorm. simpl. replace (0 * 0 + 0 * 0 + 0 * 0) with 0 by ring. apply sqrt_0.
Qed.

Lemma vnorm_pos v : v <> vzero -> 0 < vnorm v.
Proof.
  intro H. destruct (Rle_lt_or_eq_dec _ _ (vnorm_nonneg v)) as [L|E]; [exact L|].
  exfalso. apply H. apply vnorm_zero. auto.
Qed.

Lemma vnorm_eq_of_sq v r : 0 <= r -> vdot v v = r * r -> vnorm v = r.
Proof. intros H E. unfold vnorm. unfold vdot in E. rewrite E. apply sqrt_square. exact H. Qed.

Lemma vnorm_scale k v : vnorm (vscale k v) = Rabs k * vnorm v.
Proof.
  apply vnorm_eq_of_sq.
  - apply Rmult_le_pos; [apply Rabs_pos|apply vnorm_nonneg].
  - replace (Rabs k * vnorm v * (Rabs k * vnorm v)) with ((Rabs k * Rabs k) * (vnorm v * vnorm v)) by ring.
    rewrite vnorm_sq, <- Rabs_mult, Rabs_right by nra. unfold vdot. simpl. ring.
Qed.

(** Lagrange and Cauchy-Schwarz. *)
Lemma lagrange u v : vdot (vcross u v) (vcross u v) = vdot u u * vdot v v - vdot u v * vdot u v.
Proof. unfold vdot, vcross. simpl. ring. Qed.

Lemma cauchy_sq u v : vdot u v * vdot u v <= vdot u u * vdot v v.
Proof. pose proof (vdot_self_nonneg (vcross u v)). rewrite lagrange in H. lra. Qed.

Lemma cauchy_abs u v : Rabs (vdot u v) <= vnorm u * vnorm v.
Proof.
  pose proof (cauchy_sq u v) as C. rewrite <- !vnorm_sq in C.
  apply Rsqr_incr_0_var; [|apply Rmult_le_pos; apply vnorm_nonneg].
  rewrite <- Rsqr_abs. unfold Rsqr. lra.
Qed.

Lemma vcross_perp_l u v : vdot (vcross u v) u = 0.
Proof. unfold vdot, vcross. simpl. ring. Qed.
Lemma vcross_perp_r u v : vdot (vcross u v) v = 0.
Proof. unfold vdot, vcross. simpl. ring. Qed.

Lemma vcross_anti u v : vcross v u = vscale (-1) (vcross u v).
Proof. vec_eq; ring. Qed.

Lemma vadd_comm u v : vadd u v = vadd v u.
Proof. vec_eq; ring. Qed.
Lemma vadd_assoc u v w : vadd u (vadd v w) = vadd (vadd u v) w.
Proof. vec_eq; ring. Qed.
Lemma vadd_zero_l v : vadd vzero v = v.
Proof. destruct v. vec_eq; ring. Qed.
Lemma vadd_zero_r v : vadd v vzero = v.
Proof. destruct v. vec_eq; ring. Qed.

Lemma vsum_app l l' : vsum (l ++ l') = vadd (vsum l) (vsum l').
Proof.
  induction l as [|v l IH]; simpl; [rewrite vadd_zero_l; reflexivity|].
  rewrite IH. apply vadd_assoc.
Qed.

Definition rsum (l : list R) : R := fold_right Rplus 0 l.

Lemma vsum_x l : vx (vsum l) = rsum (map vx l).
Proof. induction l; simpl; congruence. Qed.
Lemma vsum_y l : vy (vsum l) = rsum (map vy l).
Proof. induction l; simpl; congruence. Qed.
Lemma vsum_z l : vz (vsum l) = rsum (map vz l).
Proof. induction l; simpl; congruence. Qed.
