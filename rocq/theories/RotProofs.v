(** Rotations of vectors (C13, C40). *)
From Coq Require Import Reals List ZArith String Lra Lia Psatz QArith Qreals.
From Verif Require Import PyBase Vec PanelModel GeomModel GeomSpec GeomProofs MirrorProofs NormalModel.
Import ListNotations.
Open Scope R_scope.

Lemma unit_axis axis : axis <> vzero -> let k := vscale (/ vnorm axis) axis in vdot k k = 1.
Proof. intro H. cbv zeta. rewrite <- vnorm_sq, normalised_unit by exact H. ring. Qed.

Lemma rot_dot axis th u v : axis <> vzero -> vdot (rot axis th u) (rot axis th v) = vdot u v.
Proof.
  intro H. pose proof (unit_axis axis H) as K. cbv zeta in K. unfold rot.
  set (k := vscale (/ vnorm axis) axis) in *. clearbody k.
  pose proof (sin2_cos2 th) as SC. unfold Rsqr in SC. set (s := sin th) in *. set (c := cos th) in *. clearbody s c.
  transitivity (c * c * vdot u v + s * s * (vdot k k * vdot u v - vdot k u * vdot k v)
    + (1 - c) * (1 - c) * vdot k u * vdot k v * vdot k k + 2 * c * (1 - c) * vdot k u * vdot k v).
  - unfold vdot. vsimp. ring.
  - rewrite K. replace (s * s) with (1 - c * c) by lra. ring.
Qed.

Lemma rot_norm axis th v : axis <> vzero -> vnorm (rot axis th v) = vnorm v.
Proof. intro H. apply vnorm_eq_of_sq; [apply vnorm_nonneg|]. rewrite rot_dot, vnorm_sq by exact H. reflexivity. Qed.

Lemma rot_zero axis v : rot axis 0 v = v.
Proof. unfold rot. rewrite cos_0, sin_0. apply vec_eq; vsimp; ring. Qed.

Lemma rot_axis axis th : axis <> vzero -> rot axis th axis = axis.
Proof.
  intro H. pose proof (vnorm_pos _ H) as P. unfold rot.
  replace (vdot (vscale (/ vnorm axis) axis) axis) with (vnorm axis).
  - apply vec_eq; vsimp; field; lra.
  - rewrite vdot_scale_l, <- vnorm_sq. field. lra.
Qed.

Lemma rot_refl p axis th v : refl p (rot axis th v) = rot (vscale (-1) (refl p axis)) th (refl p v).
Proof.
  unfold rot. replace (vnorm (vscale (-1) (refl p axis))) with (vnorm axis).
  - unfold vdot. destruct p; apply vec_eq; vsimp; ring.
  - rewrite vnorm_scale, vnorm_refl, Rabs_left by lra. ring.
Qed.
