(** An aircraft of one panel, its lattice and its loads. *)
From Coq Require Import Reals ZArith String QArith Qreals List Lra Lia.
From Verif Require Import PyBase Vec StripModel StripSpec AircraftModel LatticeModel LatticeSpec PanelModel GeomModel GeomSpec
  NormalModel NormalSpec NormalProofs EnumProofs GeomProofs VlmModel VlmSpec VlmProofs VlmLaws VlmSymmetry VlmExample
  IsoSpec StripRun MirrorProofs Props_Strips.
Import ListNotations.
Open Scope R_scope.

Definition one_seg : wsegment := mkWS "s" (Some 1%Z) (Some 1%Z) 1 (run lin_interp []).
Definition one_ac : aircraft := mkAC "one" [("w", mkWing "w" 0 [("s", one_seg)] [])]%string.
Definition one_geo (w s : string) : quad := mkQuad (mkV (-1) (-1) 0) (mkV (-1) 1 0) (mkV 3 1 0) (mkV 3 (-1) 0).

Lemma one_panelled : panelled one_ac.
Proof.
  intros wn w sn s [E|[]] Is; injection E as <- <-. destruct Is as [E|[]]. injection E as <- <-. split.
  - exists lin_interp, []. split; [left; exact lin_interp_ok|reflexivity].
  - intros st k v c I1 I2 E. exfalso.
    assert (X : forallb (fun st => forallb (fun kv => match sa_ctrl (snd kv) with Some _ => false | None => true end) (st_subs st)) (ws_strips one_seg) = true)
      by (vm_compute; reflexivity).
    rewrite forallb_forall in X. specialize (X _ I1). rewrite forallb_forall in X. specialize (X _ I2). cbn [snd] in X. rewrite E in X. discriminate.
Qed.
Lemma one_counts : counts_set one_ac.
Proof.
  intros wn w [E|[]]; injection E as <- <-. split; intros n x I; [|destruct I]. destruct I as [E|[]]. injection E as <- <-.
  eexists; split; [reflexivity|lia].
Qed.
Lemma one_flags : flags_ok one_ac.
Proof. intros wn w [E|[]]; injection E as <- <-; cbn; auto. Qed.
Lemma one_undeflected : undeflected one_ac.
Proof. intros wn w cn c [E|[]]; injection E as <- <-; intros []. Qed.

Definition pan2 : panel := set_normal pan1 (mkV 0 0 (-1)).
Lemma lat2_solved eps s r : 0 < eps -> exists g o, loads eps [pan2] s r g o.
Proof.
  intro E. destruct (lat1_downwash eps E) as (a & D & A).
  assert (D2 : downwash eps [pan2] = Some [[- a]]).
  { unfold downwash, lat1 in D. unfold downwash. cbn [all_some] in D |- *. change (horseshoe eps (pC pan2) pan2) with (horseshoe eps (pC pan1) pan1).
    destruct (horseshoe eps (pC pan1) pan1) as [w|]; [|discriminate]. injection D as D. cbn. do 3 f_equal. rewrite <- D. unfold vdot, pan2, pan1, set_normal. vsimp. ring. }
  destruct (one_unique (- a) (vdot (vscale (-1) (onset s (r_CG r) (pC pan2))) (pN pan2)) ltac:(lra)) as (U & S).
  assert (RG : regular [pan2]).
  { intros i j [<-|[]] [<-|[]]. exact (lat1_regular pan1 pan1 (or_introl eq_refl) (or_introl eq_refl)). }
  destruct (regular_finite eps [pan2] s r [vdot (vscale (-1) (onset s (r_CG r) (pC pan2))) (pN pan2) / - a] E RG eq_refl) as (_ & o & _ & _ & H & _).
  eexists _, o. exists [[- a]]. unfold boundary. cbn [map]. rewrite vel_onset. split; [exact D2|]. split; [exact U|]. split; [exact S|exact H].
Qed.

Lemma one_lattice : exists pans n, gen_lattice one_geo (fun _ _ => 0) true 0 0 one_ac = Ok (pans, n) /\ set_normals pans n = [pan2].
Proof.
  destruct (normals_unchanged one_geo (fun _ _ => 0) 0 0 one_ac one_panelled one_counts one_flags one_undeflected (fun _ _ => eq_refl)) as (pans0 & G0).
  destruct (final_normals one_geo (fun _ _ => 0) 0 0 one_ac one_panelled one_counts one_flags) as (st & pans & n & E & G & L1 & L2 & H).
  rewrite G0 in G. injection G as -> <-. exists pans, (map pN pans). split; [exact G0|].
  assert (X : exists e, bk_list (c_book st) = [e] /\ (e_lo e = 0 /\ e_hi e = 1 /\ e_num_c e = 1 /\ e_mirror e = false)%Z /\ c_p st = 1%Z /\
    v_etas (e_visit e) = mkEtas 0 1 1 0 /\ v_xsis (e_visit e) = mkXsis 0 0 1 1).
  { vm_compute in E. injection E as <-. eexists. split; [reflexivity|]. split; [cbn; auto|]. split; [reflexivity|].
    unfold v_etas, v_xsis, v_strip, v_sub, e_visit, Q2R. cbn. split; f_equal; lra. }
  destruct X as (e & B & (LO & HI & NC & MI) & CP & VE & VX).
  destruct (H e 0%Z) as (q & p & x & y & z & V & Ep & Np & _); [rewrite B; left; reflexivity|lia|].
  unfold entry_vertices in V. rewrite MI, sub_plain, VE, VX in V. injection V as <-.
  rewrite CP in L1. destruct pans as [|p0 [|p1 pans]]; cbn in L1; try lia. cbn in Np. injection Np as ->.
  assert (PE : p = pan2).
  { rewrite NC, LO in Ep. change (0 - 0)%Z with 0%Z in Ep. rewrite Ep. unfold v_quad, one_geo, make_panel, panel_of_corners, pan2, set_normal, pan1.
    assert (D : trail_dir 0 0 = mkV 10000 0 0).
    { unfold trail_dir, freestream_direction, deg2rad, infty. rewrite !Rmult_0_l, cos_0, sin_0. apply vec_eq; vsimp; ring. }
    rewrite D.
    set (q := sub_quad _ _).
    assert (Q : q = mkQuad (mkV (-1) (-1) 0) (mkV (-1) 1 0) (mkV 3 1 0) (mkV 3 (-1) 0)).
    { unfold q, sub_quad, strip_quad. cbn [qa qb qc qd r_eta_a r_eta_b r_eta_c r_eta_d r_xsi_a r_xsi_b r_xsi_c r_xsi_d].
      f_equal; unfold along; apply vec_eq; vsimp; ring. }
    clearbody q. subst q.
    assert (C1 : forall s c, corner (mkQuad (mkV (-1) (-1) 0) (mkV (-1) 1 0) (mkV 3 1 0) (mkV 3 (-1) 0)) s c = mkV (4 * c - 1) (2 * s - 1) 0).
    { intros s c. unfold corner, coord. cbn [qa qb qc qd]. apply vec_eq; vsimp; ring. }
    rewrite !C1.
    assert (N1 : forall a, 0 <= a -> vnorm (mkV a 0 0) = a).
    { intros a A. unfold vnorm, vdot. vsimp. replace (a * a + 0 * 0 + 0 * 0) with (a * a) by ring. apply sqrt_square. exact A. }
    assert (N2 : forall a, 0 <= a -> vnorm (mkV 0 a 0) = a).
    { intros a A. unfold vnorm, vdot. vsimp. replace (0 * 0 + a * a + 0 * 0) with (a * a) by ring. apply sqrt_square. exact A. }
    assert (N3 : vnorm (mkV 0 0 (-3)) = 3).
    { unfold vnorm, vdot. vsimp. replace (0 * 0 + 0 * 0 + -3 * -3) with (3 * 3) by ring. apply sqrt_square. lra. }
    f_equal; try (apply vec_eq; vsimp; lra).
    - match goal with |- mkV (vx ?n / _) _ _ = _ => replace n with (mkV 0 0 (-3)) end; [rewrite N3; apply vec_eq; vsimp; field|].
      unfold normal_raw, vec1, vec2, vcross. apply vec_eq; vsimp; lra.
    - match goal with |- vnorm ?n * vnorm ?m = _ => replace n with (mkV 0 2 0); [replace m with (mkV 4 0 0)|] end;
        [rewrite (N1 4), (N2 2) by lra; cbn [pA]; ring|unfold pan_chord; apply vec_eq; vsimp; lra|unfold pan_span; apply vec_eq; vsimp; lra]. }
  rewrite PE. reflexivity.
Qed.

Lemma one_loads s r : exists pans n g o, gen_lattice one_geo (fun _ _ => 0) true 0 0 one_ac = Ok (pans, n) /\ loads (1 / 1000000) (set_normals pans n) s r g o.
Proof.
  destruct one_lattice as (pans & n & G & E). destruct (lat2_solved (1 / 1000000) s r ltac:(lra)) as (g & o & H).
  exists pans, n, g, o. split; [exact G|]. rewrite E. exact H.
Qed.
