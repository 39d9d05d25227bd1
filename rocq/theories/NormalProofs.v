(** Proofs about the rotation of panel normals (C40). *)
From Coq Require Import Reals List ZArith String Lra Lia Psatz QArith Qreals.
From Verif Require Import PyBase PyFacts Vec StripModel StripSpec StripChord StripRun StripControl AircraftModel LatticeModel LatticeSpec
  EnumProofs LatticeProofs LatticeArrays PanelModel GeomModel GeomSpec GeomProofs MirrorProofs NormalModel NormalSpec RotProofs.
Import ListNotations.
Open Scope R_scope.

(** ** Rotation formula and [turned] *)

Lemma rot_turned axis deg v : axis <> vzero -> turned axis deg v (rot axis (deg2rad deg) v).
Proof.
  intro H. pose proof (vnorm_pos _ H) as P. unfold turned, rot, deg2rad.
  replace (deg * (PI / 180)) with (deg * PI / 180) by (unfold Rdiv; ring).
  set (c := cos _). set (s := sin _). clearbody c s.
  rewrite vdot_scale_l, <- (vnorm_sq axis). set (r := vnorm axis) in *. set (dd := vdot axis v).
  assert (E : vcross axis (vsub v (vscale (dd / (r * r)) axis)) = vcross axis v) by (apply vec_eq; vsimp; ring).
  rewrite E. clearbody r dd. apply vec_eq; vsimp; field; lra.
Qed.

Lemma turned_zero axis v w : turned axis 0 v w -> w = v.
Proof.
  unfold turned. replace (0 * PI / 180) with 0 by (unfold Rdiv; ring). rewrite cos_0, sin_0.
  intros ->. apply vec_eq; vsimp; unfold Rdiv; ring.
Qed.

Lemma turned_unique axis deg v w w' : turned axis deg v w -> turned axis deg v w' -> w = w'.
Proof. unfold turned. congruence. Qed.

(** ** Updating rows *)

Lemma upd_spec n i f x : (0 <= i)%Z -> nth_error n (Z.to_nat i) = Some x ->
  exists n', upd n i f = Ok n' /\ List.length n' = List.length n /\
    nth_error n' (Z.to_nat i) = Some (f x) /\
    forall j, (0 <= j)%Z -> j <> i -> nth_error n' (Z.to_nat j) = nth_error n (Z.to_nat j).
Proof.
  intros Hi E. unfold upd. rewrite E. eexists. split; [reflexivity|].
  assert (L : (Z.to_nat i < List.length n)%nat) by (apply nth_error_Some; congruence).
  assert (F : List.length (firstn (Z.to_nat i) n) = Z.to_nat i) by (apply firstn_length_le; lia).
  split; [|split].
  - rewrite app_length. cbn [List.length]. rewrite F, skipn_length. lia.
  - rewrite nth_error_app2 by lia. rewrite F, Nat.sub_diag. reflexivity.
  - intros j Hj N. destruct (Z.lt_total j i) as [J|[J|J]]; [|contradiction|].
    + rewrite nth_error_app1 by lia. rewrite <- (firstn_skipn (Z.to_nat i) n) at 2.
      rewrite nth_error_app1 by lia. reflexivity.
    + rewrite nth_error_app2 by lia. rewrite F.
      destruct (Z.to_nat j - Z.to_nat i)%nat as [|m] eqn:M; [lia|]. cbn [nth_error].
      rewrite <- (firstn_skipn (S (Z.to_nat i)) n) at 2. rewrite nth_error_app2; rewrite firstn_length_le by lia; [|lia].
      f_equal. lia.
Qed.

Lemma upd_all_spec f l : forall n, NoDup l -> (forall i, In i l -> (0 <= i < Z.of_nat (List.length n))%Z) ->
  exists n', upd_all n l f = Ok n' /\ List.length n' = List.length n /\
    (forall i x, In i l -> nth_error n (Z.to_nat i) = Some x -> nth_error n' (Z.to_nat i) = Some (f i x)) /\
    (forall i, (0 <= i)%Z -> ~ In i l -> nth_error n' (Z.to_nat i) = nth_error n (Z.to_nat i)).
Proof.
  induction l as [|i l IH]; intros n ND B.
  - exists n. simpl. repeat split; auto. intros i x [].
  - inversion ND as [|? ? N1 N2]; subst.
    assert (Bi := B i (or_introl eq_refl)).
    destruct (nth_error n (Z.to_nat i)) as [x|] eqn:E; [|apply nth_error_None in E; lia].
    destruct (upd_spec n i (f i) x ltac:(lia) E) as (n1 & U & L1 & A1 & A2).
    destruct (IH n1 N2) as (n2 & U2 & L2 & B1 & B2).
    { intros j J. rewrite L1. apply B. right. exact J. }
    exists n2. cbn [upd_all]. rewrite U. cbn [bind]. split; [exact U2|]. split; [lia|]. split.
    + intros j y [<-|J] Y.
      * rewrite B2 by (lia || assumption). rewrite Y in E. injection E as <-. exact A1.
      * apply B1; [exact J|]. assert (j <> i) by congruence. rewrite A2; [exact Y| |assumption].
        pose proof (B j (or_intror J)). lia.
    + intros j J NJ. rewrite B2 by (try assumption; intro; apply NJ; right; assumption).
      apply A2; [exact J|]. intro; apply NJ; left; auto.
Qed.

(** ** One record *)

Section Rotate.
  Variable geo : string -> string -> quad.
  Variable camber : subarea_visit -> R -> R.

  (** What [deflect] does to one normal. *)
  Definition deflect_fun (e : entry) (f : vec -> vec) : Prop :=
    forall n, (0 <= e_lo e)%Z -> (e_hi e <= Z.of_nat (List.length n))%Z ->
    exists n', deflect geo e n = Ok n' /\ List.length n' = List.length n /\
      (forall i x, (e_lo e <= i < e_hi e)%Z -> nth_error n (Z.to_nat i) = Some x -> nth_error n' (Z.to_nat i) = Some (f x)) /\
      (forall i, (0 <= i)%Z -> ~ (e_lo e <= i < e_hi e)%Z -> nth_error n' (Z.to_nat i) = nth_error n (Z.to_nat i)).

  (** The rotations as functions of one normal. *)
  Definition defl_f (e : entry) (x : vec) : vec :=
    match sa_ctrl (v_sub (e_visit e)) with
    | None => x
    | Some c =>
      match dget (w_ctls (v_wing (e_visit e))) (ct_uid c) with
      | None => x
      | Some wc =>
        match entry_hinge geo e, entry_deflection e wc with
        | Ok axis, Some d => if truthy (Q2R d) then rot axis (deg2rad (Q2R d)) x else x
        | _, _ => x
        end
      end
    end.
  Definition cam_f (e : entry) (k : Z) (x : vec) : vec :=
    match entry_vertices geo e with
    | Ok sub =>
      let angle := deg2rad (camber (e_visit e) (collocation_xsi (v_xsis (e_visit e)) (e_num_c e) k)) in
      if truthy angle then rot (camber_axis sub) angle x else x
    | Err _ => x
    end.

  Definition entry_ok (e : entry) : Prop :=
    (e_mirror e = true -> exists p, w_symmetry (v_wing (e_visit e)) = plane_num p) /\
    (forall c, sa_ctrl (v_sub (e_visit e)) = Some c ->
      (exists wc, dget (w_ctls (v_wing (e_visit e))) (ct_uid c) = Some wc) /\
      exists h, sa_hinge (v_sub (e_visit e)) = Some h) /\
    e_hi e = (e_lo e + e_num_c e)%Z /\ (1 <= e_num_c e)%Z.

  Lemma hinge_ok e h1 h2 : entry_ok e -> exists inner outer,
    hinge_vertices (v_quad geo (e_visit e)) (v_etas (e_visit e)) h1 h2 (e_mirror e) (w_symmetry (v_wing (e_visit e))) = Ok (inner, outer).
  Proof.
    intros (M & _). destruct (e_mirror e).
    - destruct (M eq_refl) as (p & ->). rewrite hinge_mirror. destruct p; eauto.
    - rewrite hinge_plain. eauto.
  Qed.

  Lemma vertices_ok e : entry_ok e -> exists q, entry_vertices geo e = Ok q.
  Proof.
    intros (M & _). unfold entry_vertices. destruct (e_mirror e).
    - destruct (M eq_refl) as (p & ->). rewrite sub_mirror. eauto.
    - rewrite sub_plain. eauto.
  Qed.

  Lemma Q2R_zero d : Q2R d = 0 <-> (d == 0)%Q.
  Proof.
    split; intro H.
    - apply eqR_Qeq. rewrite H. unfold Q2R. simpl. field.
    - apply Qeq_eqR in H. rewrite H. unfold Q2R. simpl. field.
  Qed.

  Lemma deg2rad_zero : deg2rad 0 = 0.
  Proof. unfold deg2rad. ring. Qed.

  Lemma vsub_zero u v : vsub u v = vzero -> u = v.
  Proof. intro H. injection H as H1 H2 H3. apply vec_eq; vsimp; lra. Qed.

  Lemma truthy_spec x : truthy x = false -> x = 0.
  Proof. unfold truthy. destruct (Req_EM_T x 0); [auto|discriminate]. Qed.

  Lemma same_fun e n : exists n', Ok n = Ok n' /\ List.length n' = List.length n /\
      (forall i x, (e_lo e <= i < e_hi e)%Z -> nth_error n (Z.to_nat i) = Some x -> nth_error n' (Z.to_nat i) = Some ((fun x : vec => x) x)) /\
      (forall i, (0 <= i)%Z -> ~ (e_lo e <= i < e_hi e)%Z -> nth_error n' (Z.to_nat i) = nth_error n (Z.to_nat i)).
  Proof. exists n. repeat split; auto. Qed.

  Lemma deflect_spec e : entry_ok e -> deflect_fun e (defl_f e) /\ forall x, deflected geo e x (defl_f e x).
  Proof.
    intro O. unfold deflect_fun, defl_f, deflect, deflected, applies. destruct (sa_ctrl (v_sub (e_visit e))) as [c|] eqn:Ec.
    - destruct (proj1 (proj2 O) c Ec) as ((wc & W) & (h & Eh)). destruct h as [h1 h2].
      destruct (hinge_ok e (Q2R h1) (Q2R h2) O) as (inner & outer & Hv).
      rewrite W. unfold entry_hinge. rewrite Eh. unfold hinge_axis. rewrite Hv. cbn [bind fst snd].
      unfold entry_deflection. set (od := if e_mirror e then wc_deflection_mirror wc else wc_deflection wc).
      destruct od as [d|] eqn:Eo.
      + destruct (truthy (Q2R d)) eqn:T.
        * split.
          -- intros n L1 L2.
             destruct (upd_all_spec (fun _ => rot (vsub outer inner) (deg2rad (Q2R d))) (py_range (e_lo e) (e_hi e)) n) as (n' & U & L & A & B).
             { apply py_range_NoDup. }
             { intros i I. apply py_range_In in I. lia. }
             exists n'. split; [exact U|]. split; [exact L|]. split.
             ++ intros i x I. apply A. apply py_range_In. exact I.
             ++ intros i I J. apply B; [exact I|]. rewrite py_range_In. exact J.
          -- intro x. exists (Some d). split; [exists wc; split; [reflexivity|exact (eq_sym Eo)]|].
             exists h1, h2, inner, outer. repeat split; auto.
             ++ intro N. apply rot_turned. intro Z. apply vsub_zero in Z. congruence.
             ++ intro Z. apply Q2R_zero in Z. rewrite Z, deg2rad_zero. apply rot_zero.
        * split; [intros; apply same_fun|].
          intro x. exists (Some d). split; [exists wc; split; [reflexivity|exact (eq_sym Eo)]|].
          exists h1, h2, inner, outer. repeat split; auto.
          intro N. apply truthy_spec in T. rewrite T.
          assert (vsub outer inner <> vzero) by (intro Z; apply vsub_zero in Z; congruence).
          pose proof (rot_turned (vsub outer inner) 0 x H) as R. rewrite deg2rad_zero, rot_zero in R. exact R.
      + split; [intros; apply same_fun|].
        intro x. exists None. split; [exists wc; split; [reflexivity|exact (eq_sym Eo)]|]. reflexivity.
    - split; [intros; apply same_fun|]. intro x. exists None. auto.
  Qed.

  Lemma camber_axis_ok sub : let ab := vsub (qb sub) (qa sub) in let ad := vsub (qd sub) (qa sub) in
    vcross ab ad <> vzero ->
    let axis := camber_axis sub in
    axis <> vzero /\ vdot axis ad = 0 /\ vdot axis (vcross ab ad) = 0 /\ vdot axis ab < 0.
  Proof.
    cbv zeta. unfold camber_axis. set (ab := vsub (qb sub) (qa sub)). set (ad := vsub (qd sub) (qa sub)).
    clearbody ab ad. intro N. set (n := vcross ab ad) in *. set (r := vcross n ad).
    assert (E : forall a k, vsub (vadd a k) a = k) by (intros; apply vec_eq; vsimp; ring). rewrite E.
    assert (RA : vdot r ab = - vdot n n) by (unfold r, n, vdot; vsimp; ring).
    assert (NN : 0 < vdot n n).
    { destruct (Rle_lt_or_eq_dec _ _ (vdot_self_nonneg n)) as [L|L]; [exact L|]. exfalso. apply N. apply vdot_zero. auto. }
    assert (RZ : r <> vzero). { intro Z. rewrite Z in RA. unfold vdot in RA at 1. cbn [vx vy vz vzero] in RA. lra. }
    pose proof (vnorm_pos _ RZ) as PR. assert (0 < / vnorm r) by (apply Rinv_0_lt_compat; exact PR).
    rewrite !vdot_scale_l, RA. repeat split.
    - intro Z. apply (f_equal (fun v => vdot v ab)) in Z. rewrite vdot_scale_l, RA in Z.
      unfold vdot at 2 in Z. cbn [vx vy vz vzero] in Z. nra.
    - replace (vdot r ad) with 0 by (unfold r, vdot; vsimp; ring). ring.
    - replace (vdot r n) with 0 by (unfold r, vdot; vsimp; ring). ring.
    - nra.
  Qed.

  Lemma camber_spec e : entry_ok e ->
    (forall n, (0 <= e_lo e)%Z -> (e_hi e <= Z.of_nat (List.length n))%Z ->
     exists n', camber_rot geo camber e n = Ok n' /\ List.length n' = List.length n /\
      (forall i x, (e_lo e <= i < e_hi e)%Z -> nth_error n (Z.to_nat i) = Some x -> nth_error n' (Z.to_nat i) = Some (cam_f e (i - e_lo e)%Z x)) /\
      (forall i, (0 <= i)%Z -> ~ (e_lo e <= i < e_hi e)%Z -> nth_error n' (Z.to_nat i) = nth_error n (Z.to_nat i))) /\
    forall k x, cambered geo camber e k x (cam_f e k x).
  Proof.
    intro O. destruct (vertices_ok e O) as (sub & V). destruct O as (_ & _ & HI & N1).
    unfold camber_rot, cam_f, cambered. rewrite V. cbn [bind].
    assert (NP : Z.of_nat (List.length (py_range (e_lo e) (e_hi e))) = e_num_c e).
    { unfold py_range. rewrite map_length, seq_length. lia. }
    rewrite NP.
    set (ang := fun k => camber (e_visit e) (collocation_xsi (v_xsis (e_visit e)) (e_num_c e) k)).
    split.
    - intros n L1 L2.
      destruct (upd_all_spec (fun i x => if truthy (deg2rad (ang (i - e_lo e)%Z))
          then rot (camber_axis sub) (deg2rad (ang (i - e_lo e)%Z)) x else x) (py_range (e_lo e) (e_hi e)) n) as (n' & U & L & A & B).
      { apply py_range_NoDup. }
      { intros i I. apply py_range_In in I. lia. }
      exists n'. split; [exact U|]. split; [exact L|]. split.
      + intros i x I. apply A. apply py_range_In. exact I.
      + intros i I J. apply B; [exact I|]. rewrite py_range_In. exact J.
    - intros k x. split.
      + fold (ang k). intros ->. rewrite deg2rad_zero. unfold truthy. destruct (Req_EM_T 0 0); [reflexivity|contradiction].
      + exists sub. split; [reflexivity|]. intro ND. destruct (camber_axis_ok sub ND) as (A1 & A2 & A3 & A4).
        exists (camber_axis sub). repeat (split; [assumption|]). fold (ang k).
        destruct (truthy (deg2rad (ang k))) eqn:T; [apply rot_turned; exact A1|].
        apply truthy_spec in T.
        assert (E : x = rot (camber_axis sub) (deg2rad (ang k)) x) by (rewrite T, rot_zero; reflexivity).
        rewrite E at 2. apply rot_turned. exact A1.
  Qed.

  (** ** The loop over all records *)
  Lemma rotate_loop_spec es : forall n lo hi, Forall entry_ok es -> consecutive lo es hi -> (0 <= lo)%Z ->
    (hi <= Z.of_nat (List.length n))%Z ->
    exists n', rotate_loop geo camber es n = Ok n' /\ List.length n' = List.length n /\
      (forall e i x, In e es -> (e_lo e <= i < e_hi e)%Z -> nth_error n (Z.to_nat i) = Some x ->
         deflected geo e x (defl_f e x) /\ cambered geo camber e (i - e_lo e) (defl_f e x) (cam_f e (i - e_lo e) (defl_f e x)) /\
         nth_error n' (Z.to_nat i) = Some (cam_f e (i - e_lo e) (defl_f e x))) /\
      (forall i, (0 <= i)%Z -> ~ (lo <= i < hi)%Z -> nth_error n' (Z.to_nat i) = nth_error n (Z.to_nat i)).
  Proof.
    induction es as [|e es IH]; intros n lo hi F C L0 LN.
    - exists n. simpl. split; [reflexivity|]. split; [reflexivity|]. split; [intros e i x []|auto].
    - inversion F as [|? ? F1 F2]; subst. cbn [consecutive] in C. destruct C as (C1 & C2 & C3).
      pose proof (consecutive_le _ _ _ C3) as CL.
      destruct (deflect_spec e F1) as (Df & Ds). destruct (camber_spec e F1) as (Cg & Cs).
      destruct (Df n ltac:(lia) ltac:(lia)) as (n1 & E1 & L1 & A1 & B1).
      destruct (Cg n1 ltac:(lia) ltac:(lia)) as (n2 & E2 & L2 & A2 & B2).
      destruct (IH n2 (e_hi e) hi F2 C3 ltac:(lia) ltac:(lia)) as (n3 & E3 & L3 & A3 & B3).
      exists n3. cbn [rotate_loop]. rewrite E1. cbn [bind]. rewrite E2. cbn [bind]. split; [exact E3|]. split; [lia|].
      assert (Later : forall e', In e' es -> (e_hi e <= e_lo e')%Z).
      { clear - C3. revert C3. generalize (e_hi e). induction es as [|e1 es IH]; intros p C e' I; [destruct I|].
        cbn [consecutive] in C. destruct C as (K1 & K2 & K3). destruct I as [<-|I]; [lia|].
        pose proof (IH _ K3 e' I). lia. }
      split.
      + intros e' i x [<-|I] R X.
        * split; [apply Ds|]. split; [apply Cs|].
          rewrite B3 by lia. apply A2; [exact R|]. apply A1; assumption.
        * apply A3; [exact I|exact R|]. pose proof (Later e' I). rewrite B2, B1 by lia. exact X.
      + intros i I J. rewrite B3, B2, B1; (reflexivity || lia).
  Qed.

  (** ** Rows of the lattice *)
  Lemma entry_rows_spec dir es : forall lo hi rows, Forall entry_ok es -> consecutive lo es hi -> (0 <= lo)%Z ->
    entry_rows geo es = Ok rows ->
    Z.of_nat (List.length (lattice dir rows)) = (hi - lo)%Z /\
    forall e i, In e es -> (e_lo e <= i < e_hi e)%Z ->
    exists q, entry_vertices geo e = Ok q /\
      nth_error (lattice dir rows) (Z.to_nat (i - lo)) = Some (make_panel dir q 1 (e_num_c e) (i - e_lo e) 0).
  Proof.
    induction es as [|e es IH]; intros lo hi rows F C L0 E; cbn [entry_rows consecutive] in *.
    - injection E as <-. simpl. split; [lia|]. intros e i [].
    - inversion F as [|? ? F1 F2]; subst. destruct C as (C1 & C2 & C3).
      destruct (vertices_ok e F1) as (q & V). rewrite V in E. cbn [bind] in E.
      destruct (entry_rows geo es) as [r|] eqn:ER; [|discriminate]. cbn [bind] in E. injection E as <-.
      destruct (IH (e_hi e) hi r F2 C3 ltac:(lia) eq_refl) as (IL & IN).
      destruct F1 as (_ & _ & HI & N1).
      unfold lattice in *. cbn [flat_map fst snd].
      assert (SL : List.length (sub_panels dir q 1 (e_num_c e)) = Z.to_nat (e_num_c e)).
      { rewrite sub_panels_length. f_equal. lia. }
      split.
      + rewrite app_length, SL. lia.
      + assert (Later : forall e', In e' es -> (e_hi e <= e_lo e')%Z).
        { clear - C3. revert C3. generalize (e_hi e). induction es as [|e1 es IH]; intros p C e' I; [destruct I|].
          cbn [consecutive] in C. destruct C as (K1 & K2 & K3). destruct I as [<-|I]; [lia|].
          pose proof (IH _ K3 e' I). lia. }
        intros e' i [<-|I] R.
        * exists q. split; [exact V|]. rewrite nth_error_app1 by lia.
          replace (Z.to_nat (i - lo)) with (Z.to_nat (0 * e_num_c e + (i - e_lo e))) by (f_equal; lia).
          apply sub_panels_nth; lia.
        * destruct (IN e' i I R) as (q' & V' & N'). exists q'. split; [exact V'|].
          pose proof (Later e' I). rewrite nth_error_app2 by lia. rewrite SL.
          replace (Z.to_nat (i - lo) - Z.to_nat (e_num_c e))%nat with (Z.to_nat (i - e_hi e)) by lia. exact N'.
  Qed.

  Lemma entry_rows_ok es : Forall entry_ok es -> exists rows, entry_rows geo es = Ok rows.
  Proof.
    induction 1 as [|e es F1 F2 IH]; [exists []; reflexivity|]. destruct IH as (r & R).
    destruct (vertices_ok e F1) as (q & V). cbn [entry_rows]. rewrite V, R. cbn [bind]. eauto.
  Qed.
End Rotate.

(** ** Records of a panelled aircraft *)

Lemma chord_inv_hinge s k v c : chord_inv s -> In (k, v) (st_subs s) -> sa_ctrl v = Some c -> exists h, sa_hinge v = Some h.
Proof.
  intros (os & of & (Fm & Fs & Ff & Fn) & L) I Cn. apply In_sget in I; [|exact Fn]. destruct k as [|[|]].
  - rewrite Fm in I. injection I as <-. discriminate.
  - rewrite Fs in I. destruct os as [d|]; [|discriminate]. injection I as <-. eexists. reflexivity.
  - rewrite Ff in I. destruct of as [d|]; [|discriminate]. injection I as <-. eexists. reflexivity.
Qed.

Lemma entries_ok a st : panelled a -> flags_ok a -> st_inv st (all_subareas a) -> Forall entry_ok (bk_list (c_book st)).
Proof.
  intros P FL (I1 & I2 & I3 & I4 & I5 & I6 & I7). apply Forall_forall. intros e I.
  destruct (I5 e I) as (H1 & H2 & _). destruct (recorded_In _ _ _ I2 I) as [IV M].
  destruct (e_visit e) as [[[[[na ka] v] [[nd kd] d]] [[ns ks] s]] [[nw kw] w]] eqn:EV.
  apply all_subareas_In in IV. destruct IV as (Iw & Is & Id & -> & Ia). apply nth_error_In in Iw, Is, Id, Ia.
  destruct (P _ _ _ _ Iw Is) as [(interp & ops & SS & ER) R].
  assert (CI : chord_inv d) by (apply (sound_chord interp ops SS); rewrite <- ER; exact Id).
  unfold entry_ok. rewrite EV. unfold v_sub, v_wing, obj. cbn [fst snd]. split; [|split; [|auto]].
  - intro Em. apply M in Em. unfold has_symmetry, v_wing, obj in Em. cbn [fst snd] in Em.
    destruct (FL _ _ Iw) as [E|[E|[E|E]]]; [contradiction|exists XY|exists XZ|exists YZ]; exact E.
  - intros c Cn. split; [exact (R _ _ _ _ Id Ia Cn)|]. exact (chord_inv_hinge d ka v c CI Ia Cn).
Qed.

Lemma final_normals geo camber alpha beta a : panelled a -> counts_set a -> flags_ok a ->
  exists st pans n, panel_count a = Ok st /\ gen_lattice geo camber true alpha beta a = Ok (pans, n) /\
    Z.of_nat (List.length pans) = c_p st /\ Z.of_nat (List.length n) = c_p st /\
    forall e i, In e (bk_list (c_book st)) -> (e_lo e <= i < e_hi e)%Z ->
    exists q p x y z,
      entry_vertices geo e = Ok q /\ p = make_panel (trail_dir alpha beta) q 1 (e_num_c e) (i - e_lo e) 0 /\
      nth_error pans (Z.to_nat i) = Some p /\ x = pN p /\
      deflected geo e x y /\ cambered geo camber e (i - e_lo e) y z /\ nth_error n (Z.to_nat i) = Some z /\
      y = defl_f geo e x /\ z = cam_f geo camber e (i - e_lo e) y.
Proof.
  intros P C FL. destruct (panel_count_inv a P C) as (st & E & I). pose proof (entries_ok a st P FL I) as F.
  destruct I as (I1 & _). destruct (entry_rows_ok geo _ F) as (rows & ER).
  destruct (entry_rows_spec geo (trail_dir alpha beta) _ 0 (c_p st) rows F I1 ltac:(lia) ER) as (L & N).
  set (pans := lattice (trail_dir alpha beta) rows) in *.
  destruct (rotate_loop_spec geo camber _ (map pN pans) 0 (c_p st) F I1 ltac:(lia)) as (n' & RL & Ln & A & _).
  { rewrite map_length. lia. }
  exists st, pans, n'. split; [exact E|]. split.
  { unfold gen_lattice. rewrite E. cbn [bind]. rewrite ER. cbn [bind]. fold pans. rewrite RL. reflexivity. }
  rewrite map_length in Ln. split; [lia|]. split; [lia|]. intros e i Ie R.
  destruct (N e i Ie R) as (q & V & Np). rewrite Z.sub_0_r in Np.
  destruct (A e i (pN (make_panel (trail_dir alpha beta) q 1 (e_num_c e) (i - e_lo e) 0)) Ie R) as (D1 & C1 & Z1).
  { rewrite nth_error_map, Np. reflexivity. }
  eexists q, _, _, _, _. repeat (split; [eassumption || reflexivity|]). reflexivity.
Qed.

(** ** Consequences *)

Lemma list_ext {A} (l l' : list A) : List.length l = List.length l' ->
  (forall i, (i < List.length l)%nat -> nth_error l i = nth_error l' i) -> l = l'.
Proof.
  revert l'. induction l as [|x l IH]; intros [|y l'] L H; try discriminate; [reflexivity|].
  f_equal.
  - specialize (H O ltac:(simpl; lia)). simpl in H. congruence.
  - apply IH; [simpl in L; lia|]. intros i I. exact (H (S i) ltac:(simpl; lia)).
Qed.

Lemma normals_unchanged geo camber alpha beta a : panelled a -> counts_set a -> flags_ok a ->
  undeflected a -> (forall v x, camber v x = 0) ->
  exists pans, gen_lattice geo camber true alpha beta a = Ok (pans, map pN pans).
Proof.
  intros P C FL U CZ. destruct (final_normals geo camber alpha beta a P C FL) as (st & pans & n & E & G & L1 & L2 & H).
  exists pans. rewrite G. f_equal. f_equal. apply list_ext; [rewrite map_length; lia|].
  intros i I. destruct (panel_count_inv a P C) as (st' & E' & I1 & I2 & _).
  rewrite E in E'. injection E' as <-.
  destruct (consecutive_unique _ 0 (c_p st) (Z.of_nat i) I1 ltac:(lia)) as (k & e & K & R & _).
  apply nth_error_In in K.
  destruct (H e (Z.of_nat i) K R) as (q & p & x & y & z & V & Ep & Np & Ex & D & Cm & Nz & _).
  rewrite Nat2Z.id in *. rewrite Nz, nth_error_map, Np. simpl. f_equal. rewrite <- Ex.
  assert (z = y) as -> by (apply (proj1 Cm); apply CZ).
  destruct D as (d & Ap & D). destruct d as [d|]; [|exact D].
  destruct D as (h1 & h2 & inn & out & _ & _ & _ & D). apply D.
  unfold applies in Ap. destruct (sa_ctrl (v_sub (e_visit e))) as [c|]; [|discriminate].
  destruct Ap as (wc & W & Ed). apply dget_In in W.
  destruct (recorded_In _ _ _ I2 K) as [IV _].
  destruct (e_visit e) as [[[[[na ka] v] [[nd kd] d0]] [[ns ks] s]] [[nw kw] w]].
  apply all_subareas_In in IV. destruct IV as (Iw & _). apply nth_error_In in Iw.
  destruct (U _ _ _ _ Iw W) as [U1 U2]. destruct (e_mirror e); [apply U2|apply U1]; auto.
Qed.

Lemma camber_axis_mirror q : parallel_chords q ->
  camber_axis (quad_order XZ (quad_refl XZ q)) = vscale (-1) (refl XZ (camber_axis q)).
Proof.
  intros (k & K & E). unfold camber_axis, quad_order, quad_refl, order4, quad_of. cbn [qa qb qc qd].
  set (ab := vsub (qb q) (qa q)). set (ad := vsub (qd q) (qa q)) in *.
  assert (S : forall a v, vsub (vadd a v) a = v) by (intros; apply vec_eq; vsimp; ring). rewrite !S.
  replace (vsub (refl XZ (qa q)) (refl XZ (qb q))) with (vscale (-1) (refl XZ ab)) by (unfold ab; apply vec_eq; vsimp; ring).
  replace (vsub (refl XZ (qc q)) (refl XZ (qb q))) with (vscale k (refl XZ ad)).
  2:{ transitivity (refl XZ (vsub (qc q) (qb q))); [rewrite E|]; apply vec_eq; vsimp; ring. }
  clearbody ab ad.
  replace (vcross (vcross (vscale (-1) (refl XZ ab)) (vscale k (refl XZ ad))) (vscale k (refl XZ ad)))
    with (vscale (- (k * k)) (refl XZ (vcross (vcross ab ad) ad))) by (apply vec_eq; vsimp; ring).
  set (r := vcross (vcross ab ad) ad). clearbody r.
  rewrite vnorm_scale, vnorm_refl, Rabs_left by nra.
  destruct (Req_EM_T (vnorm r) 0) as [Z|Z].
  - apply vnorm_zero in Z. subst r. apply vec_eq; vsimp; ring.
  - apply vec_eq; vsimp; field; split; nra.
Qed.

Section Symmetric.
  Variable geo : string -> string -> quad.
  Variable camber : subarea_visit -> R -> R.
  Variables e e' : entry.
  Hypothesis EV : e_visit e' = e_visit e.
  Hypothesis EM : e_mirror e = false.
  Hypothesis EM' : e_mirror e' = true.
  Hypothesis EN : e_num_c e' = e_num_c e.
  Hypothesis SY : w_symmetry (v_wing (e_visit e)) = 2%Z.

  Lemma defl_f_mirror x :
    (forall c wc, sa_ctrl (v_sub (e_visit e)) = Some c -> dget (w_ctls (v_wing (e_visit e))) (ct_uid c) = Some wc -> same_deflection wc) ->
    defl_f geo e' (refl XZ x) = refl XZ (defl_f geo e x).
  Proof.
    intro SD. unfold defl_f, entry_hinge, entry_deflection, hinge_axis. rewrite EV, EM, EM', SY.
    destruct (sa_ctrl (v_sub (e_visit e))) as [c|]; [|reflexivity].
    destruct (dget (w_ctls (v_wing (e_visit e))) (ct_uid c)) as [wc|] eqn:W; [|reflexivity].
    specialize (SD c wc eq_refl W). unfold same_deflection in SD.
    destruct (sa_hinge (v_sub (e_visit e))) as [[h1 h2]|]; [|reflexivity].
    rewrite hinge_plain. change 2%Z with (plane_num XZ). rewrite hinge_mirror. cbn [bind fst snd].
    destruct (wc_deflection wc) as [d|], (wc_deflection_mirror wc) as [d'|]; try contradiction; [|reflexivity].
    apply Qeq_eqR in SD. rewrite <- SD. destruct (truthy (Q2R d)); [|reflexivity].
    rewrite rot_refl. f_equal. unfold quad_refl. cbn [qa qb qc qd]. rewrite <- !refl_along.
    apply vec_eq; vsimp; ring.
  Qed.

  Lemma cam_f_mirror k x q : entry_vertices geo e = Ok q -> parallel_chords q \/ (forall y, camber (e_visit e) y = 0) ->
    cam_f geo camber e' k (refl XZ x) = refl XZ (cam_f geo camber e k x).
  Proof.
    intros V H. unfold cam_f. rewrite V. revert V. unfold entry_vertices. rewrite EV, EM, EM', SY, EN, sub_plain.
    intro V. injection V as V. change 2%Z with (plane_num XZ). rewrite sub_mirror, sub_mirror_12 by discriminate. rewrite V.
    destruct H as [H|H].
    - destruct (truthy _); [|reflexivity]. rewrite rot_refl, camber_axis_mirror by exact H. reflexivity.
    - rewrite H, deg2rad_zero. unfold truthy. destruct (Req_EM_T 0 0); [reflexivity|contradiction].
  Qed.
End Symmetric.

(** Each record of a wing with symmetry flag 2 and its mirror image have mirrored panels and normals. *)
Lemma symmetric_normals geo camber alpha beta a : panelled a -> counts_set a -> flags_ok a ->
  exists st pans n, panel_count a = Ok st /\ gen_lattice geo camber true alpha beta a = Ok (pans, n) /\
    forall e e' k q, In e (bk_list (c_book st)) -> In e' (bk_list (c_book st)) ->
      e_visit e' = e_visit e -> e_mirror e = false -> e_mirror e' = true ->
      w_symmetry (v_wing (e_visit e)) = 2%Z ->
      (forall c wc, sa_ctrl (v_sub (e_visit e)) = Some c -> dget (w_ctls (v_wing (e_visit e))) (ct_uid c) = Some wc -> same_deflection wc) ->
      entry_vertices geo e = Ok q -> parallel_chords q \/ (forall y, camber (e_visit e) y = 0) ->
      (0 <= k < e_num_c e)%Z ->
      e_num_c e' = e_num_c e /\
      exists p p' x x', nth_error pans (Z.to_nat (e_lo e + k)) = Some p /\ nth_error pans (Z.to_nat (e_lo e' + k)) = Some p' /\
        nth_error n (Z.to_nat (e_lo e + k)) = Some x /\ nth_error n (Z.to_nat (e_lo e' + k)) = Some x' /\
        pC p' = refl XZ (pC p) /\ pB p' = refl XZ (pB p) /\ x' = refl XZ x.
Proof.
  intros P C FL. destruct (final_normals geo camber alpha beta a P C FL) as (st & pans & n & E & G & L1 & L2 & H).
  exists st, pans, n. split; [exact E|]. split; [exact G|].
  destruct (panel_count_inv a P C) as (st' & E' & I1 & I2 & _ & _ & I5 & _). rewrite E in E'. injection E' as <-.
  intros e e' k q Ie Ie' EV EM EM' SY SD V PC K.
  destruct (I5 e Ie) as (H1 & N1 & R1 & _). destruct (I5 e' Ie') as (H1' & N1' & R1' & _).
  assert (EN : e_num_c e' = e_num_c e) by (rewrite EV in R1'; exact (right_count_unique _ _ _ R1' R1)).
  split; [exact EN|].
  destruct (H e (e_lo e + k)%Z Ie ltac:(lia)) as (q0 & p & x & y & z & V0 & Ep & Np & Ex & _ & _ & Nz & Ey & Ez).
  destruct (H e' (e_lo e' + k)%Z Ie' ltac:(lia)) as (q' & p' & x' & y' & z' & V' & Ep' & Np' & Ex' & _ & _ & Nz' & Ey' & Ez').
  rewrite V in V0. injection V0 as <-.
  replace (e_lo e + k - e_lo e)%Z with k in * by lia. replace (e_lo e' + k - e_lo e')%Z with k in * by lia.
  exists p, p', z, z'. repeat (split; [assumption|]).
  assert (Q : q' = quad_order XZ (quad_refl XZ q)).
  { revert V V'. unfold entry_vertices. rewrite EV, EM, EM', SY, sub_plain.
    change 2%Z with (plane_num XZ). rewrite sub_mirror, sub_mirror_12 by discriminate. intros W W'.
    injection W as <-. injection W' as <-. reflexivity. }
  destruct (mirrored_panel_full (trail_dir alpha beta) q (e_num_c e) k XZ N1 ltac:(discriminate)) as (A & B & _ & _ & N & _).
  rewrite EN, Q in Ep'. rewrite <- Ep, <- Ep' in A, B, N. specialize (N eq_refl).
  split; [exact A|]. split; [exact B|].
  rewrite Ez', Ez, Ey', Ey, Ex', N, Ex.
  rewrite (defl_f_mirror geo e e' EV EM EM' SY) by exact SD.
  apply (cam_f_mirror geo camber e e' EV EM EM' EN SY k _ q V PC).
Qed.

(** Without parallel chords the camber rotation differs between the sides. *)
Definition kite : quad := mkQuad (mkV 0 0 0) (mkV 0 1 0) (mkV 2 2 0) (mkV 1 0 0).

Lemma camber_asymmetric : exists seg e x q q' th, 
  subarea_vertices seg e x false 2 = Ok q /\ subarea_vertices seg e x true 2 = Ok q' /\ planar q /\ convex q /\
  let N := pN (make_panel (trail_dir 0 0) q 1 1 0 0) in let N' := pN (make_panel (trail_dir 0 0) q' 1 1 0 0) in
  N' = refl XZ N /\ rot (camber_axis q') th N' <> refl XZ (rot (camber_axis q) th N).
Proof.
  exists kite, full, (mkXsis 0 0 1 1). eexists _, _, (PI / 2).
  split; [apply sub_plain|]. split; [apply (sub_mirror kite full _ XZ)|].
  rewrite sub_mirror_12 by discriminate.
  assert (K : sub_quad (strip_quad kite full) (mkXsis 0 0 1 1) = kite).
  { unfold sub_quad, strip_quad, kite, full, along. vsimp. f_equal; apply vec_eq; vsimp; ring. }
  rewrite K.
  split; [unfold planar, seg_normal, kite, vdot; vsimp; lra|].
  split; [unfold convex, turns, seg_normal, kite, vdot; vsimp; lra|]. cbv zeta.
  destruct (mirrored_panel_full (trail_dir 0 0) kite 1 0 XZ ltac:(lia) ltac:(discriminate)) as (_ & _ & _ & _ & N & _).
  specialize (N eq_refl). rewrite N. split; [reflexivity|]. clear N.
  assert (X : exists k, k <> 0 /\ pN (make_panel (trail_dir 0 0) kite 1 1 0 0) = mkV 0 0 k).
  { unfold make_panel. rewrite !corner_surface.
    set (P := surface kite _ _). set (Q := surface kite _ _). set (R := surface kite _ _). set (S := surface kite _ _).
    assert (EP : P = mkV 0 0 0) by (unfold P, kite; vring). assert (EQ : Q = mkV 0 1 0) by (unfold Q, kite; vring).
    assert (ER : R = mkV 2 2 0) by (unfold R, kite; vring). assert (ES : S = mkV 1 0 0) by (unfold S, kite; vring).
    rewrite EP, EQ, ER, ES. clear.
    destruct (panel_normal (trail_dir 0 0) (mkV 0 0 0) (mkV 0 1 0) (mkV 2 2 0) (mkV 1 0 0)) as (U & _ & _ & _).
    destruct (planar_normal (trail_dir 0 0) (mkV 0 0 0) (mkV 0 1 0) (mkV 2 2 0) (mkV 1 0 0) (mkV 0 0 1)) as (k & E).
    - intro Z. apply (f_equal vz) in Z. vsimp. lra.
    - unfold vdot; vsimp; ring.
    - unfold vdot; vsimp; ring.
    - unfold vdot; vsimp; ring.
    - exists k. split.
      + intro Z. rewrite E, Z in U.
        assert (V : vnorm (vscale 0 (mkV 0 0 1)) = 1).
        { apply U. intro W. apply (f_equal vz) in W. unfold midpoint, along in W. vsimp. lra. }
        rewrite vnorm_scale, Rabs_R0 in V. lra.
      + rewrite E. apply vec_eq; vsimp; ring. }
  destruct X as (k & K0 & ->).
  assert (CE : forall q r, vcross (vcross (vsub (qb q) (qa q)) (vsub (qd q) (qa q))) (vsub (qd q) (qa q)) = r ->
    r <> vzero -> exists m, 0 < m /\ camber_axis q = vscale m r).
  { intros q r E NZ. exists (/ vnorm r). split; [apply Rinv_0_lt_compat, vnorm_pos, NZ|].
    unfold camber_axis. cbv zeta. rewrite E. apply vec_eq; vsimp; ring. }
  destruct (CE kite (mkV 0 (-1) 0)) as (m & M & U).
  { apply vec_eq; unfold kite; vsimp; ring. }
  { intro Z. apply (f_equal vy) in Z. vsimp. lra. }
  destruct (CE (quad_order XZ (quad_refl XZ kite)) (mkV (-2) (-4) 0)) as (m' & M' & U').
  { apply vec_eq; unfold kite, quad_order, quad_refl, order4, quad_of; vsimp; ring. }
  { intro Z. apply (f_equal vy) in Z. vsimp. lra. }
  rewrite U, U'. unfold rot. rewrite cos_PI2, sin_PI2. intro E. apply (f_equal vy) in E. revert E.
  set (r' := vnorm (vscale m' _)). set (r := vnorm (vscale m _)).
  assert (R' : 0 < r') by (apply vnorm_pos; intro Z; apply (f_equal vx) in Z; vsimp; nra).
  clearbody r r'. unfold vdot. vsimp. intro E. apply K0.
  apply Rinv_0_lt_compat in R'. set (i := / r') in *. clearbody i. set (i2 := / r) in *. clearbody i2.
  assert (Y : i * m' * k = 0) by nra.
  assert (0 < i * m') by nra. nra.
Qed.

Lemma final_normals_short geo camber alpha beta a : panelled a -> counts_set a -> flags_ok a ->
  exists st pans n, panel_count a = Ok st /\ gen_lattice geo camber true alpha beta a = Ok (pans, n) /\
    Z.of_nat (List.length pans) = c_p st /\ Z.of_nat (List.length n) = c_p st /\
    forall e i, In e (bk_list (c_book st)) -> (e_lo e <= i < e_hi e)%Z ->
    exists q p y z,
      entry_vertices geo e = Ok q /\ p = make_panel (trail_dir alpha beta) q 1 (e_num_c e) (i - e_lo e) 0 /\
      nth_error pans (Z.to_nat i) = Some p /\
      deflected geo e (pN p) y /\ cambered geo camber e (i - e_lo e) y z /\ nth_error n (Z.to_nat i) = Some z.
Proof.
  intros P C FL. destruct (final_normals geo camber alpha beta a P C FL) as (st & pans & n & E & G & L1 & L2 & H).
  exists st, pans, n. repeat (split; [assumption|]). intros e i I R.
  destruct (H e i I R) as (q & p & x & y & z & V & Ep & Np & Ex & D & Cm & Nz & _).
  subst x. exists q, p, y, z. repeat (split; [assumption|]). exact Nz.
Qed.

Lemma turned_meaning axis deg v w : axis <> vzero -> turned axis deg v w ->
  vnorm w = vnorm v /\ vdot axis w = vdot axis v /\
  (vdot axis v = 0 -> vdot v w = vdot v v * cos (deg * PI / 180) /\
     vdot axis (vcross v w) = vnorm axis * vdot v v * sin (deg * PI / 180)).
Proof.
  intros NZ T. assert (E : w = rot axis (deg2rad deg) v) by (rewrite (turned_unique axis deg v w (rot axis (deg2rad deg) v)); [reflexivity|exact T|apply rot_turned; exact NZ]).
  split; [rewrite E; apply rot_norm; exact NZ|].
  split; [rewrite E, <- (rot_axis axis (deg2rad deg) NZ) at 1; apply rot_dot; exact NZ|].
  intro Z. pose proof (vnorm_sq axis) as S. pose proof (vnorm_pos axis NZ) as P.
  rewrite E. unfold rot.
  replace (vdot (vscale (/ vnorm axis) axis) v) with 0.
  2:{ rewrite vdot_scale_l, Z. ring. }
  replace (deg2rad deg) with (deg * PI / 180) by (unfold deg2rad; field).
  set (cs := cos _). set (sn := sin _). set (r := vnorm axis) in *. clearbody cs sn r.
  rewrite Rmult_0_r. revert S Z. unfold vdot. vsimp. intros S Z. split; [ring|].
  transitivity (sn * / r * ((vx axis * vx axis + vy axis * vy axis + vz axis * vz axis) * (vx v * vx v + vy v * vy v + vz v * vz v)
    - (vx axis * vx v + vy axis * vy v + vz axis * vz v) * (vx axis * vx v + vy axis * vy v + vz axis * vz v))); [ring|].
  rewrite Z, <- S. field. lra.
Qed.
