(** Property theorems: control surfaces in figures (C114). *)
From Coq Require Import List String ZArith QArith Qreals Reals Lra Lia.
From Verif Require Import PyBase PyFacts Vec PanelModel StripModel StripSpec StripSpan StripChord StripRun StripControl AircraftModel
  GeomModel GeomSpec GeomProofs MirrorProofs InterpProofs PrePanelSpec PlotModel PlotSpec PlotProofs DrawModel DrawSpec StripLine DrawProofs.
Import ListNotations.
Open Scope R_scope.

(** C114: the geometry figure is drawn exactly if every control names its type, its two segments
    and its hinge; it has the views and limits of C74, and its lines are exactly the outlines of
    all segments and, of all controls, the open outline and the hinge line, each once for the
    wing and once mirrored. *)
Theorem C114_figure : forall corners a,
  ((exists v', geometry_plot corners a = Ok v') <-> all_drawable a) /\
  forall v', geometry_plot corners a = Ok v' ->
    map v_labels (all_views v') = [[AX; AY; AZ]; [AY; AZ]; [AX; AZ]; [AX; AY]] /\
    map v_limits (all_views v') = map v_limits (all_views (geometry_figure (plot_segments corners a))) /\
    forall v, In v (all_views v') ->
      (forall line, In line (v_lines v) <->
        exists sym l, (wing_line corners a sym l \/ control_line corners a sym l) /\ appears v sym l line) /\
      (placed_inside a -> forall c, shown v c -> Forall2 (fun x lim => fst lim <= x <= snd lim) c (v_limits v)).
Proof.
  exact (fun corners a => conj (geometry_total corners a) (fun v' H =>
    conj (proj1 (geometry_frames corners a v' H)) (conj (proj2 (geometry_frames corners a v' H))
      (fun v V => conj (geometry_lines corners a v' v H V) (fun PI c => geometry_inside corners a v' v c PI H V))))).
Qed.
Print Assumptions C114_figure.

(** The figure of the lattice has the same limits and shows the outline of every panel, and the
    controls unless the wings are deformed (then it is drawn for any controls). *)
Theorem C114_lattice : forall corners a panels deformed,
  ((exists v', lattice_plot corners a panels deformed = Ok v') <-> deformed = true \/ all_drawable a) /\
  forall v', lattice_plot corners a panels deformed = Ok v' ->
    map v_limits (all_views v') = map v_limits (all_views (geometry_figure (plot_segments corners a))) /\
    forall v, In v (all_views v') -> forall line, In line (v_lines v) <->
      (exists p, In p panels /\ line = map (projection v) (closed_outline p)) \/
      (deformed = false /\ exists sym l, control_line corners a sym l /\ appears v sym l line).
Proof.
  exact (fun corners a panels deformed => conj (lattice_total corners a panels deformed) (fun v' H =>
    conj (lattice_frames corners a panels deformed v' H) (fun v => lattice_lines corners a panels deformed v' v H))).
Qed.
Print Assumptions C114_lattice.

(** A control on one segment is drawn where it acts: when all the operations of a run are accepted,
    it is carried by exactly the strips within its range, and on each of them the line that bounds
    the device and the hinge axis used for its rotation lie on the drawn line and the drawn hinge
    line; on the mirrored side on their mirror images.  Not true for symmetry about the
    yz-plane (C114_yz_refuted) and controls over several segments (C114_two_segments_refuted). *)
Theorem C114_acts_partial : forall q interp ops1 ops2 w k h1 h2,
  planar q -> convex q -> computes q interp ->
  let a := wc_eta_inner w in let b := wc_eta_outer w in let c := wc_ctl w in
  let ops := ops1 ++ OpControl a b c (wc_xsi_inner w) (wc_xsi_outer w) (wc_h_inner w) (wc_h_outer w) :: ops2 in
  all_accepted interp new_segment ops -> Forall op_aligned ops -> (forall o, In o ops2 -> ~ places o c) ->
  ct_type c = Some k -> wc_h_inner w = Some h1 -> wc_h_outer w = Some h2 -> fits (run interp ops1) a b c ->
  (forall y, line_at (run interp ops1) y -> (y < a -> y + (1 # 100) <= a)%Q) ->
  exists p0 A B p3 C D,
    ((control_outline k q q (Q2R a) (Q2R (wc_xsi_inner w)) (Q2R b) (Q2R (wc_xsi_outer w)) = [p0; A; B; p3]) /\
    [C; D] = [surface q (Q2R a) (Q2R h1); surface q (Q2R b) (Q2R h2)]) /\
    (forall s eta, In s (run interp ops) -> covers s eta -> (carries s c <-> a <= eta /\ eta < b)%Q) /\
    forall s k' v, In s (run interp ops) -> In (ADev k', v) (st_subs s) -> sa_ctrl v = Some c ->
      k' = k /\ (forall sym, lies_on q s k v false sym A B C D) /\
      (forall p, p <> YZ -> lies_on q s k v true (plane_num p) (refl p A) (refl p B) (refl p C) (refl p D)).
Proof. exact control_acts. Qed.
Print Assumptions C114_acts_partial.

(** Over several segments the claim is false: the figure joins the two ends by one straight line,
    which leaves the wing where the segments have different dihedral; all points of that line
    other than its ends are off every segment, while a device lies on its segment. *)
Theorem C114_two_segments_refuted : exists corners a v',
  geometry_plot corners a = Ok v' /\ placed_inside a /\
  exists wn w c k p0 A B p3, In (wn, w) (a_wings a) /\ In c (map snd (w_ctls w)) /\ ct_type (wc_ctl c) = Some k /\
    control_line corners a (w_symmetry w) [p0; A; B; p3] /\ A <> B /\
    (forall v, In v (all_views v') -> In (map (projection v) [p0; A; B; p3]) (v_lines v)) /\
    forall t sn s, 0 < t < 1 -> In (sn, s) (w_segs w) -> ~ on_surface (corners (w_uid w) sn) (along A B t).
Proof. exact two_segments_off. Qed.
Print Assumptions C114_two_segments_refuted.

(** For symmetry about the yz-plane the claim is false: the mirrored flap is drawn at the trailing
    edge of the mirror image, but acts at the leading edge; the line that bounds it and its hinge
    axis have no point in common with the drawn lines. *)
Theorem C114_yz_refuted : exists q interp w k h1 h2 p0 A B p3 s v,
  planar q /\ convex q /\ computes q interp /\
  let a := wc_eta_inner w in let b := wc_eta_outer w in let c := wc_ctl w in
  let ops := [OpControl a b c (wc_xsi_inner w) (wc_xsi_outer w) (wc_h_inner w) (wc_h_outer w)] in
  let C := surface q (Q2R a) (Q2R h1) in let D := surface q (Q2R b) (Q2R h2) in
  all_accepted interp new_segment ops /\ Forall op_aligned ops /\
  ct_type c = Some k /\ wc_h_inner w = Some h1 /\ wc_h_outer w = Some h2 /\ fits new_segment a b c /\
  control_outline k q q (Q2R a) (Q2R (wc_xsi_inner w)) (Q2R b) (Q2R (wc_xsi_outer w)) = [p0; A; B; p3] /\
  In s (run interp ops) /\ In (ADev k, v) (st_subs s) /\ sa_ctrl v = Some c /\
  lies_on q s k v false (plane_num YZ) A B C D /\
  forall sub g1 g2 m1 m2, subarea_vertices q (real_etas s) (real_xsis v) true (plane_num YZ) = Ok sub ->
    sa_hinge v = Some (g1, g2) -> hinge_vertices q (real_etas s) (Q2R g1) (Q2R g2) true (plane_num YZ) = Ok (m1, m2) ->
    forall t, unit_interval t ->
      ~ on_segment (refl YZ A) (refl YZ B) (along (fst (inner_edge k sub)) (snd (inner_edge k sub)) t) /\
      ~ on_segment (refl YZ C) (refl YZ D) (along m1 m2 t).
Proof. exact yz_off. Qed.
Print Assumptions C114_yz_refuted.

(** A trapezoidal segment (chords 2 and 1) cut at half span, an aileron over both strips, a later
    cut within it: the hypotheses of C114_acts_partial hold, and the figure of a symmetric wing with
    this control is drawn. *)
Definition ex_q : PanelModel.quad := mkQuad (mkV 0 0 0) (mkV 1 4 0) (mkV 2 4 0) (mkV 2 0 0).
Definition ex_aileron : wcontrol :=
  mkWC (mkControl "aileron" (Some Flap)) None (Some 5%Q) None (Some "s"%string) (Some "s"%string)
    (2#10) (9#10) (7#10) (8#10) (Some (72#100)) (Some (8#10)).
Definition ex_ops1 : list op := [OpSubdiv (1#2) (1#2) false].
Definition ex_ops2 : list op := [OpSubdiv (7#10) (7#10) false].
Definition ex_wing : wing := mkWing "w" 2 [("s"%string, new_wsegment "s")] [("aileron"%string, ex_aileron)].
Definition ex_aircraft : aircraft := mkAC "a" [("w"%string, ex_wing)].

Example C114_example :
  planar ex_q /\ convex ex_q /\ computes ex_q (trap_interp 2 1) /\
  (let ops := ex_ops1 ++ OpControl (2#10) (9#10) (wc_ctl ex_aileron) (7#10) (8#10) (Some (72#100)) (Some (8#10)) :: ex_ops2 in
   all_accepted (trap_interp 2 1) new_segment ops /\ Forall op_aligned ops /\
   map (fun s => existsb (akind_eqb (ADev Flap)) (map fst (st_subs s))) (run (trap_interp 2 1) ops) =
     [false; true; true; false; true]) /\
  fits (run (trap_interp 2 1) ex_ops1) (2#10) (9#10) (wc_ctl ex_aileron) /\
  (forall y, line_at (run (trap_interp 2 1) ex_ops1) y -> (y < (2#10) -> y + (1 # 100) <= (2#10))%Q) /\
  all_drawable ex_aircraft /\ placed_inside ex_aircraft.
Proof.
  assert (P : planar ex_q) by (unfold planar, seg_normal, ex_q, vdot; vsimp; lra).
  assert (C : convex ex_q) by (unfold convex, turns, seg_normal, ex_q, vdot; vsimp; lra).
  split; [exact P|]. split; [exact C|]. split; [|split; [|split; [|split; [|split]]]].
  - intros e1 x1 e2 x2 eta x (H1 & H2 & H3 & [H4 H5] & X1 & X2) H.
    destruct (xsi_interpol_trapezoid ex_q 2 1 e1 x1 e2 x2 eta P C) as (y & Y & R); try assumption; try reflexivity.
    { unfold ex_q, Q2R. apply vec_eq; simpl; field. }
    rewrite H in Y. injection Y as <-. exact R.
  - cbv zeta. split; [apply acceptedb_ok; vm_compute; reflexivity|]. split; [repeat constructor|vm_compute; reflexivity].
  - split; [|split; [discriminate|split; [discriminate|split; [discriminate|]]]].
    + intros s I (k & v & Iv & Ec). destruct I as [<-|[<-|[]]]; destruct Iv as [E|[]]; discriminate.
    + split; [|split].
      * intros s [<-|[<-|[]]]; reflexivity.
      * intros y (s & [<-|[<-|[]]] & E) L; change (eta_a _) with 0%Q in E || change (eta_a _) with (1#2)%Q in E; rewrite <- E in *;
          [discriminate L|reflexivity].
      * right; right. intros y (s & I & E) _.
        assert (X : forallb (fun s => Qle_bool (eta_a s + (1#100)) (9#10)) (run (trap_interp 2 1) ex_ops1) = true) by (vm_compute; reflexivity).
        rewrite forallb_forall in X. specialize (X s I). apply Qle_bool_iff in X. rewrite <- E. exact X.
  - intros y (s & I & E) L.
    assert (X : forallb (fun s => Qle_bool (eta_a s + (1#100)) (2#10) || negb (Qle_bool (eta_a s) (2#10)))%bool (run (trap_interp 2 1) ex_ops1) = true)
      by (vm_compute; reflexivity).
    rewrite forallb_forall in X. specialize (X s I). rewrite <- E in *. apply Bool.orb_true_iff in X. destruct X as [X|X].
    + apply Qle_bool_iff in X. exact X.
    + apply Bool.negb_true_iff in X. apply Qlt_le_weak, Qle_bool_iff in L. congruence.
  - intros wn w cn c [E|[]]. injection E as <- <-. intros [E|[]]. injection E as <- <-.
    exists Flap, "s"%string, "s"%string, (72#100), (8#10). repeat split; eexists; reflexivity.
  - intros wn w cn c [E|[]]. injection E as <- <-. intros [E|[]]. injection E as <- <-. cbn. split.
    + repeat split; discriminate.
    + intros h [E|E]; injection E as <-; split; discriminate.
Qed.
