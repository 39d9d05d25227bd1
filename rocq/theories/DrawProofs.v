(** Proofs about drawn control surfaces (C114). *)
From Coq Require Import List String ZArith QArith Qreals Reals Lra Lia.
From Verif Require Import PyBase PyFacts Vec PanelModel StripModel StripSpec StripSpan StripChord StripRun StripControl AircraftModel
  GeomModel GeomSpec GeomProofs MirrorProofs InterpProofs PrePanelSpec PlotModel PlotSpec PlotProofs DrawModel DrawSpec StripLine.
Import ListNotations.
Open Scope R_scope.

Lemma seg_surface q e x : seg_point q e x = surface q e x.
Proof. unfold seg_point. vring. Qed.

(** ** Lines *)

Definition refl_of (sym : Z) : option (vec -> vec) :=
  match sym with 1%Z => Some (refl XY) | 2%Z => Some (refl XZ) | 3%Z => Some (refl YZ) | _ => None end.

Lemma mirror_refl sym y p : mirror_image sym y p <-> exists f, refl_of sym = Some f /\ p = f y.
Proof.
  split.
  - intro M. inversion M; subst; eexists; (split; [reflexivity|]); reflexivity.
  - intros (f & E & ->). destruct y as [x y z]. unfold refl_of in E. destruct sym as [|s|s]; try discriminate.
    destruct s as [[s|s|]|[s|s|]|]; try discriminate; injection E as <-; constructor.
Qed.

Lemma mirror_list sym l l' : Forall2 (mirror_image sym) l l' <-> (l = [] /\ l' = []) \/ exists f, refl_of sym = Some f /\ l' = map f l.
Proof.
  split.
  - intro H. destruct (refl_of sym) as [f|] eqn:E.
    + right. exists f. split; [reflexivity|]. induction H as [|x y l l' M _ IH]; [reflexivity|].
      apply mirror_refl in M. destruct M as (g & G & ->). simpl. f_equal; [congruence|exact IH].
    + left. inversion H as [|x y l0 l1 M]; subst; [auto|]. apply mirror_refl in M. destruct M as (g & G & _). congruence.
  - intros [[-> ->]|(f & E & ->)]; [constructor|]. induction l; constructor; [|assumption]. apply mirror_refl. eauto.
Qed.

Definition proj (w : which) (p : vec) : list R := map (fun a => coord a p) (axes_of w).

Lemma plot_lines v line line' : In line' (v_lines (plot v line)) <-> In line' (v_lines v) \/ line' = line.
Proof. unfold plot. cbn [v_lines]. rewrite in_app_iff. cbn [In]. intuition congruence. Qed.

Lemma map_ext' {A B} (f g : A -> B) (l : list A) : (forall x, f x = g x) -> map f l = map g l.
Proof. intro H. apply map_ext. exact H. Qed.

Lemma plot_points_lines w v l sym line : l <> [] ->
  (In line (v_lines (pick w (plot_points v l sym))) <->
   In line (v_lines (pick w v)) \/ line = map (proj w) l \/ exists l', Forall2 (mirror_image sym) l l' /\ line = map (proj w) l').
Proof.
  intro NE.
  assert (R : (exists l', Forall2 (mirror_image sym) l l' /\ line = map (proj w) l') <->
              exists f, refl_of sym = Some f /\ line = map (fun p => proj w (f p)) l).
  { split.
    - intros (l' & F & ->). apply mirror_list in F. destruct F as [[-> _]|(f & E & ->)]; [congruence|].
      exists f. split; [exact E|]. rewrite map_map. reflexivity.
    - intros (f & E & ->). exists (map f l). split; [apply mirror_list; eauto|]. rewrite map_map. reflexivity. }
  rewrite R. clear R.
  unfold plot_points, refl_of.
  assert (S1 : forall f : vec -> vec, (exists g, Some f = Some g /\ line = map (fun p => proj w (g p)) l) <-> line = map (fun p => proj w (f p)) l).
  { intro f. split; [intros (g & E & H); injection E as <-; exact H|eauto]. }
  assert (S0 : (exists g : vec -> vec, None = Some g /\ line = map (fun p => proj w (g p)) l) <-> False).
  { split; [intros (g & E & _); discriminate|intros []]. }
  destruct sym as [|s|s]; [| |].
  1,3: rewrite S0; destruct w; cbn [pick view_3d view_yz view_xz view_xy]; rewrite plot_lines; cbn [proj axes_of map coord]; tauto.
  destruct s as [[s|s|]|[s|s|]|].
  all: try (rewrite S0; destruct w; cbn [pick view_3d view_yz view_xz view_xy]; rewrite plot_lines; cbn [proj axes_of map coord]; tauto).
  all: rewrite S1; destruct w; cbn [pick view_3d view_yz view_xz view_xy]; rewrite ?plot_lines;
    unfold proj; cbn [axes_of map coord refl vx vy vz]; tauto.
Qed.

Lemma appears_pick w v sym l line : v_labels (pick w v) = axes_of w ->
  (appears (pick w v) sym l line <-> line = map (proj w) l \/ exists l', Forall2 (mirror_image sym) l l' /\ line = map (proj w) l').
Proof. intro E. unfold appears, projection, proj. rewrite E. reflexivity. Qed.

Definition shows (w : which) (sym : Z) (l : list vec) (line : list (list R)) : Prop :=
  line = map (proj w) l \/ exists l', Forall2 (mirror_image sym) l l' /\ line = map (proj w) l'.

Lemma add_wings_lines w segs : forall v line,
  In line (v_lines (pick w (add_wings v segs))) <->
  In line (v_lines (pick w v)) \/ exists sym q, In (sym, q) segs /\ shows w sym (closed_outline q) line.
Proof.
  induction segs as [|[sym q] segs IH]; intros v line.
  - cbn [add_wings fold_left]. split; [auto|]. intros [H|(x & q & [] & _)]. exact H.
  - cbn [add_wings fold_left]. change (fold_left _ segs ?u) with (add_wings u segs).
    rewrite IH, plot_points_lines by discriminate. cbn [fst snd]. fold (closed_outline q). fold (shows w sym (closed_outline q) line).
    split.
    + intros [[H|H]|(x & q' & I & H)]; [auto|right; exists sym, q; split; [left; reflexivity|exact H]|right; exists x, q'; split; [right; exact I|exact H]].
    + intros [H|(x & q' & [I|I] & H)]; [auto|injection I as <- <-; auto|right; exists x, q'; auto].
Qed.

Lemma add_lattice_lines w panels : forall v line,
  In line (v_lines (pick w (add_lattice v panels))) <->
  In line (v_lines (pick w v)) \/ exists q, In q panels /\ line = map (proj w) (closed_outline q).
Proof.
  induction panels as [|q panels IH]; intros v line.
  - cbn [add_lattice fold_left]. split; [auto|]. intros [H|(q & [] & _)]. exact H.
  - cbn [add_lattice fold_left]. change (fold_left _ panels ?u) with (add_lattice u panels).
    rewrite IH, plot_points_lines by discriminate. fold (closed_outline q).
    split.
    + intros [[H|[H|(l' & F & _)]]|(q' & I & H)]; [auto|right; exists q; split; [left; reflexivity|exact H]| |right; exists q'; split; [right; exact I|exact H]].
      exfalso. apply mirror_list in F. destruct F as [[E _]|(f & E & _)]; discriminate.
    + intros [H|(q' & [->|I] & H)]; [auto|auto|right; exists q'; auto].
Qed.

Lemma add_lattice_frames panels : forall v, same_frames (add_lattice v panels) v.
Proof.
  induction panels as [|q panels IH]; intro v; [repeat split|]. cbn [add_lattice fold_left].
  change (fold_left _ panels ?w) with (add_lattice w panels).
  destruct (IH (plot_points v (closed_outline q) 0)) as ((A & B) & (C & D) & (E & F) & G & H).
  destruct (plot_points_frames v (closed_outline q) 0) as ((A' & B') & (C' & D') & (E' & F') & G' & H').
  repeat split; unfold closed_outline in *; congruence.
Qed.

(** ** Controls *)
Section Controls.
Variable corners : string -> string -> PanelModel.quad.

Lemma segment_corners_ok w name q : segment_corners corners w name = Ok q <->
  exists n s, name = Some n /\ dget (w_segs w) n = Some s /\ q = corners (w_uid w) n.
Proof.
  unfold segment_corners. destruct name as [n|]; [|split; [discriminate|intros (n & s & E & _); discriminate]].
  unfold dmem. destruct (dget (w_segs w) n) as [s|] eqn:E; split.
  - intro H. injection H as <-. exists n, s. auto.
  - intros (n' & s' & [= <-] & _ & ->). reflexivity.
  - discriminate.
  - intros (n' & s' & [= <-] & E' & _). congruence.
Qed.

Definition control_pts (w : wing) (c : wcontrol) (k : dkind) (i o : string) : list vec :=
  control_outline k (corners (w_uid w) i) (corners (w_uid w) o) (Q2R (wc_eta_inner c)) (Q2R (wc_xsi_inner c)) (Q2R (wc_eta_outer c)) (Q2R (wc_xsi_outer c)).
Definition hinge_pts (w : wing) (c : wcontrol) (i o : string) (h1 h2 : Q) : list vec :=
  [surface (corners (w_uid w) i) (Q2R (wc_eta_inner c)) (Q2R h1); surface (corners (w_uid w) o) (Q2R (wc_eta_outer c)) (Q2R h2)].

Lemma draw_control_ok v w c v' : draw_control corners v w c = Ok v' <->
  exists k i o h1 h2, drawable w c k i o h1 h2 /\
    v' = plot_points (plot_points v (control_pts w c k i o) (w_symmetry w)) (hinge_pts w c i o h1 h2) (w_symmetry w).
Proof.
  unfold draw_control, abs_vertices, abs_hinge_vertices. split.
  - intro H.
    destruct (segment_corners corners w (wc_inner c)) as [qi|] eqn:Ei; [|discriminate].
    destruct (segment_corners corners w (wc_outer c)) as [qo|] eqn:Eo; [|discriminate].
    apply segment_corners_ok in Ei. destruct Ei as (i & si & Hi & Gi & ->).
    apply segment_corners_ok in Eo. destruct Eo as (o & so & Ho & Go & ->).
    cbn [bind] in H. destruct (ct_type (wc_ctl c)) as [k|] eqn:K; [|discriminate].
    destruct (wc_h_inner c) as [h1|] eqn:H1; [|destruct k; discriminate].
    destruct (wc_h_outer c) as [h2|] eqn:H2; [|destruct k; discriminate].
    exists k, i, o, h1, h2. split; [unfold drawable; rewrite K; eauto 10|].
    unfold control_pts, control_outline, hinge_pts. destruct k; cbn [bind qa qb qc qd fst snd] in H; injection H as <-; rewrite !seg_surface; reflexivity.
  - intros (k & i & o & h1 & h2 & (K & Hi & Ho & (si & Gi) & (so & Go) & H1 & H2) & ->).
    assert (Ei : segment_corners corners w (wc_inner c) = Ok (corners (w_uid w) i)) by (apply segment_corners_ok; eauto).
    assert (Eo : segment_corners corners w (wc_outer c) = Ok (corners (w_uid w) o)) by (apply segment_corners_ok; eauto).
    rewrite Ei, Eo, K, H1, H2. cbn [bind]. unfold control_pts, control_outline, hinge_pts.
    destruct k; cbn [bind qa qb qc qd fst snd]; rewrite !seg_surface; reflexivity.
Qed.

(** What one wing draws *)
Definition wing_control_line (w : wing) (cs : list (string * wcontrol)) (l : list vec) : Prop :=
  exists cn c k i o h1 h2, In (cn, c) cs /\ drawable w c k i o h1 h2 /\ (l = control_pts w c k i o \/ l = hinge_pts w c i o h1 h2).

Lemma drawable_unique w c k i o h1 h2 k' i' o' h1' h2' : drawable w c k i o h1 h2 -> drawable w c k' i' o' h1' h2' ->
  k' = k /\ i' = i /\ o' = o /\ h1' = h1 /\ h2' = h2.
Proof. intros (A & B & C & _ & _ & D & E) (A' & B' & C' & _ & _ & D' & E'). repeat split; congruence. Qed.

Lemma control_pts_ne w c k i o : control_pts w c k i o <> [].
Proof. destruct k; discriminate. Qed.

Lemma draw_controls_lines x w cs : forall v v' line, draw_controls corners v w cs = Ok v' ->
  (In line (v_lines (pick x v')) <-> In line (v_lines (pick x v)) \/ exists l, wing_control_line w cs l /\ shows x (w_symmetry w) l line).
Proof.
  induction cs as [|[cn c] cs IH]; intros v v' line H.
  - injection H as <-. split; [auto|]. intros [I|(l & (cn & c & k & i & o & h1 & h2 & [] & _) & _)]. exact I.
  - cbn [draw_controls] in H. destruct (draw_control corners v w c) as [v1|] eqn:E; [|discriminate]. cbn [bind] in H.
    rewrite (IH v1 v' line H). apply draw_control_ok in E. destruct E as (k & i & o & h1 & h2 & D & ->).
    rewrite plot_points_lines by discriminate. rewrite plot_points_lines by apply control_pts_ne.
    fold (shows x (w_symmetry w) (hinge_pts w c i o h1 h2) line). fold (shows x (w_symmetry w) (control_pts w c k i o) line).
    split.
    + intros [[[I|S]|S]|(l & (cn' & c' & k' & i' & o' & g1 & g2 & I & D' & L) & S)]; [auto|right..].
      * exists (control_pts w c k i o). split; [|exact S]. exists cn, c, k, i, o, h1, h2. split; [left; reflexivity|auto].
      * exists (hinge_pts w c i o h1 h2). split; [|exact S]. exists cn, c, k, i, o, h1, h2. split; [left; reflexivity|auto].
      * exists l. split; [|exact S]. exists cn', c', k', i', o', g1, g2. split; [right; exact I|auto].
    + intros [I|(l & (cn' & c' & k' & i' & o' & g1 & g2 & [I|I] & D' & L) & S)]; [auto| |].
      * injection I as <- <-. destruct (drawable_unique _ _ _ _ _ _ _ _ _ _ _ _ D D') as (-> & -> & -> & -> & ->).
        destruct L as [-> | ->]; auto.
      * right. exists l. split; [|exact S]. exists cn', c', k', i', o', g1, g2. auto.
Qed.

Lemma draw_controls_frames w cs : forall v v', draw_controls corners v w cs = Ok v' -> same_frames v' v.
Proof.
  induction cs as [|[cn c] cs IH]; intros v v' H.
  - injection H as <-. repeat split.
  - cbn [draw_controls] in H. destruct (draw_control corners v w c) as [v1|] eqn:E; [|discriminate]. cbn [bind] in H.
    destruct (IH v1 v' H) as ((A & B) & (C & D) & (E0 & F) & G & H0). apply draw_control_ok in E. destruct E as (k & i & o & h1 & h2 & _ & ->).
    destruct (plot_points_frames v (control_pts w c k i o) (w_symmetry w)) as ((A' & B') & (C' & D') & (E' & F') & G' & H').
    destruct (plot_points_frames (plot_points v (control_pts w c k i o) (w_symmetry w)) (hinge_pts w c i o h1 h2) (w_symmetry w)) as ((A2 & B2) & (C2 & D2) & (E2 & F2) & G2 & H2).
    repeat split; congruence.
Qed.

Lemma draw_wings_lines x ws : forall v v' line, draw_wings corners v ws = Ok v' ->
  (In line (v_lines (pick x v')) <-> In line (v_lines (pick x v)) \/
   exists wn w l, In (wn, w) ws /\ wing_control_line w (w_ctls w) l /\ shows x (w_symmetry w) l line).
Proof.
  induction ws as [|[wn w] ws IH]; intros v v' line H.
  - injection H as <-. split; [auto|]. intros [I|(n & w & l & [] & _)]. exact I.
  - cbn [draw_wings] in H. destruct (draw_controls corners v w (w_ctls w)) as [v1|] eqn:E; [|discriminate]. cbn [bind] in H.
    rewrite (IH v1 v' line H), (draw_controls_lines x w _ v v1 line E). split.
    + intros [[I|(l & L & S)]|(n & u & l & I & L & S)]; [auto|right; exists wn, w, l; split; [left; reflexivity|auto]|right; exists n, u, l; split; [right; exact I|auto]].
    + intros [I|(n & u & l & [I|I] & L & S)]; [auto|injection I as <- <-; left; right; eauto|right; exists n, u, l; auto].
Qed.

Lemma draw_wings_frames ws : forall v v', draw_wings corners v ws = Ok v' -> same_frames v' v.
Proof.
  induction ws as [|[wn w] ws IH]; intros v v' H.
  - injection H as <-. repeat split.
  - cbn [draw_wings] in H. destruct (draw_controls corners v w (w_ctls w)) as [v1|] eqn:E; [|discriminate]. cbn [bind] in H.
    destruct (IH v1 v' H) as ((A & B) & (C & D) & (E0 & F) & G & H0).
    destruct (draw_controls_frames _ _ _ _ E) as ((A2 & B2) & (C2 & D2) & (E2 & F2) & G2 & H2).
    repeat split; congruence.
Qed.

(** Success *)
Lemma draw_controls_total w cs : forall v,
  (exists v', draw_controls corners v w cs = Ok v') <-> forall cn c, In (cn, c) cs -> exists k i o h1 h2, drawable w c k i o h1 h2.
Proof.
  induction cs as [|[cn c] cs IH]; intro v.
  - split; [intros _ n c []|intros _; exists v; reflexivity].
  - cbn [draw_controls]. split.
    + intros (v' & H). destruct (draw_control corners v w c) as [v1|] eqn:E; [|discriminate]. cbn [bind] in H.
      intros n c' [I|I].
      * injection I as <- <-. apply draw_control_ok in E. destruct E as (k & i & o & h1 & h2 & D & _). eauto 10.
      * apply (proj1 (IH v1) (ex_intro _ v' H) n c' I).
    + intro H. destruct (H cn c (or_introl eq_refl)) as (k & i & o & h1 & h2 & D).
      assert (E := proj2 (draw_control_ok v w c _) (ex_intro _ k (ex_intro _ i (ex_intro _ o (ex_intro _ h1 (ex_intro _ h2 (conj D eq_refl))))))).
      rewrite E. cbn [bind]. apply IH. intros n c' I. apply (H n c'). right. exact I.
Qed.

Lemma draw_wings_total ws : forall v,
  (exists v', draw_wings corners v ws = Ok v') <->
  forall wn w cn c, In (wn, w) ws -> In (cn, c) (w_ctls w) -> exists k i o h1 h2, drawable w c k i o h1 h2.
Proof.
  induction ws as [|[wn w] ws IH]; intro v.
  - split; [intros _ n c cn c' []|intros _; exists v; reflexivity].
  - cbn [draw_wings]. split.
    + intros (v' & H). destruct (draw_controls corners v w (w_ctls w)) as [v1|] eqn:E; [|discriminate]. cbn [bind] in H.
      intros n u cn c [I|I] J.
      * injection I as <- <-. exact (proj1 (draw_controls_total w (w_ctls w) v) (ex_intro _ v1 E) cn c J).
      * exact (proj1 (IH v1) (ex_intro _ v' H) n u cn c I J).
    + intro H. destruct (proj2 (draw_controls_total w (w_ctls w) v)) as [v1 E].
      { intros cn c I. apply (H wn w cn c); [left; reflexivity|exact I]. }
      rewrite E. cbn [bind]. apply IH. intros n u cn c I J. apply (H n u cn c); [right; exact I|exact J].
Qed.

Lemma control_line_iff a sym l : control_line corners a sym l <->
  exists wn w, In (wn, w) (a_wings a) /\ sym = w_symmetry w /\ wing_control_line w (w_ctls w) l.
Proof.
  unfold control_line, wing_control_line, control_pts, hinge_pts. split.
  - intros (wn & w & cn & c & k & i & o & h1 & h2 & I & J & S & D & L). exists wn, w. split; [exact I|]. split; [exact S|].
    exists cn, c, k, i, o, h1, h2. auto.
  - intros (wn & w & I & S & cn & c & k & i & o & h1 & h2 & J & D & L).
    exists wn, w, cn, c, k, i, o, h1, h2. auto.
Qed.

Lemma plot_segments_in a sym q : In (sym, q) (plot_segments corners a) <->
  exists wn w sn s, In (wn, w) (a_wings a) /\ In (sn, s) (w_segs w) /\ sym = w_symmetry w /\ q = corners (w_uid w) sn.
Proof.
  unfold plot_segments. rewrite in_flat_map. split.
  - intros ([wn w] & I & J). cbn [snd] in J. apply in_map_iff in J. destruct J as ([sn s] & E & J). injection E as <- <-.
    exists wn, w, sn, s. auto.
  - intros (wn & w & sn & s & I & J & -> & ->). exists (wn, w). split; [exact I|]. cbn [snd]. apply in_map_iff. exists (sn, s). auto.
Qed.

Lemma pick_labels v x : same_frames x v -> forall w, v_labels (pick w x) = v_labels (pick w v) /\ v_limits (pick w x) = v_limits (pick w v).
Proof. intros ((A & B) & (C & D) & (E & F) & G & H) []; cbn [pick]; auto. Qed.

Lemma scale_frame w segs : v_labels (pick w (scale_plots init_views segs)) = axes_of w /\
  v_limits (pick w (scale_plots init_views segs)) = map (domain (limits segs)) (axes_of w) /\ v_lines (pick w (scale_plots init_views segs)) = [].
Proof. destruct w; repeat split. Qed.

Lemma geometry_lines a v' v : geometry_plot corners a = Ok v' -> In v (all_views v') ->
  forall line, In line (v_lines v) <-> exists sym l, (wing_line corners a sym l \/ control_line corners a sym l) /\ appears v sym l line.
Proof.
  intros H V line. apply pick_all in V. destruct V as [x ->].
  assert (FR := draw_wings_frames _ _ _ H). destruct (pick_labels _ _ FR x) as [LB _]. destruct (figure_frame x (plot_segments corners a)) as [LF _].
  assert (LAB : v_labels (pick x v') = axes_of x) by congruence.
  setoid_rewrite (fun sym l => appears_pick x v' sym l line LAB).
  unfold geometry_plot, add_controls in H. rewrite (draw_wings_lines x _ _ _ line H).
  unfold geometry_figure. rewrite add_wings_lines. destruct (scale_frame x (plot_segments corners a)) as (_ & _ & ->).
  split.
  - intros [[[]|(sym & q & I & S)]|(wn & w & l & I & L & S)].
    + exists sym, (closed_outline q). split; [|exact S]. left. apply plot_segments_in in I.
      destruct I as (wn & w & sn & s & I & J & -> & ->). exists wn, w, sn, s. auto.
    + exists (w_symmetry w), l. split; [|exact S]. right. apply control_line_iff. eauto.
  - intros (sym & l & [(wn & w & sn & s & I & J & -> & ->)|L] & S).
    + left. right. exists (w_symmetry w), (corners (w_uid w) sn). split; [|exact S]. apply plot_segments_in. exists wn, w, sn, s. auto.
    + right. apply control_line_iff in L. destruct L as (wn & w & I & -> & L). exists wn, w, l. auto.
Qed.

Lemma lattice_lines a panels deformed v' v : lattice_plot corners a panels deformed = Ok v' -> In v (all_views v') ->
  forall line, In line (v_lines v) <->
    (exists p, In p panels /\ line = map (projection v) (closed_outline p)) \/
    (deformed = false /\ exists sym l, control_line corners a sym l /\ appears v sym l line).
Proof.
  intros H V line. apply pick_all in V. destruct V as [x ->].
  assert (FL := pick_labels _ _ (add_lattice_frames panels (scale_plots init_views (plot_segments corners a))) x).
  destruct FL as [FL _]. destruct (scale_frame x (plot_segments corners a)) as (SL & _ & SN).
  unfold lattice_plot in H. destruct deformed.
  - injection H as <-. unfold projection. rewrite FL, SL. rewrite add_lattice_lines, SN. fold (proj x).
    split; [intros [[]|P]; left; exact P|intros [P|[E _]]; [right; exact P|discriminate]].
  - assert (FR := draw_wings_frames _ _ _ H). destruct (pick_labels _ _ FR x) as [LB _].
    assert (LAB : v_labels (pick x v') = axes_of x) by congruence.
    setoid_rewrite (fun sym l => appears_pick x v' sym l line LAB).
    unfold add_controls in H. rewrite (draw_wings_lines x _ _ _ line H). rewrite add_lattice_lines, SN. unfold projection. rewrite LAB. fold (proj x).
    split.
    + intros [[[]|P]|(wn & w & l & I & L & S)]; [left; exact P|right]. split; [reflexivity|].
      exists (w_symmetry w), l. split; [|exact S]. apply control_line_iff. eauto.
    + intros [P|(_ & sym & l & L & S)]; [left; right; exact P|right].
      apply control_line_iff in L. destruct L as (wn & w & I & -> & L). exists wn, w, l. auto.
Qed.

(** ** Limits *)

Lemma surface_coord q e x a : coord a (surface q e x) =
  (1 - e) * (1 - x) * coord a (qa q) + e * (1 - x) * coord a (qb q) + e * x * coord a (qc q) + (1 - e) * x * coord a (qd q).
Proof. destruct a; unfold surface, along, coord; vsimp; ring. Qed.

Lemma surface_inside (S : vec -> Prop) lo hi q e x : bounding_box S lo hi -> (forall p, vertex q p -> S p) ->
  0 <= e <= 1 -> 0 <= x <= 1 -> forall a, coord a lo <= coord a (surface q e x) <= coord a hi.
Proof.
  intros B V E X a. rewrite surface_coord. destruct (B a) as [C _].
  pose proof (C _ (V (qa q) (or_introl eq_refl))). pose proof (C _ (V (qb q) (or_intror (or_introl eq_refl)))).
  pose proof (C _ (V (qc q) (or_intror (or_intror (or_introl eq_refl))))). pose proof (C _ (V (qd q) (or_intror (or_intror (or_intror eq_refl))))).
  assert (W1 : 0 <= (1 - e) * (1 - x)) by (apply Rmult_le_pos; lra). assert (W2 : 0 <= e * (1 - x)) by (apply Rmult_le_pos; lra).
  assert (W3 : 0 <= e * x) by (apply Rmult_le_pos; lra). assert (W4 : 0 <= (1 - e) * x) by (apply Rmult_le_pos; lra).
  split.
  - replace (coord a lo) with (((1 - e) * (1 - x) + e * (1 - x) + e * x + (1 - e) * x) * coord a lo) by ring. nra.
  - replace (coord a hi) with (((1 - e) * (1 - x) + e * (1 - x) + e * x + (1 - e) * x) * coord a hi) by ring. nra.
Qed.
End Controls.

(** ** Where a control acts *)

Lemma along_between A B t1 t2 t : unit_interval t1 -> unit_interval t2 -> unit_interval t ->
  on_segment A B (along (along A B t1) (along A B t2) t).
Proof.
  unfold unit_interval. intros [] [] []. exists ((1 - t) * t1 + t * t2). split; [unfold unit_interval; nra|]. vring.
Qed.

Lemma unit_Q (x : Q) : (0 <= x <= 1)%Q -> unit_interval (Q2R x).
Proof.
  intros [H1 H2]. apply Qle_Rle in H1, H2. unfold unit_interval. replace 0 with (Q2R 0) by (unfold Q2R; simpl; field).
  replace 1 with (Q2R 1) by (unfold Q2R; simpl; field). split; assumption.
Qed.

Lemma line_closed q interp A B : planar q -> convex q -> computes q interp ->
  closed interp (fun e x => on_segment A B (surface q (Q2R e) (Q2R x))).
Proof.
  intros P C K. split.
  - intros e e' x E. rewrite (Qeq_eqR _ _ E). auto.
  - intros e1 x1 e2 x2 e x E1 E12 E2 L1 L2 X1 X2 (t1 & T1 & S1) (t2 & T2 & S2) H.
    apply K in H; [|tauto].
    assert (R1 : 0 <= Q2R e1) by (apply (unit_Q e1); split; [exact E1|apply Qle_trans with e2; [apply Qlt_le_weak; exact E12|exact E2]]). assert (R2 : Q2R e1 < Q2R e2) by (apply Qlt_Rlt; exact E12).
    assert (R3 : Q2R e2 <= 1) by (apply (unit_Q e2); split; [apply Qle_trans with e1; [exact E1|apply Qlt_le_weak; exact E12]|exact E2]).
    assert (R4 : Q2R e1 <= Q2R e <= Q2R e2) by (split; apply Qle_Rle; assumption).
    destruct (xsi_interpol_spec q (Q2R e1) (Q2R x1) (Q2R e2) (Q2R x2) (Q2R e) P C R1 R2 R3 R4 (unit_Q _ X1) (unit_Q _ X2))
      as (y & Ey & (t & T & M) & _).
    rewrite Ey in H. injection H as H. cbn [fst snd] in M. rewrite <- H, M, S1, S2. apply along_between; assumption.
Qed.

Lemma along_end0 A B : on_segment A B A.
Proof. exists 0. split; [unfold unit_interval; lra|vring]. Qed.
Lemma along_end1 A B : on_segment A B B.
Proof. exists 1. split; [unfold unit_interval; lra|vring]. Qed.

Lemma segment_refl p A B P : on_segment A B P -> on_segment (refl p A) (refl p B) (refl p P).
Proof. intros (t & T & ->). exists t. split; [exact T|apply refl_along]. Qed.

Lemma mirror_plane p y z : mirror_image (plane_num p) y z -> z = refl p y.
Proof.
  intro M. apply mirror_refl in M. destruct M as (f & E & ->). destruct p; injection E as <-; reflexivity.
Qed.

Lemma strip_point q s e x : (eta_d s == eta_a s)%Q -> (eta_c s == eta_b s)%Q -> e = real_etas s ->
  let sd := strip_quad q e in
  along (qa sd) (qd sd) x = surface q (Q2R (eta_a s)) x /\ along (qb sd) (qc sd) x = surface q (Q2R (eta_b s)) x.
Proof.
  intros E1 E2 ->. unfold strip_quad, real_etas, surface. cbn [qa qb qc qd r_eta_a r_eta_b r_eta_c r_eta_d].
  rewrite (Qeq_eqR _ _ E1), (Qeq_eqR _ _ E2). auto.
Qed.

Lemma device_lies q s k v A B C D (A1 : (eta_d s == eta_a s)%Q) (A2 : (eta_c s == eta_b s)%Q) g1 g2 y1 y2 :
  sa_hinge v = Some (g1, g2) ->
  match k with Flap => xsi_a v = y1 /\ xsi_b v = y2 | Slat => xsi_d v = y1 /\ xsi_c v = y2 end ->
  on_segment A B (surface q (Q2R (eta_a s)) (Q2R y1)) -> on_segment A B (surface q (Q2R (eta_b s)) (Q2R y2)) ->
  on_segment C D (surface q (Q2R (eta_a s)) (Q2R g1)) -> on_segment C D (surface q (Q2R (eta_b s)) (Q2R g2)) ->
  (forall sym, lies_on q s k v false sym A B C D) /\
  (forall p, p <> YZ -> lies_on q s k v true (plane_num p) (refl p A) (refl p B) (refl p C) (refl p D)).
Proof.
  intros Hg HX D1 D2 H1 H2.
  pose proof (strip_point q s (real_etas s) (Q2R y1) A1 A2 eq_refl) as [P1 _].
  pose proof (strip_point q s (real_etas s) (Q2R y2) A1 A2 eq_refl) as [_ P2].
  pose proof (strip_point q s (real_etas s) (Q2R g1) A1 A2 eq_refl) as [P3 _].
  pose proof (strip_point q s (real_etas s) (Q2R g2) A1 A2 eq_refl) as [_ P4].
  cbv zeta in P1, P2, P3, P4. rewrite <- P1 in D1. rewrite <- P2 in D2. rewrite <- P3 in H1. rewrite <- P4 in H2.
  clear P1 P2 P3 P4. split.
  - intro sym. eexists _, g1, g2, _, _. split; [apply sub_plain|]. split; [exact Hg|]. split; [apply hinge_plain|].
    destruct k, HX as [<- <-]; cbn [inner_edge fst snd sub_quad qa qb qc qd real_xsis r_xsi_a r_xsi_b r_xsi_c r_xsi_d]; auto.
  - intros p NP. apply (segment_refl p) in D1, D2, H1, H2.
    destruct p; [| |congruence]; eexists _, g1, g2, _, _;
      (split; [rewrite sub_mirror, (sub_mirror_12 _ _ _ NP); reflexivity|]); (split; [exact Hg|]);
      (split; [rewrite hinge_mirror; reflexivity|]);
      unfold quad_order, order4, quad_of, quad_refl; cbn [qa qb qc qd]; rewrite <- !refl_along;
      destruct k, HX as [<- <-]; cbn [inner_edge fst snd sub_quad qa qb qc qd real_xsis r_xsi_a r_xsi_b r_xsi_c r_xsi_d]; auto.
Qed.

Lemma control_acts q interp ops1 ops2 w k h1 h2 :
  planar q -> convex q -> computes q interp ->
  let a := wc_eta_inner w in let b := wc_eta_outer w in let c := wc_ctl w in
  let ops := ops1 ++ OpControl a b c (wc_xsi_inner w) (wc_xsi_outer w) (wc_h_inner w) (wc_h_outer w) :: ops2 in
  all_accepted interp new_segment ops -> Forall op_aligned ops -> (forall o, In o ops2 -> ~ places o c) ->
  ct_type c = Some k -> wc_h_inner w = Some h1 -> wc_h_outer w = Some h2 -> fits (run interp ops1) a b c ->
  (forall y, line_at (run interp ops1) y -> (y < a -> y + (1 # 100) <= a)%Q) ->
  exists p0 A B p3 C D,
    ((control_outline k q q (Q2R a) (Q2R (wc_xsi_inner w)) (Q2R b) (Q2R (wc_xsi_outer w)) = [p0; A; B; p3]) /\
    [C; D] = [surface q (Q2R a) (Q2R h1); surface q (Q2R b) (Q2R h2)]) /\
    (forall s eta, In s (run interp ops) -> covers s eta -> (carries s c <-> a <= eta /\ eta < b)%Q) /\
    forall s k' v, In s (run interp ops) -> In (ADev k', v) (st_subs s) -> sa_ctrl v = Some c ->
      k' = k /\ (forall sym, lies_on q s k v false sym A B C D) /\
      (forall p, p <> YZ -> lies_on q s k v true (plane_num p) (refl p A) (refl p B) (refl p C) (refl p D)).
Proof.
  intros P C K a b c ops AC AL NP Tk E1 E2 FI CL.
  set (A := surface q (Q2R a) (Q2R (wc_xsi_inner w))). set (B := surface q (Q2R b) (Q2R (wc_xsi_outer w))).
  set (G := surface q (Q2R a) (Q2R h1)). set (H := surface q (Q2R b) (Q2R h2)).
  assert (FO : forall X Y, (X = A /\ Y = B \/ X = B /\ Y = A) ->
    follows (fun e x => on_segment X Y (surface q (Q2R e) (Q2R x))) (fun e x => on_segment G H (surface q (Q2R e) (Q2R x))) c (run interp ops)).
  { intros X Y XY. apply (run_follows interp _ _ (line_closed q interp X Y P C K) (line_closed q interp G H P C K) ops1 a b c k); auto.
    - destruct XY as [[-> ->]|[-> ->]]; [apply along_end0|apply along_end1].
    - rewrite E1. apply along_end0.
    - destruct XY as [[-> ->]|[-> ->]]; [apply along_end1|apply along_end0].
    - rewrite E2. apply along_end1. }
  pose proof (run_aligned interp ops AL) as RA. pose proof (run_chord_accepted interp ops AC) as CH.
  assert (CAR := run_carriers interp ops1 a b c k _ _ _ _ ops2 AC NP Tk FI CL). fold ops in CAR.
  assert (FIN : forall X Y, (X = A /\ Y = B \/ X = B /\ Y = A) ->
    forall s k' v, In s (run interp ops) -> In (ADev k', v) (st_subs s) -> sa_ctrl v = Some c ->
      k' = k /\ (forall sym, lies_on q s k v false sym X Y G H) /\
      (forall p, p <> YZ -> lies_on q s k v true (plane_num p) (refl p X) (refl p Y) (refl p G) (refl p H))).
  { intros X Y XY s k' v I Iv Ec. destruct (CH s I) as (os & of & F & L).
    pose proof F as (_ & Fs & Ff & Fn). destruct L as (L1 & L2 & _).
    assert (DV : exists d, dev_of k' os of = Some d /\ v = dev_sub k' d /\ dev_ok k' d).
    { apply In_sget in Iv; [|exact Fn]. destruct k'; [rewrite Fs in Iv; destruct os as [d|]|rewrite Ff in Iv; destruct of as [d|]];
        try discriminate; injection Iv as <-; exists d; simpl; auto. }
    destruct DV as (d & Ed & -> & (Td & _)).
    assert (Hc : dv_c d = c) by (destruct k'; simpl in Ec; congruence).
    assert (k' = k) by (rewrite Hc in Td; congruence). subst k'. split; [reflexivity|].
    assert (HD : has_device s k c (dv_x1 d) (dv_x2 d) (dv_h1 d) (dv_h2 d)).
    { apply (form_has_device _ _ _ _ _ _ _ _ _ F). rewrite Ed, <- Hc. destruct d; reflexivity. }
    destruct (FO X Y XY s k _ _ _ _ I HD) as (D1 & D2 & G1 & G2). destruct (RA s I) as [Ea Eb].
    apply (device_lies q s k (dev_sub k d) X Y G H Ea Eb (dv_h1 d) (dv_h2 d) (dv_x1 d) (dv_x2 d));
      [destruct k; reflexivity|destruct k; split; reflexivity|exact D1|exact D2|exact G1|exact G2]. }
  destruct k.
  - exists (surface q (Q2R b) 0), B, A, (surface q (Q2R a) 0), G, H. split; [split; reflexivity|]. split; [exact CAR|].
    apply FIN. right; auto.
  - exists (surface q (Q2R a) 1), A, B, (surface q (Q2R b) 1), G, H. split; [split; reflexivity|]. split; [exact CAR|].
    apply FIN. left; auto.
Qed.

(** ** All lines are inside the axes *)

Section Inside.
Variable corners : string -> string -> PanelModel.quad.

Definition patch_point (a : aircraft) (sym : Z) (p : vec) : Prop :=
  exists q e x, In (sym, q) (plot_segments corners a) /\ 0 <= e <= 1 /\ 0 <= x <= 1 /\ p = surface q e x.

Lemma outline_patch a sym l p : wing_line corners a sym l -> In p l -> patch_point a sym p.
Proof.
  intros (wn & w & sn & s & I & J & -> & ->) H. set (q := corners (w_uid w) sn) in *.
  assert (Iq : In (w_symmetry w, q) (plot_segments corners a)) by (apply plot_segments_in; exists wn, w, sn, s; auto).
  assert (X : exists e x, 0 <= e <= 1 /\ 0 <= x <= 1 /\ p = surface q e x).
  { destruct H as [<-|[<-|[<-|[<-|[<-|[]]]]]]; [exists 0, 0|exists 1, 0|exists 1, 1|exists 0, 1|exists 0, 0];
      (split; [lra|split; [lra|apply vec_eq; unfold surface, along; vsimp; ring]]). }
  destruct X as (e & x & X). exists q, e, x. split; [exact Iq|exact X].
Qed.

Lemma control_patch a sym l p : placed_inside a -> control_line corners a sym l -> In p l -> patch_point a sym p.
Proof.
  intros PI (wn & w & cn & c & k & i & o & h1 & h2 & I & J & -> & D & L) H.
  destruct (PI wn w cn c I J) as ((E1 & E2 & X1 & X2) & HH). destruct D as (_ & _ & _ & [si Si] & [so So] & H1 & H2).
  assert (Ii : In (w_symmetry w, corners (w_uid w) i) (plot_segments corners a)).
  { apply plot_segments_in. exists wn, w, i, si. split; [exact I|]. split; [apply dget_In; exact Si|auto]. }
  assert (Io : In (w_symmetry w, corners (w_uid w) o) (plot_segments corners a)).
  { apply plot_segments_in. exists wn, w, o, so. split; [exact I|]. split; [apply dget_In; exact So|auto]. }
  apply unit_Q in E1, E2, X1, X2. pose proof (unit_Q _ (HH h1 (or_introl H1))) as G1. pose proof (unit_Q _ (HH h2 (or_intror H2))) as G2.
  unfold unit_interval in *. cbv zeta in L.
  assert (P : exists q e x, (q = corners (w_uid w) i \/ q = corners (w_uid w) o) /\ 0 <= e <= 1 /\ 0 <= x <= 1 /\ p = surface q e x).
  { destruct L as [->| ->].
    - destruct k; destruct H as [<-|[<-|[<-|[<-|[]]]]]; eexists _, _, _; (split; [|split; [|split; [|reflexivity]]]); auto; lra.
    - destruct H as [<-|[<-|[]]]; eexists _, _, _; (split; [|split; [|split; [|reflexivity]]]); auto; lra. }
  destruct P as (q & e & x & Q & P). exists q, e, x. split; [|exact P]. destruct Q as [->| ->]; assumption.
Qed.

Lemma patch_inside a sym p y : patch_point a sym p -> (y = p \/ mirror_image sym p y) ->
  forall ax, fst (domain (limits (plot_segments corners a)) ax) <= coord ax y <= snd (domain (limits (plot_segments corners a)) ax).
Proof.
  intros (q & e & x & I & E & X & ->) Y ax.
  assert (Q : exists q', y = surface q' e x /\ forall z, vertex q' z -> with_origin (plot_segments corners a) z).
  { destruct Y as [->|M].
    - exists q. split; [reflexivity|]. intros z V. right. exists sym, q. split; [exact I|left; exact V].
    - apply mirror_refl in M. destruct M as (f & F & ->).
      assert (exists r, f = refl r) as [r ->].
      { destruct sym as [|[[]|[]|]|]; try discriminate F; injection F as <-; eexists; reflexivity. }
      exists (quad_refl r q). split; [symmetry; apply surface_refl|].
      intros z V. right. exists sym, q. split; [exact I|right].
      destruct V as [->|[->|[->| ->]]]; (eexists; split; [|apply mirror_refl; exists (refl r); split; [exact F|reflexivity]]); unfold vertex; auto. }
  destruct Q as (q' & -> & V).
  pose proof (limits_box (plot_segments corners a)) as B. set (b := limits _) in *.
  assert (W : 0 <= (1 - e) * (1 - x) /\ 0 <= e * (1 - x) /\ 0 <= e * x /\ 0 <= (1 - e) * x) by (repeat split; apply Rmult_le_pos; lra).
  destruct W as (W1 & W2 & W3 & W4). rewrite surface_coord.
  pose proof (domain_contains _ b ax _ B (V (qa q') (or_introl eq_refl))).
  pose proof (domain_contains _ b ax _ B (V (qb q') (or_intror (or_introl eq_refl)))).
  pose proof (domain_contains _ b ax _ B (V (qc q') (or_intror (or_intror (or_introl eq_refl))))).
  pose proof (domain_contains _ b ax _ B (V (qd q') (or_intror (or_intror (or_intror eq_refl))))).
  set (lo := fst (domain b ax)) in *. set (hi := snd (domain b ax)) in *. split.
  - replace lo with (((1 - e) * (1 - x) + e * (1 - x) + e * x + (1 - e) * x) * lo) by ring. nra.
  - replace hi with (((1 - e) * (1 - x) + e * (1 - x) + e * x + (1 - e) * x) * hi) by ring. nra.
Qed.

Lemma Forall2_right {A B} (P : A -> B -> Prop) l l' y : Forall2 P l l' -> In y l' -> exists x, In x l /\ P x y.
Proof.
  induction 1 as [|a b l l' H F IH]; intros I; [destruct I|]. destruct I as [<-|I]; [exists a; split; [left; reflexivity|exact H]|].
  destruct (IH I) as (x & Ix & Px). exists x. split; [right; exact Ix|exact Px].
Qed.

Lemma geometry_inside a v' v c : placed_inside a -> geometry_plot corners a = Ok v' -> In v (all_views v') -> shown v c ->
  Forall2 (fun x lim => fst lim <= x <= snd lim) c (v_limits v).
Proof.
  intros PI H V (line & L & C). pose proof (proj1 (geometry_lines corners a v' v H V line) L) as (sym & l & K & AP).
  assert (PP : forall p, In p l -> patch_point a sym p).
  { intros p Ip. destruct K as [K|K]; [eapply outline_patch|eapply control_patch]; eauto. }
  assert (PT : exists p, (exists p0, patch_point a sym p0 /\ (p = p0 \/ mirror_image sym p0 p)) /\ c = projection v p).
  { destruct AP as [->|(l' & M & ->)]; apply in_map_iff in C; destruct C as (p & <- & Ip).
    - exists p. split; [exists p; auto|reflexivity].
    - destruct (Forall2_right _ _ _ _ M Ip) as (p0 & I0 & M0). exists p. split; [exists p0; auto|reflexivity]. }
  destruct PT as (p & (p0 & P0 & R) & ->). apply pick_all in V. destruct V as [x ->].
  assert (FR := draw_wings_frames corners _ _ _ H). destruct (pick_labels _ _ FR x) as [LB LM].
  destruct (figure_frame x (plot_segments corners a)) as [LF LL]. unfold projection. rewrite LB, LM, LF, LL. clear LB LM LF LL.
  induction (axes_of x) as [|ax l0 IH]; cbn [map]; constructor; [eapply patch_inside; eauto|exact IH].
Qed.

Lemma geometry_total a : (exists v', geometry_plot corners a = Ok v') <-> all_drawable a.
Proof. unfold geometry_plot, add_controls. apply draw_wings_total. Qed.

Lemma geometry_frames a v' : geometry_plot corners a = Ok v' ->
  map v_labels (all_views v') = [[AX; AY; AZ]; [AY; AZ]; [AX; AZ]; [AX; AY]] /\
  map v_limits (all_views v') = map v_limits (all_views (geometry_figure (plot_segments corners a))).
Proof.
  intro H. pose proof (draw_wings_frames corners _ _ _ H) as FR.
  assert (P : forall x, v_labels (pick x v') = axes_of x /\ v_limits (pick x v') = v_limits (pick x (geometry_figure (plot_segments corners a)))).
  { intro x. destruct (pick_labels _ _ FR x) as [LB LM]. destruct (figure_frame x (plot_segments corners a)) as [LF _]. split; congruence. }
  pose proof (P W3) as [A1 B1]. pose proof (P Wyz) as [A2 B2]. pose proof (P Wxz) as [A3 B3]. pose proof (P Wxy) as [A4 B4].
  unfold all_views. cbn [map pick] in *. split.
  - rewrite A1, A2, A3, A4. reflexivity.
  - rewrite B1, B2, B3, B4. reflexivity.
Qed.

Lemma lattice_total a panels deformed : (exists v', lattice_plot corners a panels deformed = Ok v') <-> deformed = true \/ all_drawable a.
Proof.
  unfold lattice_plot, add_controls. destruct deformed.
  - split; [left; reflexivity|intros _; eexists; reflexivity].
  - rewrite draw_wings_total. split; [right; assumption|intros [E|H]; [discriminate|exact H]].
Qed.

Lemma lattice_frames a panels deformed v' : lattice_plot corners a panels deformed = Ok v' ->
  map v_limits (all_views v') = map v_limits (all_views (geometry_figure (plot_segments corners a))).
Proof.
  intro H.
  assert (P : forall x, v_limits (pick x v') = v_limits (pick x (geometry_figure (plot_segments corners a)))).
  { intro x. destruct (figure_frame x (plot_segments corners a)) as [_ ->]. destruct (scale_frame x (plot_segments corners a)) as (_ & <- & _).
    destruct (pick_labels _ _ (add_lattice_frames panels (scale_plots init_views (plot_segments corners a))) x) as [_ <-].
    unfold lattice_plot in H. destruct deformed; [injection H as <-; reflexivity|].
    apply (pick_labels _ _ (draw_wings_frames corners _ _ _ H) x). }
  pose proof (P W3) as B1. pose proof (P Wyz) as B2. pose proof (P Wxz) as B3. pose proof (P Wxy) as B4.
  unfold all_views. cbn [map pick] in *. rewrite B1, B2, B3, B4. reflexivity.
Qed.
End Inside.

(** ** A control over two segments of different dihedral *)

Definition off_corners (_ sn : string) : PanelModel.quad :=
  if String.eqb sn "s1" then mkQuad (mkV 0 0 0) (mkV 0 1 0) (mkV 1 1 0) (mkV 1 0 0)
  else mkQuad (mkV 0 1 0) (mkV 0 2 1) (mkV 1 2 1) (mkV 1 1 0).
Definition off_control : wcontrol :=
  mkWC (mkControl "c" (Some Flap)) None None None (Some "s1"%string) (Some "s2"%string) (1#2) (1#2) (1#2) (1#2) (Some (1#2)) (Some (1#2)).
Definition off_wing : wing :=
  mkWing "w" 2 [("s1", new_wsegment "s1"); ("s2", new_wsegment "s2")]%string [("c"%string, off_control)].
Definition off_aircraft : aircraft := mkAC "a" [("w"%string, off_wing)].

Lemma half_R : Q2R (1#2) = 1 / 2.
Proof. unfold Q2R. simpl. field. Qed.

Lemma off_drawable : drawable off_wing off_control Flap "s1" "s2" (1#2) (1#2).
Proof. repeat split; eexists; reflexivity. Qed.

Lemma off_line : control_line off_corners off_aircraft 2
  [mkV 1 (1/2) 0; mkV (1/2) (1/2) 0; mkV (1/2) (3/2) (1/2); mkV 1 (3/2) (1/2)].
Proof.
  exists "w"%string, off_wing, "c"%string, off_control, Flap, "s1"%string, "s2"%string, (1#2), (1#2).
  split; [left; reflexivity|]. split; [left; reflexivity|]. split; [reflexivity|]. split; [exact off_drawable|].
  cbv zeta. left. cbn [wc_eta_inner wc_eta_outer wc_xsi_inner wc_xsi_outer off_control control_outline]. rewrite !half_R.
  change (off_corners (w_uid off_wing) "s1") with (mkQuad (mkV 0 0 0) (mkV 0 1 0) (mkV 1 1 0) (mkV 1 0 0)).
  change (off_corners (w_uid off_wing) "s2") with (mkQuad (mkV 0 1 0) (mkV 0 2 1) (mkV 1 2 1) (mkV 1 1 0)).
  repeat f_equal; apply vec_eq; unfold surface, along; vsimp; field.
Qed.

Lemma two_segments_off : exists corners a v',
  geometry_plot corners a = Ok v' /\ placed_inside a /\
  exists wn w c k p0 A B p3, In (wn, w) (a_wings a) /\ In c (map snd (w_ctls w)) /\ ct_type (wc_ctl c) = Some k /\
    control_line corners a (w_symmetry w) [p0; A; B; p3] /\ A <> B /\
    (forall v, In v (all_views v') -> In (map (projection v) [p0; A; B; p3]) (v_lines v)) /\
    forall t sn s, 0 < t < 1 -> In (sn, s) (w_segs w) -> ~ on_surface (corners (w_uid w) sn) (along A B t).
Proof.
  destruct (proj2 (geometry_total off_corners off_aircraft)) as [v' G].
  { intros wn w cn c [E|[]]. injection E as <- <-. intros [E'|[]]. injection E' as <- <-. eexists _, _, _, _, _. exact off_drawable. }
  exists off_corners, off_aircraft, v'. split; [exact G|]. split.
  { intros wn w cn c [E|[]]. injection E as <- <-. intros [E'|[]]. injection E' as <- <-. cbn. split.
    - repeat split; discriminate.
    - intros h [E|E]; injection E as <-; split; discriminate. }
  exists "w"%string, off_wing, off_control, Flap, (mkV 1 (1/2) 0), (mkV (1/2) (1/2) 0), (mkV (1/2) (3/2) (1/2)), (mkV 1 (3/2) (1/2)).
  split; [left; reflexivity|]. split; [left; reflexivity|]. split; [reflexivity|]. split; [exact off_line|].
  split; [intro E; injection E; intros; lra|]. split.
  { intros v V. apply (geometry_lines off_corners off_aircraft v' v G V). exists 2%Z. eexists. split; [right; exact off_line|left; reflexivity]. }
  intros t sn s T I (e & x & E & X & S). unfold unit_interval in *.
  destruct I as [I|[I|[]]]; injection I as <- <-.
  - change (off_corners (w_uid off_wing) "s1") with (mkQuad (mkV 0 0 0) (mkV 0 1 0) (mkV 1 1 0) (mkV 1 0 0)) in S.
    unfold surface, along in S. injection S as Sx Sy Sz. vsimp. simpl in *. nra.
  - change (off_corners (w_uid off_wing) "s2") with (mkQuad (mkV 0 1 0) (mkV 0 2 1) (mkV 1 2 1) (mkV 1 1 0)) in S.
    unfold surface, along in S. injection S as Sx Sy Sz. vsimp. simpl in *. nra.
Qed.

(** ** Symmetry about the yz-plane *)
Definition yz_q : PanelModel.quad := mkQuad (mkV 0 0 0) (mkV 0 4 0) (mkV 1 4 0) (mkV 1 0 0).
Definition yz_control : wcontrol :=
  mkWC (mkControl "elevon" (Some Flap)) None (Some 5%Q) None (Some "s"%string) (Some "s"%string)
    0 1 (3#4) (3#4) (Some (3#4)) (Some (3#4)).
Lemma yz_off : exists q interp w k h1 h2 p0 A B p3 s v,
  planar q /\ convex q /\ computes q interp /\
  let a := wc_eta_inner w in let b := wc_eta_outer w in let c := wc_ctl w in
  let ops := [OpControl a b c (wc_xsi_inner w) (wc_xsi_outer w) (wc_h_inner w) (wc_h_outer w)] in
  let C := surface q (Q2R a) (Q2R h1) in let D := surface q (Q2R b) (Q2R h2) in
  all_accepted interp new_segment ops /\ Forall op_aligned ops /\
  ct_type c = Some k /\ wc_h_inner w = Some h1 /\ wc_h_outer w = Some h2 /\ fits new_segment a b c /\
  control_outline k q q (Q2R a) (Q2R (wc_xsi_inner w)) (Q2R b) (Q2R (wc_xsi_outer w)) = [p0; A; B; p3] /\
  In s (run interp ops) /\ In (ADev k, v) (st_subs s) /\ sa_ctrl v = Some c /\
  lies_on q s k v false (plane_num YZ) A B C D /\
  forall sub g1 g2 m1 m2, subarea_vertices q (real_etas s) (real_xsis v) true (plane_num YZ) = Ok sub ->
    sa_hinge v = Some (g1, g2) -> hinge_vertices q (real_etas s) (Q2R g1) (Q2R g2) true (plane_num YZ) = Ok (m1, m2) ->
    forall t, unit_interval t ->
      ~ on_segment (refl YZ A) (refl YZ B) (along (fst (inner_edge k sub)) (snd (inner_edge k sub)) t) /\
      ~ on_segment (refl YZ C) (refl YZ D) (along m1 m2 t).
Proof.
  assert (P : planar yz_q) by (unfold planar, seg_normal, yz_q, vdot; vsimp; lra).
  assert (C : convex yz_q) by (unfold convex, turns, seg_normal, yz_q, vdot; vsimp; lra).
  set (sub := {| sa_type := ADev Flap; xsi_a := 3 # 4; xsi_b := 3 # 4; xsi_c := 1; xsi_d := 1; sa_hinge := Some (3 # 4, 3 # 4)%Q; sa_ctrl := Some (wc_ctl yz_control) |}).
  set (st := hd (new_strip 0 1 1 0) (run (trap_interp 1 1) [OpControl 0 1 (wc_ctl yz_control) (3#4) (3#4) (Some (3#4)) (Some (3#4))])).
  exists yz_q, (trap_interp 1 1), yz_control, Flap, (3#4)%Q, (3#4)%Q. do 4 eexists. exists st, sub.
  split; [exact P|]. split; [exact C|]. split.
  { intros e1 x1 e2 x2 eta x (H1 & H2 & H3 & [H4 H5] & X1 & X2) H.
    destruct (xsi_interpol_trapezoid yz_q 1 1 e1 x1 e2 x2 eta P C) as (y & Y & Z); try assumption; try reflexivity.
    { unfold yz_q, Q2R. apply vec_eq; simpl; field. }
    rewrite H in Y. injection Y as <-. exact Z. }
  cbv zeta. split; [apply acceptedb_ok; vm_compute; reflexivity|]. split; [repeat constructor|]. split; [reflexivity|]. split; [reflexivity|]. split; [reflexivity|]. split.
  { split; [|split; [discriminate|split; [discriminate|split; [discriminate|]]]].
    + intros s I (k & v & Iv & Ec). destruct I as [<-|[]]; destruct Iv as [E|[]]; discriminate.
    + split; [|split].
      * intros s [<-|[]]; reflexivity.
      * intros y (s & [<-|[]] & E) L. change (eta_a _) with 0%Q in E. rewrite <- E in *. discriminate L.
      * left. reflexivity. }
  split; [reflexivity|]. split; [left; reflexivity|]. split; [right; left; reflexivity|]. split; [reflexivity|].
  assert (ES : real_etas st = mkEtas 0 1 1 0) by (unfold real_etas, Q2R; f_equal; cbn; field).
  assert (EX : real_xsis sub = mkXsis (3/4) (3/4) 1 1) by (unfold real_xsis, Q2R; f_equal; cbn; field).
  assert (Q0 : Q2R 0 = 0) by (unfold Q2R; cbn; field). assert (Q1 : Q2R 1 = 1) by (unfold Q2R; cbn; field). assert (Q3 : Q2R (3#4) = 3/4) by (unfold Q2R; cbn; field).
  change (wc_eta_inner yz_control) with 0%Q. change (wc_eta_outer yz_control) with 1%Q. change (wc_xsi_inner yz_control) with (3#4)%Q. change (wc_xsi_outer yz_control) with (3#4)%Q.
  rewrite Q0, Q1, Q3. split.
  - do 5 eexists. split; [apply sub_plain|]. split; [reflexivity|]. split; [apply hinge_plain|]. rewrite ES, EX, Q3. cbn [inner_edge fst snd].
    split; [|split; [|split]];
      [exists 0|exists 1|exists 0|exists 1]; (split; [split; lra|]);
      unfold surface, sub_quad, strip_quad, yz_q, along; apply vec_eq; vsimp; field.
  - intros q g1 g2 m1 m2 S H V t T. rewrite sub_mirror in S. injection S as <-. injection H as <- <-. rewrite hinge_mirror in V. injection V as <- <-.
    rewrite ES, EX, Q3. split; intros (u & U & E); apply (f_equal vx) in E; revert E;
      unfold inner_edge, surface, sub_quad, quad_order, quad_refl, xsis_order, order4, quad_of, strip_quad, yz_q, along; vsimp; unfold unit_interval in *; lra.
Qed.
