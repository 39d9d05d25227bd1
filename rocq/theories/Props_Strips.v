(** Property theorems C01-C07 and C50: strips of a wing segment.
    [run interp ops] is the segment after the calls [ops] on a fresh segment, whether they were
    accepted or rejected; [interp] is the device-line interpolation. *)
From Coq Require Import List String QArith Permutation Lqa.
From Verif Require Import PyBase PyFacts StripModel StripSpec StripSpan StripChord StripRun StripControl.
Import ListNotations.
Open Scope Q_scope.

Definition ex_flap : control := mkControl "flap" (Some Flap).
Definition ex_slat : control := mkControl "slat" (Some Slat).
Definition ex_ops : list op :=
  [ OpControl (1#10) (8#10) ex_flap (7#10) (8#10) None (Some (75#100));
    OpSubdiv (1#2) (1#2) false;
    OpControl 0 (6#10) ex_slat (2#10) (1#10) None None;
    OpSubdiv (3#2) (3#2) false;                                      (* rejected *)
    OpControl (2#10) (4#10) ex_flap (6#10) (6#10) None None;         (* rejected: second flap *)
    OpSubdiv (35#100) (35#100) false ].

(** C01: the strips tile the span; lookups never fail; cuts are aligned. *)
Theorem C01_strips_tile_span :
  forall interp ops,
    tiles_span (run interp ops) /\
    (forall eta, 0 <= eta -> eta < 1 ->
       exists i s b, get_subdiv_at_eta (run interp ops) eta = Some (i, s, b) /\
                     nth_error (run interp ops) i = Some s /\ covers s eta) /\
    ((forall o, In o ops -> match o with OpSubdiv a d _ => d == a | _ => True end) ->
     cuts_aligned (run interp ops)).
Proof.
  intros interp ops.
  exact (conj (run_tiles interp ops)
        (conj (fun eta H0 H1 => lookup_total _ eta (run_tiles interp ops) H0 H1)
              (fun H => run_aligned interp ops (proj2 (Forall_forall op_aligned ops) H)))).
Qed.
Print Assumptions C01_strips_tile_span.

Example C01_example :
  map (fun s => (eta_a s, eta_b s)) (run lin_interp ex_ops) =
    [(0, 1#10); (1#10, 2#10); (8#10, 1); (1#2, 6#10); (6#10, 8#10); (2#10, 35#100);
     (4#10, 1#2); (35#100, 4#10)].
Proof. vm_compute. reflexivity. Qed.

(** C02: cutting never loses or moves a cut. *)
Theorem C02_cuts_preserved :
  forall interp ops a d ig seg' r,
    let seg := run interp ops in
    add_subdivision interp seg a d ig = (seg', r) ->
    (forall i s, nth_error seg i = Some s ->
       exists s', nth_error seg' i = Some s' /\ eta_a s' = eta_a s) /\
    (forall x, line_at seg' x -> line_at seg x \/ x == a) /\
    (List.length seg' = List.length seg \/ List.length seg' = S (List.length seg)) /\
    (0 < a -> line_at seg a ->
       seg' = seg /\ exists i s, r = Ok (Some i) /\ nth_error seg i = Some s /\ eta_a s == a) /\
    (a <= 0 \/ 1 <= a -> seg' = seg /\ r = if ig then Ok None else Err ValueError) /\
    (0 < a -> a < 1 -> (forall y, line_at seg y -> y <= a -> y + (1 # 100) <= a) -> line_at seg' a).
Proof.
  intros interp ops a d ig seg' r seg H.
  destruct (add_subdivision_frame interp seg a d ig seg' r H) as (F1 & F2 & F3).
  split; [exact F1|]. split; [exact F2|]. split; [exact F3|].
  split; [exact (fun P L => add_subdivision_existing interp seg a d ig seg' r (run_tiles interp ops) P L H)|].
  split.
  - intro O. rewrite (add_subdivision_outside interp seg a d ig O) in H. injection H as <- <-. auto.
  - intros P0 P1 Far. pose proof (creates_line interp seg a d ig (run_tiles interp ops) P0 P1 Far) as L.
    rewrite H in L. exact L.
Qed.
Print Assumptions C02_cuts_preserved.

Example C02_example :
  exists seg', add_subdivision lin_interp (run lin_interp ex_ops) (9#10) (9#10) false
                 = (seg', Ok (Some 8%nat)) /\ List.length seg' = 9%nat /\
    snd (add_subdivision lin_interp seg' (1#2) (1#2) false) = Ok (Some 3%nat).
Proof. eexists. vm_compute. auto. Qed.

(** C03: "no strip is ever narrower than 0.01" is false: only the inboard line is checked. *)
Theorem C03_no_slivers_refuted :
  exists ops s, In s (run lin_interp ops) /\ all_accepted lin_interp new_segment ops /\
    eta_b s - eta_a s < 1 # 100.
Proof.
  exists [OpSubdiv (1#2) (1#2) false; OpSubdiv (495#1000) (495#1000) false].
  exists (mkStrip (495#1000) (1#2) (1#2) (495#1000) (st_subs (new_strip 0 1 1 0))).
  split; [vm_compute; auto|]. split; [|vm_compute; reflexivity].
  apply acceptedb_ok; vm_compute; reflexivity.
Qed.
Print Assumptions C03_no_slivers_refuted.

(** What is true: a line less than 0.01 outboard of an existing line is not created, and a cut of
    a segment without slivers leaves at most one sliver, the new outboard strip.  Missing: the
    distance to the next line outboard. *)
Theorem C03_no_slivers_partial :
  forall interp ops a d ig,
    let seg := run interp ops in
    let seg' := fst (add_subdivision interp seg a d ig) in
    (forall y, line_at seg y -> y <= a -> a < y + (1 # 100) -> seg' = seg) /\
    ((forall s, In s seg -> eta_a s + (1 # 100) <= eta_b s) ->
     forall i s, nth_error seg' i = Some s ->
       eta_a s + (1 # 100) <= eta_b s \/ (i = List.length seg /\ eta_a s == a)).
Proof.
  intros interp ops a d ig seg seg'.
  exact (conj (fun y L1 L2 L3 => add_subdivision_snaps interp seg a d ig y (run_tiles interp ops) L1 L2 L3)
              (add_subdivision_widths interp seg a d ig)).
Qed.
Print Assumptions C03_no_slivers_partial.

Example C03_example :
  line_at (run lin_interp ex_ops) (1#2) /\
  fst (add_subdivision lin_interp (run lin_interp ex_ops) (505#1000) (505#1000) false)
    = run lin_interp ex_ops /\
  (forall s, In s (run lin_interp ex_ops) -> eta_a s + (1 # 100) <= eta_b s).
Proof.
  split; [|split].
  - unfold line_at. eexists. split; [vm_compute; right; right; right; left; reflexivity|reflexivity].
  - vm_compute. reflexivity.
  - intros s H. apply Qleb_true. revert s H. apply forallb_forall. vm_compute. reflexivity.
Qed.

(** C04: slat, main surface and flap tile the chord of every strip. *)
Theorem C04_chord_tiled :
  forall interp ops, sound_session interp ops ->
    forall s, In s (run interp ops) ->
      tiles_chord s /\
      fold_right Qplus 0 (map (fun kv => rel_length (snd kv)) (st_subs s)) == 1.
Proof.
  intros interp ops SS s I. destruct (sound_chord interp ops SS s I) as (os & of & F & L).
  exact (conj (form_tiles s os of F L) (form_rel_lengths s os of F)).
Qed.
Print Assumptions C04_chord_tiled.

(** Both kinds of session exist: a trapezoidal segment with arbitrary calls ... *)
Example C04_example_interp : sound_session (trap_interp 2 1) ex_ops.
Proof. left. apply trap_interp_ok; lra. Qed.
(** ... and one whose calls are all accepted, with two devices on one strip. *)
Example C04_example_accepted :
  let ops := firstn 3 ex_ops in
  sound_session lin_interp ops /\
  map (fun s => map fst (st_subs s)) (run lin_interp ops) =
   [[ASegment; ADev Slat]; [ASegment; ADev Flap; ADev Slat]; [ASegment];
    [ASegment; ADev Flap; ADev Slat]; [ASegment; ADev Flap]].
Proof.
  split.
  - right. apply acceptedb_ok; vm_compute; reflexivity.
  - vm_compute. reflexivity.
Qed.

(** C05: complete decision of placing a device on a strip. *)
Theorem C05_device_decision :
  forall interp ops, sound_session interp ops ->
    forall s, In s (run interp ops) -> forall c x1 x2 o1 o2,
      let h1 := default_to o1 x1 in
      let h2 := default_to o2 x2 in
      (forall k, may_add s c k x1 x2 h1 h2 ->
         exists s', add_subarea s c x1 x2 o1 o2 = (s', Ok tt) /\
           has_device s' k c x1 x2 h1 h2 /\
           (forall k' c' y1 y2 g1 g2, k' <> k ->
              (has_device s' k' c' y1 y2 g1 g2 <-> has_device s k' c' y1 y2 g1 g2)) /\
           (eta_a s' = eta_a s /\ eta_b s' = eta_b s /\ eta_c s' = eta_c s /\ eta_d s' = eta_d s)) /\
      ((forall k, ~ may_add s c k x1 x2 h1 h2) ->
         add_subarea s c x1 x2 o1 o2 = (s, Err ValueError)).
Proof.
  intros interp ops SS s I c x1 x2 o1 o2.
  exact (add_subarea_decision s c x1 x2 o1 o2 (sound_chord interp ops SS s I)).
Qed.
Print Assumptions C05_device_decision.

Example C05_example :
  exists s, In s (run lin_interp (firstn 3 ex_ops)) /\
    snd (add_subarea s ex_flap (7#10) (7#10) None None) = Ok tt /\
    add_subarea s ex_slat (3#10) (3#10) None None = (s, Err ValueError) /\
    add_subarea s ex_flap (205#1000) (3#10) None None = (s, Err ValueError).
Proof.
  exists (nth 0 (run lin_interp (firstn 3 ex_ops)) (new_strip 0 1 1 0)).
  split; [apply nth_In; vm_compute; repeat constructor|]. vm_compute. auto.
Qed.

(** C06: cutting a strip keeps the devices on it, in both halves and without a step. *)
Theorem C06_split_keeps_devices :
  forall interp ops a d ig seg',
    let seg := run interp ops in
    sound_session interp ops ->
    add_subdivision interp seg a d ig = (seg', Ok (Some (List.length seg))) ->
    exists ip sp sp' sn,
      nth_error seg ip = Some sp /\ covers sp a /\
      nth_error seg' ip = Some sp' /\ nth_error seg' (List.length seg) = Some sn /\
      (eta_a sp' = eta_a sp /\ eta_b sp' = a) /\ (eta_a sn = a /\ eta_b sn = eta_b sp) /\
      (forall j, j <> ip -> j <> List.length seg -> nth_error seg' j = nth_error seg j) /\
      forall k,
        (no_device sp k -> no_device sp' k /\ no_device sn k) /\
        (forall c x1 x2 h1 h2, has_device sp k c x1 x2 h1 h2 ->
           exists x h,
             interp (eta_a sp, x1) (eta_b sp, x2) a = Ok x /\
             interp (eta_a sp, h1) (eta_b sp, h2) a = Ok h /\
             has_device sp' k c x1 x h1 h /\ has_device sn k c x x2 h h2).
Proof.
  intros interp ops a d ig seg' seg SS H.
  exact (cut_devices interp seg a d ig seg' (sound_chord interp ops SS) H).
Qed.
Print Assumptions C06_split_keeps_devices.

(** With a well behaved interpolation every request inside (0,1) succeeds. *)
Theorem C06_split_never_raises :
  forall interp ops a d ig, interp_ok interp -> 0 < a -> a < 1 ->
    exists seg' i, add_subdivision interp (run interp ops) a d ig = (seg', Ok (Some i)).
Proof.
  intros interp ops a d ig IO P0 P1.
  exact (add_subdivision_inside interp (run interp ops) a d ig IO (run_tiles interp ops)
           (run_chord_interp_ok interp ops IO) P0 P1).
Qed.
Print Assumptions C06_split_never_raises.

Example C06_example :
  exists seg', add_subdivision lin_interp (run lin_interp (firstn 3 ex_ops)) (3#10) (3#10) false
     = (seg', Ok (Some (List.length (run lin_interp (firstn 3 ex_ops))))) /\
   map (fun i => option_map (fun s => map fst (st_subs s)) (nth_error seg' i)) [1%nat; 5%nat] =
     [Some [ASegment; ADev Flap; ADev Slat]; Some [ASegment; ADev Flap; ADev Slat]].
Proof. eexists. vm_compute. auto. Qed.

(** C07: the exact-range claim is false in two ways.  (1) An outer edge less than 0.01 outboard
    of an existing line: the control spreads to the end of that strip.  *)
Theorem C07_exact_range_refuted :
  exists ops a b c seg',
    all_accepted lin_interp new_segment ops /\ a + (1 # 4) < b /\
    add_subdivision_for_control lin_interp (run lin_interp ops) a b c (7#10) (7#10) None None
      = (seg', Ok tt) /\
    exists s eta, In s seg' /\ covers s eta /\ carries s c /\ b + (1 # 4) < eta.
Proof.
  exists [OpSubdiv (1#2) (1#2) false], (2#10), (505#1000), ex_flap. eexists.
  split; [apply acceptedb_ok; vm_compute; reflexivity|].
  split; [vm_compute; reflexivity|].
  split; [vm_compute; reflexivity|].
  eexists _, (9#10). split; [right; left; reflexivity|]. split; [split; vm_compute; congruence|].
  split; [|vm_compute; reflexivity].
  eexists Flap, _. split; [vm_compute; right; left; reflexivity|reflexivity].
Qed.
Print Assumptions C07_exact_range_refuted.

(** (2) A strip thinner than 0.001 inside the range is skipped: a hole in the control. *)
Theorem C07_no_hole_refuted :
  exists ops a b c seg',
    all_accepted lin_interp new_segment ops /\
    add_subdivision_for_control lin_interp (run lin_interp ops) a b c (7#10) (7#10) None None
      = (seg', Ok tt) /\
    exists s eta, In s seg' /\ covers s eta /\ ~ carries s c /\ a + (1 # 4) < eta /\ eta + (1 # 4) < b.
Proof.
  exists [OpSubdiv (1#2) (1#2) false; OpSubdiv (4995#10000) (4995#10000) false], (1#10), (9#10), ex_flap.
  eexists.
  split; [apply acceptedb_ok; vm_compute; reflexivity|].
  split; [vm_compute; reflexivity|].
  eexists _, (4997#10000). split; [right; right; left; reflexivity|]. split; [split; vm_compute; congruence|].
  split; [|split; vm_compute; reflexivity].
  intros (k & v & [H|[]] & _). discriminate.
Qed.
Print Assumptions C07_no_hole_refuted.

(** What is true: on a segment whose strips are wider than 0.001 and whose lines stay clear of the
    outer edge, an accepted control covers exactly [lo, b), with lo the inner edge moved inboard by
    less than 0.01 (not at all if no line is that close).  Missing: the two situations above. *)
Theorem C07_exact_range_partial :
  forall interp ops a b c k x1 x2 o1 o2 seg',
    let seg := run interp ops in
    sound_session interp ops ->
    ct_type c = Some k ->
    (forall s, In s seg -> ~ carries s c) ->
    0 <= a -> a + (1 # 100) <= b -> b <= 1 ->
    not_thin seg -> (forall y, line_at seg y -> a < y -> a + (1 # 1000) < y) ->
    clear_edge seg b ->
    add_subdivision_for_control interp seg a b c x1 x2 o1 o2 = (seg', Ok tt) ->
    exists lo, lo <= a /\ a < lo + (1 # 100) /\
      ((forall y, line_at seg y -> y < a -> y + (1 # 100) <= a) -> lo == a) /\
      forall eta s, In s seg' -> covers s eta -> (carries s c <-> lo <= eta /\ eta < b).
Proof.
  intros interp ops a b c k x1 x2 o1 o2 seg' seg SS Tk NC A0 AB B1 Th ThA CE H.
  destruct (place_control interp seg a b c k x1 x2 o1 o2 seg' (run_tiles interp ops)
              (sound_chord interp ops SS) (first0_run interp ops) NC Tk A0 AB B1 Th ThA CE H)
    as (lo & L1 & L2 & L3 & _ & L4).
  exact (ex_intro _ lo (conj L1 (conj L2 (conj L3 L4)))).
Qed.
Print Assumptions C07_exact_range_partial.

(** C50: an accepted control runs without steps over the strips it covers, and at every border
    between them its device line and its hinge line are on the lines between the given ends. *)
Theorem C50_control_line_unbroken_partial :
  forall interp ops a b c k x1 x2 o1 o2 seg',
    let seg := run interp ops in
    sound_session interp ops ->
    ct_type c = Some k ->
    (forall s, In s seg -> ~ carries s c) ->
    0 <= a -> a + (1 # 100) <= b -> b <= 1 ->
    not_thin seg -> (forall y, line_at seg y -> a < y -> a + (1 # 1000) < y) ->
    clear_edge seg b ->
    add_subdivision_for_control interp seg a b c x1 x2 o1 o2 = (seg', Ok tt) ->
    exists idx,
      unbroken (on_lines interp a x1 (default_to o1 x1) b x2 (default_to o2 x2)) seg' k c x1 (default_to o1 x1) idx x2 (default_to o2 x2) /\
      forall j s, nth_error seg' j = Some s -> (carries s c <-> In j idx).
Proof.
  intros interp ops a b c k x1 x2 o1 o2 seg' seg SS Tk NC A0 AB B1 Th ThA CE H.
  destruct (place_control interp seg a b c k x1 x2 o1 o2 seg' (run_tiles interp ops)
              (sound_chord interp ops SS) (first0_run interp ops) NC Tk A0 AB B1 Th ThA CE H)
    as (lo & L1 & L2 & L3 & L4 & _).
  exact L4.
Qed.
Print Assumptions C50_control_line_unbroken_partial.

(** A strip thinner than 0.001 between two strips of the control is left out: the strips that carry
    the control are not adjacent. *)
Theorem C50_gap_refuted :
  exists ops a b c seg' i s1 s2 s3,
    all_accepted lin_interp new_segment ops /\
    add_subdivision_for_control lin_interp (run lin_interp ops) a b c (7#10) (7#10) None None = (seg', Ok tt) /\
    nth_error seg' i = Some s1 /\ nth_error seg' (S i) = Some s2 /\ nth_error seg' (S (S i)) = Some s3 /\
    carries s1 c /\ ~ carries s2 c /\ carries s3 c.
Proof.
  exists [OpSubdiv (1#2) (1#2) false; OpSubdiv (4995#10000) (4995#10000) false], (1#10), (9#10), ex_flap.
  eexists. exists 1%nat. eexists. eexists. eexists.
  split; [apply acceptedb_ok; vm_compute; reflexivity|].
  split; [vm_compute; reflexivity|]. split; [reflexivity|]. split; [reflexivity|]. split; [reflexivity|].
  split; [eexists Flap, _; split; [vm_compute; right; left; reflexivity|reflexivity]|].
  split; [intros (k & v & [H|[]] & _); discriminate|].
  eexists Flap, _; split; [vm_compute; right; left; reflexivity|reflexivity].
Qed.
Print Assumptions C50_gap_refuted.

(** The hypotheses of C07/C50 hold for a slat laid over the four strips left by earlier calls. *)
Example C07_example :
  let ops := firstn 2 ex_ops in
  let seg := run lin_interp ops in
  sound_session lin_interp ops /\ ct_type ex_slat = Some Slat /\
  (forall s, In s seg -> ~ carries s ex_slat) /\
  not_thin seg /\ (forall y, line_at seg y -> 1#20 < y -> (1#20) + (1 # 1000) < y) /\
  clear_edge seg (9#10) /\
  exists seg', add_subdivision_for_control lin_interp seg (1#20) (9#10) ex_slat (2#10) (1#10) None None
     = (seg', Ok tt) /\
   map (fun s => existsb (akind_eqb (ADev Slat)) (map fst (st_subs s))) seg' =
     [false; true; true; true; true; false].
Proof.
  cbv zeta.
  split. { right. apply acceptedb_ok; vm_compute; reflexivity. }
  split; [reflexivity|].
  split. { intros s H (k & v & Hv & C).
    assert (X : forallb (fun s => forallb (fun kv => match sa_ctrl (snd kv) with
        Some c' => negb (String.eqb (ct_uid c') "slat") | None => true end) (st_subs s))
        (run lin_interp (firstn 2 ex_ops)) = true) by (vm_compute; reflexivity).
    rewrite forallb_forall in X. specialize (X s H). rewrite forallb_forall in X.
    specialize (X _ Hv). cbn [snd] in X. rewrite C in X. discriminate. }
  split. { intros s H. apply Qltb_true. revert s H. apply forallb_forall. vm_compute. reflexivity. }
  split. { intros y (s & H & E) L.
    assert (X : forallb (fun s => Qleb (eta_a s) (1#20) || Qltb (51#1000) (eta_a s))
        (run lin_interp (firstn 2 ex_ops)) = true) by (vm_compute; reflexivity).
    rewrite forallb_forall in X. specialize (X s H). qbool. destruct X; qbool; lra. }
  split. { right; right. intros y (s & H & E) L.
    assert (X : forallb (fun s => Qleb (eta_a s + (1#100)) (9#10))
        (run lin_interp (firstn 2 ex_ops)) = true) by (vm_compute; reflexivity).
    rewrite forallb_forall in X. specialize (X s H). qbool. lra. }
  eexists. split; [vm_compute; reflexivity|]. vm_compute. reflexivity.
Qed.
