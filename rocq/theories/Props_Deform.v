(** Property theorems: deformations (C46, C65, C66, C67). *)
From Coq Require Import List String Reals ZArith Lra.
From Verif Require Import PyBase Vec PanelModel GeomModel GeomSpec MirrorProofs DeformModel DeformSpec DeformProofs DeformGeomModel DeformGeomSpec DeformGeomProofs.
Import ListNotations.
Open Scope string_scope.

(** C46, for names that are not ambiguous: the file is accepted exactly if each of its keys is
    private or addresses a side of a wing; then each side has the field of its key, or none of
    the fields if there is no such key.  A rejected file is a KeyError, and no side ever has a
    field that is not its own. *)
Theorem C46_fields_partial :
  forall F (fields : dict F), NoDup (dkeys fields) ->
  (forall k, In k (dkeys fields) -> private k \/ exists u m, plain u /\ addresses k u m) ->
  forall size wings wings' r, (10 <= size)%nat -> (forall u, In u (dkeys wings) -> plain u) -> DeformModel.load F (Some (size, fields)) wings = (wings', r) ->
  dkeys wings' = dkeys wings /\
  (r = Ok tt <-> forall k, In k (dkeys fields) -> private k \/ exists u m, In u (dkeys wings) /\ addresses k u m) /\
  (r = Ok tt \/ r = Err KeyError) /\
  (forall u w m, dget wings u = Some w -> exists w', dget wings' u = Some w' /\
     (r = Ok tt -> forall f, (exists k, addresses k u m /\ In (k, f) fields) -> side w' m = Some f) /\
     (side w' m = side w m \/ exists k f, addresses k u m /\ In (k, f) fields /\ side w' m = Some f) /\
     ((forall k f, addresses k u m -> ~ In (k, f) fields) -> side w' m = side w m)).
Proof. exact load_spec. Qed.
Print Assumptions C46_fields_partial.

(** Without a file there is an IOError and all wings stay as they are; a file of less than ten bytes
    is ignored, whatever it contains. *)
Theorem C46_no_file :
  forall F wings, DeformModel.load F None wings = (wings, Err IOError) /\
  forall size fields, (size < 10)%nat -> DeformModel.load F (Some (size, fields)) wings = (wings, Ok tt).
Proof. exact no_file. Qed.
Print Assumptions C46_no_file.

(** The field of a wing whose name ends with the suffix goes to another wing. *)
Theorem C46_suffix_refuted :
  exists u v k, u <> v /\ addresses k u false /\ forall F (f : F), let none := mkWD None None in
  load_fields F [(v, none); (u, none)] [(k, f)] = ([(v, mkWD None (Some f)); (u, none)], Ok tt).
Proof. exists "main_m", "main", "main_m". split; [discriminate|]. split; [reflexivity|]. intros. reflexivity. Qed.
Print Assumptions C46_suffix_refuted.

(** A wing with the suffix inside its name cannot have a field for its mirrored side. *)
Theorem C46_inside_refuted :
  exists u k, addresses k u true /\ forall F (f : F), snd (load_fields F [(u, mkWD None None)] [(k, f)]) = Err KeyError.
Proof. exists "left_main", "left_main_m". split; [reflexivity|]. intros. reflexivity. Qed.
Print Assumptions C46_inside_refuted.

(** A key that matches no wing is accepted. *)
Theorem C46_unknown_refuted :
  exists k u, ~ private k /\ plain u /\ (forall m, ~ addresses k u m) /\
  forall F (f : F), load_fields F [(u, mkWD None None)] [(k, f)] = ([(u, mkWD None (Some f))], Ok tt).
Proof.
  exists "le_mft_m", "left". split; [intros [r H]; discriminate|]. split.
  - split; [discriminate|]. split; [intros [r H]; discriminate|]. intros (a & b & H).
    destruct a as [|c1 a]; cbn in H; [discriminate|]. injection H as _ H. destruct a as [|c2 a]; cbn in H; [discriminate|]. injection H as _ H.
    destruct a as [|c3 a]; cbn in H; [discriminate|]. injection H as _ H. destruct a as [|c4 a]; cbn in H; [discriminate|]. injection H as _ H. destruct a; discriminate.
  - split; [intros []; discriminate|]. intros. reflexivity.
Qed.
Print Assumptions C46_unknown_refuted.

Example C46_example :
  (forall u, In u ["main"; "tail"] -> plain u) /\
  load_fields nat [("main", mkWD None None); ("tail", mkWD None None)] [("tail_m", 1%nat); ("_other", 2%nat); ("main", 3%nat)] =
    ([("main", mkWD (Some 3%nat) None); ("tail", mkWD None (Some 1%nat))], Ok tt).
Proof. split; [|reflexivity]. intros u [<-|[<-|[]]]; apply plain_ex; reflexivity || discriminate. Qed.

(** C65: a side that is not displaced has the geometry of the undeformed wing, whatever happens to
    the other side. *)
Theorem C65_at_rest :
  forall f seg e x h1 h2 m sym, at_rest f m ->
  strip_vertices_d f seg e m sym = strip_vertices seg e m sym /\
  subarea_vertices_d f seg e x m sym = subarea_vertices seg e x m sym /\
  hinge_vertices_d f seg e h1 h2 m sym = hinge_vertices seg e h1 h2 m sym.
Proof. exact all_at_rest. Qed.
Print Assumptions C65_at_rest.
Definition ex_bend (v : vec) : vec := mkV (vx v) (vy v) (vz v + vy v * vy v)%R.
Example C65_example :
  let f := mkFields (Some ex_bend) None in is_deformed f = true /\ at_rest f true /\ ~ at_rest f false.
Proof. split; [reflexivity|]. split; [intro p; reflexivity|]. intro H. specialize (H (mkV 0 1 0)). injection H as H. lra. Qed.

(** C66: if both sides move symmetrically, the mirrored side is the mirror image (planes 1 and 2). *)
Theorem C66_symmetric_partial :
  forall f seg e x h1 h2 p, symmetric f p -> p <> YZ ->
  (exists q q', subarea_vertices_d f seg e x false (plane_num p) = Ok q /\
     subarea_vertices_d f seg e x true (plane_num p) = Ok q' /\
     forall v, on_surface q' v <-> on_surface q (refl p v)) /\
  (exists i o i' o', hinge_vertices_d f seg e h1 h2 false (plane_num p) = Ok (i, o) /\
     hinge_vertices_d f seg e h1 h2 true (plane_num p) = Ok (i', o') /\
     forall v, on_segment i' o' v <-> on_segment i o (refl p v)).
Proof. exact symmetric_image. Qed.
Print Assumptions C66_symmetric_partial.
Theorem C66_panels_partial :
  forall f alpha beta seg e x n i p, symmetric f p -> (1 <= n)%Z -> p <> YZ ->
  exists q q', subarea_vertices_d f seg e x false (plane_num p) = Ok q /\
    subarea_vertices_d f seg e x true (plane_num p) = Ok q' /\
    let pan := make_panel (trail_dir alpha beta) q 1 n i 0 in
    let pan' := make_panel (trail_dir alpha beta) q' 1 n i 0 in
    pC pan' = refl p (pC pan) /\ pB pan' = refl p (pB pan) /\
    vz (pN pan') = vz (pN pan) /\ pA pan' = pA pan.
Proof. exact symmetric_panels. Qed.
Print Assumptions C66_panels_partial.

(** Plane 3: see C15. *)
Theorem C66_symmetric_refuted : exists f seg e x q q' v, symmetric f YZ /\
  subarea_vertices_d f seg e x false 3 = Ok q /\ subarea_vertices_d f seg e x true 3 = Ok q' /\
  planar seg /\ convex seg /\ on_surface q' v /\ ~ on_surface q (refl YZ v).
Proof.
  destruct MirrorProofs.mirror3_refuted as (seg & e & x & q & q' & v & H). exists (mkFields None None), seg, e, x, q, q', v.
  split; [intro; reflexivity|]. exact H.
Qed.
Print Assumptions C66_symmetric_refuted.
Example C66_example : symmetric (mkFields (Some ex_bend) (Some ex_bend)) XZ.
Proof. intro v. unfold moves, ex_bend. cbn. f_equal. ring. Qed.

(** C67: neighbouring strips, strips at a common segment edge, and the parts of one strip have
    common edges, on both sides, deformed or not; so have the parts of neighbouring strips at
    equal chord positions. *)
Theorem C67_strips :
  forall f seg e1 e2 m sym q1 q2, r_eta_b e1 = r_eta_a e2 -> r_eta_c e1 = r_eta_d e2 ->
  strip_vertices_d f seg e1 m sym = Ok q1 -> strip_vertices_d f seg e2 m sym = Ok q2 -> meet_spanwise q1 q2.
Proof. exact neighbour_strips. Qed.
Print Assumptions C67_strips.
Theorem C67_segments :
  forall f seg1 seg2 e1 e2 m sym q1 q2, qb seg1 = qa seg2 -> qc seg1 = qd seg2 ->
  r_eta_b e1 = 1%R -> r_eta_c e1 = 1%R -> r_eta_a e2 = 0%R -> r_eta_d e2 = 0%R ->
  strip_vertices_d f seg1 e1 m sym = Ok q1 -> strip_vertices_d f seg2 e2 m sym = Ok q2 -> meet_spanwise q1 q2.
Proof. exact neighbour_segments. Qed.
Print Assumptions C67_segments.
Theorem C67_subareas :
  forall f seg e x1 x2 m sym q1 q2, r_xsi_d x1 = r_xsi_a x2 -> r_xsi_c x1 = r_xsi_b x2 ->
  subarea_vertices_d f seg e x1 m sym = Ok q1 -> subarea_vertices_d f seg e x2 m sym = Ok q2 -> meet_chordwise q1 q2.
Proof. exact neighbour_subareas. Qed.
Print Assumptions C67_subareas.
Theorem C67_devices :
  forall f seg e1 e2 x1 x2 m sym q1 q2, r_eta_b e1 = r_eta_a e2 -> r_eta_c e1 = r_eta_d e2 ->
  r_xsi_b x1 = r_xsi_a x2 -> r_xsi_c x1 = r_xsi_d x2 ->
  subarea_vertices_d f seg e1 x1 m sym = Ok q1 -> subarea_vertices_d f seg e2 x2 m sym = Ok q2 -> meet_spanwise q1 q2.
Proof. exact neighbour_devices. Qed.
Print Assumptions C67_devices.
Example C67_example :
  let f := mkFields (Some ex_bend) None in
  let seg := mkQuad (mkV 0 0 0) (mkV 1 4 0) (mkV 2 4 1) (mkV 3 0 0) in
  exists q1 q2, strip_vertices_d f seg (mkEtas 0 (1/2) (1/2) 0) true 2 = Ok q1 /\ strip_vertices_d f seg (mkEtas (1/2) 1 1 (1/2)) true 2 = Ok q2 /\
  qa q1 <> qb q1.
Proof. eexists. eexists. split; [reflexivity|]. split; [reflexivity|]. cbn. intro H. injection H. intros. lra. Qed.
