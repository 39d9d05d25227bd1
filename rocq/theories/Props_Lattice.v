(** Property theorems: component tree, panel numbering, lattice arrays (C08-C10, C37, C38, C45). *)
From Coq Require Import List String ZArith QArith Bool Permutation Sorted.
From Verif Require Import PyBase PyFacts StripModel StripSpec StripRun AircraftModel LatticeModel LatticeSpec
  EnumProofs LatticeProofs LatticeArrays Props_Strips.
Import ListNotations.
Open Scope Z_scope.

(** ** A concrete aircraft: a mirrored wing with two segments (the inner one with a flap and a
    slat, the outer one plain) and a fin without symmetry. *)
Definition ex_fl : wcontrol :=
  mkWC ex_flap (Some 3) (Some (5#1)) (Some (-3#1)) (Some "s1"%string) (Some "s1"%string) (1#10) (8#10) (7#10) (8#10) None None.
Definition ex_sl : wcontrol :=
  mkWC ex_slat (Some 2) (Some (5#1)) None (Some "s1"%string) (Some "s1"%string) 0 (6#10) (2#10) (1#10) None None.
Definition ex_s1 : wsegment := mkWS "s1" (Some 8) (Some 4) 5 (run lin_interp ex_ops).
Definition ex_s2 : wsegment := mkWS "s2" (Some 4) (Some 4) 3 (run lin_interp [OpSubdiv (1#2) (1#2) false]).
Definition ex_fs : wsegment := mkWS "f1" (Some 5) (Some 2) 2 (run lin_interp []).
Definition ex_wing : wing := mkWing "wing" 2 [("s1", ex_s1); ("s2", ex_s2)]%string [("flap", ex_fl); ("slat", ex_sl)]%string.
Definition ex_fin : wing := mkWing "fin" 0 [("f1", ex_fs)]%string [].
Definition ex_ac : aircraft := mkAC "ac" [("wing", ex_wing); ("fin", ex_fin)]%string.

Example ex_ac_panelled : panelled ex_ac.
Proof.
  intros wn w sn s Iw Is.
  assert (X : forallb (fun kw => forallb (fun ks => forallb (fun st => forallb (fun kv =>
      match sa_ctrl (snd kv) with Some c => dmem (w_ctls (snd kw)) (ct_uid c) | None => true end)
      (st_subs st)) (ws_strips (snd ks))) (w_segs (snd kw))) (a_wings ex_ac) = true)
    by (vm_compute; reflexivity).
  split.
  - destruct Iw as [E|[E|[]]]; injection E as <- <-.
    + destruct Is as [E|[E|[]]]; injection E as <- <-.
      * exists lin_interp, ex_ops. split; [left; exact lin_interp_ok|reflexivity].
      * exists lin_interp, [OpSubdiv (1#2) (1#2) false]. split; [left; exact lin_interp_ok|reflexivity].
    + destruct Is as [E|[]]; injection E as <- <-.
      exists lin_interp, []. split; [left; exact lin_interp_ok|reflexivity].
  - intros st k v c I1 I2 E. rewrite forallb_forall in X. specialize (X _ Iw).
    rewrite forallb_forall in X. specialize (X _ Is). rewrite forallb_forall in X. specialize (X _ I1).
    rewrite forallb_forall in X. specialize (X _ I2). cbn [snd] in X. rewrite E in X.
    unfold dmem in X. destruct (dget (w_ctls w) (ct_uid c)) as [wc|]; [exists wc; reflexivity|discriminate].
Qed.

Example ex_ac_counts : counts_set ex_ac.
Proof.
  intros wn w [E|[E|[]]]; injection E as <- <-.
  - split; intros n x [E|[E|[]]]; injection E as <- <-; eexists; split; try reflexivity; Lia.lia.
  - split; intros n x I; [|destruct I]. destruct I as [E|[]]. injection E as <- <-.
    eexists; split; [reflexivity|Lia.lia].
Qed.

Example ex_ac_count :
  exists st, panel_count ex_ac = Ok st /\ c_p st = 177 /\
    map (fun e => (e_lo e, e_hi e, e_mirror e)) (firstn 4 (bk_list (c_book st))) =
    [(0, 7, false); (7, 14, true); (14, 16, false); (16, 18, true)].
Proof. eexists. split; [vm_compute; reflexivity|]. vm_compute. auto. Qed.

(** C08: counting succeeds on every panelled aircraft and the index ranges are a gap-free
    partition in enumeration order. *)
Theorem C08_numbering :
  forall a, panelled a -> counts_set a ->
  exists st, panel_count a = Ok st /\
    let es := bk_list (c_book st) in
    consecutive 0 es (c_p st) /\
    recorded (all_subareas a) es /\
    StronglySorted lexlt (map key4 (all_subareas a)) /\
    (forall e, In e es -> e_hi e = e_lo e + e_num_c e) /\
    (forall i, 0 <= i < c_p st ->
       exists k e, nth_error es k = Some e /\ e_lo e <= i < e_hi e /\
         forall k' e', nth_error es k' = Some e' -> e_lo e' <= i < e_hi e' -> k' = k).
Proof.
  intros a P C. destruct (panel_count_inv a P C) as (st & E & I1 & I2 & I3 & I4 & I5 & I6 & I7).
  exact (ex_intro _ st (conj E (conj I1 (conj I2 (conj (all_subareas_sorted a)
    (conj (fun e I => proj1 (I5 e I)) (fun i H => consecutive_unique _ 0 (c_p st) i I1 H))))))).
Qed.
Print Assumptions C08_numbering.

Example C08_example : panelled ex_ac /\ counts_set ex_ac.
Proof. exact (conj ex_ac_panelled ex_ac_counts). Qed.

(** C09: the per-wing lists are exactly the split of the overall list, for every sequence of
    bookkeeping updates. *)
Theorem C09_records_split :
  forall es,
  let b := fold_left update_book es clean_book in
  bk_list b = es /\
  (forall uid, lookup (bk_wing b) uid = entries_of uid false es) /\
  (forall uid, lookup (bk_wing_mirror b) uid = entries_of uid true es) /\
  (NoDup (dkeys (bk_wing b)) /\ NoDup (dkeys (bk_wing_mirror b))) /\
  (forall u l, dget (bk_wing b) u = Some l -> l <> []) /\
  (forall u l, dget (bk_wing_mirror b) u = Some l -> l <> []) /\
  Permutation (flat_map snd (bk_wing b) ++ flat_map snd (bk_wing_mirror b)) es.
Proof. exact book_all. Qed.
Print Assumptions C09_records_split.

(** The bookkeeping of a panelled aircraft is such a sequence of updates. *)
Theorem C09_records_split_aircraft :
  forall a, panelled a -> counts_set a ->
  exists st, panel_count a = Ok st /\
    let es := bk_list (c_book st) in
    (forall uid, lookup (bk_wing (c_book st)) uid = entries_of uid false es) /\
    (forall uid, lookup (bk_wing_mirror (c_book st)) uid = entries_of uid true es) /\
    (forall uid, lookup (bk_wing_mirror (c_book st)) uid <> [] ->
       exists wn w, In (wn, w) (a_wings a) /\ w_uid w = uid /\ w_symmetry w <> 0).
Proof. exact book_aircraft. Qed.
Print Assumptions C09_records_split_aircraft.

Example C09_example :
  exists st, panel_count ex_ac = Ok st /\
    map (fun u => (List.length (lookup (bk_wing (c_book st)) u),
                   List.length (lookup (bk_wing_mirror (c_book st)) u))) ["wing"; "fin"; "x"]%string =
    [(22, 22); (1, 0); (0, 0)]%nat.
Proof. eexists. split; [vm_compute; reflexivity|]. vm_compute. reflexivity. Qed.

(** C10: for any panel counts (spanwise and chordwise, both positive) and no mirroring asked of
    the C code, every access is inside the arrays, every output cell is written exactly once, and
    the cells of subarea j are those of its index range. *)
Theorem C10_array_accesses :
  forall sym pan,
  (forall s c, In (s, c) pan -> 1 <= s /\ 1 <= c) ->
  (forall i, 0 <= i < Z.of_nat (List.length pan) -> sym i <= 0) ->
  let total l := zsum (map (fun p => fst p * snd p) l) in
  let accs := vlm_lattice_accesses sym pan in
  let size := array_size (Z.of_nat (List.length pan)) (total pan) in
  Forall (in_bounds size) (List.concat accs) /\
  (forall a, is_output a -> each_once (size a) (writes a (List.concat accs))) /\
  (forall j s c acc, nth_error pan j = Some (s, c) -> nth_error accs j = Some acc ->
     forall a, is_output a ->
       let start := total (firstn j pan) in
       forall i, In i (writes a acc) <-> width a * start <= i < width a * (start + s * c)).
Proof. exact lattice_arrays. Qed.
Print Assumptions C10_array_accesses.

(** As called by [gen_lattice]: the cells of record j are those of its recorded panel range. *)
Theorem C10_array_accesses_aircraft :
  forall a, panelled a -> counts_set a ->
  exists st, panel_count a = Ok st /\
    let accs := gen_lattice_accesses st in
    let size := array_size (c_subareas st) (c_p st) in
    List.length accs = List.length (bk_list (c_book st)) /\
    Forall (in_bounds size) (List.concat accs) /\
    (forall a, is_output a -> each_once (size a) (writes a (List.concat accs))) /\
    (forall j e acc, nth_error (bk_list (c_book st)) j = Some e -> nth_error accs j = Some acc ->
       forall a, is_output a ->
         forall i, In i (writes a acc) <-> width a * e_lo e <= i < width a * e_hi e).
Proof.
  intros a P C. destruct (panel_count_inv a P C) as (st & E & I).
  exact (ex_intro _ st (conj E (gen_lattice_arrays st (all_subareas a) I))).
Qed.
Print Assumptions C10_array_accesses_aircraft.

(** Each subarea reads exactly its own four corner points, panel numbers and symmetry flag. *)
Theorem C10_inputs :
  forall sym pan, (forall i, 0 <= i < Z.of_nat (List.length pan) -> sym i <= 0) ->
  forall j acc, nth_error (vlm_lattice_accesses sym pan) j = Some acc -> forall i,
  (In (Rd APts i) acc <-> 12 * Z.of_nat j <= i < 12 * (Z.of_nat j + 1)) /\
  (In (Rd APan i) acc <-> 2 * Z.of_nat j <= i < 2 * (Z.of_nat j + 1)) /\
  (In (Rd ASym i) acc <-> i = Z.of_nat j).
Proof. exact own_inputs. Qed.
Print Assumptions C10_inputs.

Example C10_example :
  let pan := [(2, 3); (1, 4); (3, 1)] in
  (forall s c, In (s, c) pan -> 1 <= s /\ 1 <= c) /\
  writes AA (List.concat (vlm_lattice_accesses (fun _ => 0) pan)) =
    [0; 3; 1; 4; 2; 5; 6; 7; 8; 9; 10; 11; 12].
Proof.
  split; [|vm_compute; reflexivity].
  intros s c I. destruct I as [E|[E|[E|[]]]]; injection E as <- <-; Lia.lia.
Qed.

(** With a symmetry flag the C code writes every subarea twice: an input that [gen_lattice]
    must not produce, since its arrays are sized for one copy. *)
Theorem C10_c_mirroring_overruns_refuted :
  exists sym pan x, (forall s c, In (s, c) pan -> 1 <= s /\ 1 <= c) /\
    In x (List.concat (vlm_lattice_accesses sym pan)) /\
    ~ in_bounds (array_size (Z.of_nat (List.length pan)) (zsum (map (fun p => fst p * snd p) pan))) x.
Proof.
  exists (fun _ => 2), [(1, 1)], (Wr AA 1). split; [|split].
  - intros s c [E|[]]. injection E as <- <-. Lia.lia.
  - vm_compute. tauto.
  - vm_compute. intros [_ H]. discriminate.
Qed.
Print Assumptions C10_c_mirroring_overruns_refuted.

(** C37: names stay unique and non-empty, and agree with the uid stored in the component, after
    any session of add calls (accepted or not). *)
Theorem C37_uids_unique :
  forall bs, let a := built bs in
  names_ok w_uid (a_wings a) /\
  forall k w, In (k, w) (a_wings a) ->
    names_ok ws_uid (w_segs w) /\ names_ok (fun c => ct_uid (wc_ctl c)) (w_ctls w).
Proof. exact built_ok. Qed.
Print Assumptions C37_uids_unique.

(** Adding a taken (or empty) uid raises and changes nothing; a free one is added last. *)
Theorem C37_add_duplicate :
  forall a u,
  (u <> EmptyString ->
     (In u (dkeys (a_wings a)) -> build_step a (BWing u) = (a, Err ValueError)) /\
     (~ In u (dkeys (a_wings a)) ->
        build_step a (BWing u) = (mkAC (a_uid a) (a_wings a ++ [(u, new_wing u)]), Ok tt))) /\
  build_step a (BWing EmptyString) = (a, Err ComponentDefinitionError) /\
  forall wu w, dget (a_wings a) wu = Some w ->
    (u <> EmptyString ->
      (In u (dkeys (w_segs w)) -> build_step a (BSegment wu u) = (a, Err ValueError)) /\
      (In u (dkeys (w_ctls w)) -> build_step a (BControl wu u) = (a, Err ValueError)) /\
      (~ In u (dkeys (w_segs w)) ->
         add_segment w u = (mkWing (w_uid w) (w_symmetry w) (w_segs w ++ [(u, new_wsegment u)]) (w_ctls w), Ok tt)) /\
      (~ In u (dkeys (w_ctls w)) ->
         add_control w u = (mkWing (w_uid w) (w_symmetry w) (w_segs w) (w_ctls w ++ [(u, new_wcontrol u)]), Ok tt))) /\
    build_step a (BSegment wu EmptyString) = (a, Err ComponentDefinitionError) /\
    build_step a (BControl wu EmptyString) = (a, Err ComponentDefinitionError).
Proof.
  exact (fun a u => conj (fun NE => conj (add_wing_dup a u NE) (add_wing_new a u NE))
    (conj (proj1 (empty_uid a u)) (fun wu w G => conj (fun NE =>
       conj (add_child_dup a wu w u true G NE) (conj (add_child_dup a wu w u false G NE)
         (conj (add_segment_new w u NE) (add_control_new w u NE)))) (proj2 (empty_uid a wu) w G)))).
Qed.
Print Assumptions C37_add_duplicate.

Example C37_example :
  let a := built [BWing "w"; BWing "w"; BSegment "w" "s"; BSegment "w" "s"; BSegment "w" "t"; BWing "v"; BControl "v" "c"]%string in
  map fst (a_wings a) = ["w"; "v"]%string /\
  map (fun kw => map fst (w_segs (snd kw))) (a_wings a) = [["s"; "t"]; []]%string /\
  snd (build_step a (BSegment "w" "t")) = Err ValueError.
Proof. vm_compute. auto. Qed.

(** Enumeration: a component is visited if and only if it is there, with its own position and
    its true parents; in definition order; never twice. *)
Theorem C37_enumeration :
  forall a,
  (forall nw kw w, In (nw, kw, w) (all_wings a) <-> nth_error (a_wings a) nw = Some (kw, w)) /\
  (forall ns ks s nw kw w, In ((ns, ks, s), (nw, kw, w)) (all_segments a) <->
     nth_error (a_wings a) nw = Some (kw, w) /\ nth_error (w_segs w) ns = Some (ks, s)) /\
  (forall nc kc c nw kw w, In ((nc, kc, c), (nw, kw, w)) (all_controls a) <->
     nth_error (a_wings a) nw = Some (kw, w) /\ nth_error (w_ctls w) nc = Some (kc, c)) /\
  (forall nd kd d ns ks s nw kw w, In ((nd, kd, d), (ns, ks, s), (nw, kw, w)) (all_subdivisions a) <->
     nth_error (a_wings a) nw = Some (kw, w) /\ nth_error (w_segs w) ns = Some (ks, s) /\
     nth_error (ws_strips s) nd = Some d /\ kd = nd) /\
  (forall na ka v nd kd d ns ks s nw kw w,
     In ((na, ka, v), (nd, kd, d), (ns, ks, s), (nw, kw, w)) (all_subareas a) <->
     nth_error (a_wings a) nw = Some (kw, w) /\ nth_error (w_segs w) ns = Some (ks, s) /\
     nth_error (ws_strips s) nd = Some d /\ kd = nd /\ nth_error (st_subs d) na = Some (ka, v)) /\
  (StronglySorted lexlt (map key1 (all_wings a)) /\ NoDup (all_wings a)) /\
  (StronglySorted lexlt (map key2 (all_segments a)) /\ NoDup (all_segments a)) /\
  (StronglySorted lexlt (map key2 (all_controls a)) /\ NoDup (all_controls a)) /\
  (StronglySorted lexlt (map key3 (all_subdivisions a)) /\ NoDup (all_subdivisions a)) /\
  (StronglySorted lexlt (map key4 (all_subareas a)) /\ NoDup (all_subareas a)).
Proof.
  exact (fun a => conj (all_wings_In a) (conj (all_segments_In a) (conj (all_controls_In a)
    (conj (all_subdivisions_In a) (conj (all_subareas_In a)
    (conj (conj (all_wings_sorted a) (sorted_NoDup _ _ (all_wings_sorted a)))
    (conj (conj (all_segments_sorted a) (sorted_NoDup _ _ (all_segments_sorted a)))
    (conj (conj (all_controls_sorted a) (sorted_NoDup _ _ (all_controls_sorted a)))
    (conj (conj (all_subdivisions_sorted a) (sorted_NoDup _ _ (all_subdivisions_sorted a)))
          (conj (all_subareas_sorted a) (sorted_NoDup _ _ (all_subareas_sorted a)))))))))))).
Qed.
Print Assumptions C37_enumeration.

(** The count functions equal the number of components. *)
Theorem C37_counts :
  forall a,
  count_all_wings a = List.length (a_wings a) /\
  count_all_segments a = list_sum (map (fun kw => List.length (w_segs (snd kw))) (a_wings a)) /\
  count_all_controls a = list_sum (map (fun kw => List.length (w_ctls (snd kw))) (a_wings a)) /\
  count_all_subareas a =
    list_sum (map (fun kw =>
      list_sum (map (fun ks =>
        list_sum (map (fun d => List.length (st_subs d)) (ws_strips (snd ks)))) (w_segs (snd kw)))) (a_wings a)).
Proof. exact counts_ok. Qed.
Print Assumptions C37_counts.

Example C37_counts_example :
  (count_all_wings ex_ac, count_all_segments ex_ac, count_all_controls ex_ac, count_all_subareas ex_ac)
  = (2, 3, 2, 23)%nat.
Proof. vm_compute. reflexivity. Qed.

(** C38 is false: on a panelled aircraft listing the subareas of a control raises, because the
    main surface of every strip has no control to compare with. *)
Theorem C38_control_listing_refuted :
  exists a uid, panelled a /\ counts_set a /\
    (exists v, In v (all_subareas a) /\ option_map ct_uid (sa_ctrl (v_sub v)) = Some uid) /\
    all_subareas_of_control a uid = Err AttributeError.
Proof.
  exists ex_ac, "flap"%string. split; [exact ex_ac_panelled|]. split; [exact ex_ac_counts|].
  split; [|vm_compute; reflexivity].
  destruct (nth_error (all_subareas ex_ac) 3) as [v|] eqn:E; [|vm_compute in E; discriminate].
  exists v. split; [exact (nth_error_In _ _ E)|].
  vm_compute in E. injection E as <-. reflexivity.
Qed.
Print Assumptions C38_control_listing_refuted.

(** In fact it never works once there is a segment, whatever the uid. *)
Theorem C38_control_listing_partial :
  forall a uid, panelled a ->
  ((exists wn w sn s, In (wn, w) (a_wings a) /\ In (sn, s) (w_segs w)) ->
     all_subareas_of_control a uid = Err AttributeError) /\
  ((forall wn w, In (wn, w) (a_wings a) -> w_segs w = []) -> all_subareas_of_control a uid = Ok []).
Proof.
  exact (fun a uid P => conj (panelled_listing_fails a uid P) (no_segments_listing_ok a uid)).
Qed.
Print Assumptions C38_control_listing_partial.

(** C45: every surface piece gets the right number of panels, at least one, and the total is the
    sum over the records (mirrored pieces have their own record, see C08). *)
Theorem C45_panel_counts :
  forall a, panelled a -> counts_set a ->
  exists st, panel_count a = Ok st /\
    let es := bk_list (c_book st) in
    (forall e, In e es ->
       1 <= e_num_c e /\ right_count (e_visit e) (e_num_c e) /\
       (sa_ctrl (v_sub (e_visit e)) = None ->
          exists m, ws_num_c (v_seg (e_visit e)) = Some m /\ e_num_c e <= m)) /\
    c_p st = zsum (map e_num_c es) /\ c_subareas st = Z.of_nat (List.length es) /\
    exists f : subarea_visit -> Z,
      (forall e, In e es -> e_num_c e = f (e_visit e)) /\
      c_p st = zsum (map (fun v => if Z.eqb (w_symmetry (v_wing v)) 0 then f v else 2 * f v) (all_subareas a)).
Proof. exact panel_totals. Qed.
Print Assumptions C45_panel_counts.

Example C45_example :
  exists st, panel_count ex_ac = Ok st /\
    map e_num_c (firstn 9 (bk_list (c_book st))) = [7; 7; 2; 2; 5; 5; 3; 3; 2].
Proof. eexists. split; [vm_compute; reflexivity|]. vm_compute. reflexivity. Qed.
