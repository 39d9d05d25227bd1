(** Property theorems: controls over several segments, bad references, from the loaded aircraft to
    the panelled one, spanwise division (C41, C42, C57, C58). *)
From Coq Require Import List String ZArith QArith Bool.
From Verif Require Import PyBase PyFacts StripModel StripSpec StripRun AircraftModel LatticeModel LatticeSpec LatticeProofs
  WingModel WingSpec WingProofs PrePanelModel PrePanelSpec PrePanelProofs LineProofs ChainProofs Props_Strips.
Import ListNotations.
Open Scope Q_scope.

(** ** A wing with four segments and a flap from the second to the fourth *)
Definition ex_ip (_ _ : string) := lin_interp.
Definition ex_dist (_ _ : string) (p q : Q * Q) : Q := 1.
Definition ex_seg (u : string) : string * wsegment := (u, mkWS u (Some 4%Z) (Some 3%Z) 2 new_segment).
Definition ex_long : wcontrol :=
  mkWC ex_flap (Some 2%Z) None None (Some "b"%string) (Some "d"%string) (1#4) (3#4) (6#10) (9#10) (Some (7#10)) (Some (8#10)).
Definition ex_w4 (c : wcontrol) : wing :=
  mkWing "w" 0 [ex_seg "a"; ex_seg "b"; ex_seg "c"; ex_seg "d"; ex_seg "e"]%string [("flap"%string, c)].

(** C41: the control goes from its inner edge to the end of the inner segment, over all of the
    segments in between and up to its outer edge on the outer segment; device and hinge line have
    no step at the segment borders, reach the given values and stay between them; on every segment
    the strips carry the control exactly there (conditions of C07); all other segments are as
    before. *)
Theorem C41_spanning_control :
  forall interp dist wuid w c h1 h2 inner outer pre mid post w',
  wc_inner c = Some inner -> wc_outer c = Some outer -> wc_h_inner c = Some h1 -> wc_h_outer c = Some h2 ->
  dkeys (w_segs w) = pre ++ inner :: mid ++ outer :: post -> NoDup (dkeys (w_segs w)) ->
  (forall s p q, In s (dkeys (w_segs w)) -> 0 < dist wuid s p q) ->
  place_wing_control interp dist wuid w c = (w', Ok tt) ->
  dkeys (w_segs w') = dkeys (w_segs w) /\ w_ctls w' = w_ctls w /\
  (forall k, ~ In k (inner :: mid ++ [outer]) -> dget (w_segs w') k = dget (w_segs w) k) /\
  exists rows, pieces c h1 h2 (inner :: mid ++ [outer]) rows /\
    forall r, In r rows -> put interp wuid w w' (p_seg r) (wc_ctl c) (p_eta1 r) (p_eta2 r) (p_x1 r) (p_h1 r) (p_x2 r) (p_h2 r).
Proof. exact spanning_put. Qed.
Print Assumptions C41_spanning_control.

(** A control on a single segment. *)
Theorem C41_single_segment :
  forall interp dist wuid w c sn w',
  wc_inner c = Some sn -> wc_outer c = Some sn -> place_wing_control interp dist wuid w c = (w', Ok tt) ->
  dkeys (w_segs w') = dkeys (w_segs w) /\ w_ctls w' = w_ctls w /\
  (forall k, k <> sn -> dget (w_segs w') k = dget (w_segs w) k) /\
  put interp wuid w w' sn (wc_ctl c) (wc_eta_inner c) (wc_eta_outer c) (wc_xsi_inner c)
    (default_to (wc_h_inner c) (wc_xsi_inner c)) (wc_xsi_outer c) (default_to (wc_h_outer c) (wc_xsi_outer c)).
Proof. exact single_put. Qed.
Print Assumptions C41_single_segment.

Example C41_example :
  exists w' rows, place_wing_control ex_ip ex_dist "w" (ex_w4 ex_long) ex_long = (w', Ok tt) /\
    case_b_rows ex_dist "w" (ex_w4 ex_long) ex_long (7#10) (8#10) = Ok rows /\
    map (fun r => (p_seg r, Qred (p_x1 r), Qred (p_x2 r))) rows =
      [("b", 3#5, 7#10); ("c", 7#10, 4#5); ("d", 4#5, 9#10)]%string /\
    map (fun x => map (fun s => (eta_a s, eta_b s, map fst (st_subs s))) (ws_strips (snd x))) (w_segs w') =
      [[(0, 1, [ASegment])];
       [(0, 1#4, [ASegment]); (1#4, 1, [ASegment; ADev Flap])];
       [(0, 1, [ASegment; ADev Flap])];
       [(0, 3#4, [ASegment; ADev Flap]); (3#4, 1, [ASegment])];
       [(0, 1, [ASegment])]] /\
    fits new_segment (1#4) 1 ex_flap.
Proof.
  do 2 eexists. split; [vm_compute; reflexivity|]. split; [vm_compute; reflexivity|]. split; [vm_compute; reflexivity|].
  split; [vm_compute; reflexivity|]. unfold fits. repeat split; try (vm_compute; congruence).
  - intros s [<-|[]] (k & v & [E|[]] & C). discriminate.
  - intros s [<-|[]]. reflexivity.
  - intros y (s & [<-|[]] & E) L. cbn in E. rewrite <- E in L. vm_compute in L. discriminate.
  - left. reflexivity.
Qed.

(** C42 is false: an unknown inner segment, an unknown outer segment and an outer segment inboard
    of the inner one all pass silently; the control is dropped, or runs to the last segment. *)
Theorem C42_bad_reference_refuted :
  exists w c1 c2 c3 w2 w3,
    (forall k, wc_inner c1 = Some k -> ~ In k (dkeys (w_segs w))) /\
    place_wing_control ex_ip ex_dist "w" w c1 = (w, Ok tt) /\
    (forall k, wc_outer c2 = Some k -> ~ In k (dkeys (w_segs w))) /\
    place_wing_control ex_ip ex_dist "w" w c2 = (w2, Ok tt) /\
    wc_inner c3 = Some "d"%string /\ wc_outer c3 = Some "b"%string /\
    place_wing_control ex_ip ex_dist "w" w c3 = (w3, Ok tt) /\
    map (fun x => map (fun s => map fst (st_subs s)) (ws_strips (snd x))) (w_segs w2) =
      [[[ASegment]]; [[ASegment]; [ASegment; ADev Flap]]; [[ASegment; ADev Flap]]; [[ASegment; ADev Flap]]; [[ASegment; ADev Flap]]] /\
    map (fun x => map (fun s => map fst (st_subs s)) (ws_strips (snd x))) (w_segs w3) =
      [[[ASegment]]; [[ASegment]]; [[ASegment]]; [[ASegment]; [ASegment; ADev Flap]]; [[ASegment; ADev Flap]]].
Proof.
  pose (mk := fun i o => mkWC ex_flap (Some 2%Z) None None (Some i) (Some o) (1#4) (3#4) (6#10) (9#10) (Some (7#10)) (Some (8#10))).
  exists (ex_w4 ex_long), (mk "x" "d")%string, (mk "b" "x")%string, (mk "d" "b")%string. do 2 eexists.
  split; [intros k [= <-]; vm_compute; intuition discriminate|]. split; [vm_compute; reflexivity|].
  split; [intros k [= <-]; vm_compute; intuition discriminate|]. split; [vm_compute; reflexivity|].
  split; [reflexivity|]. split; [reflexivity|]. split; [vm_compute; reflexivity|]. split; vm_compute; reflexivity.
Qed.
Print Assumptions C42_bad_reference_refuted.

(** What is reported: an unknown segment when inner and outer uid are the same.  What is not: for
    two different uids, an unknown inner one - the control is dropped on every wing. *)
Theorem C42_bad_reference_partial :
  forall interp dist wuid w c,
  (wc_inner c = wc_outer c -> (forall k, wc_inner c = Some k -> ~ In k (dkeys (w_segs w))) ->
   place_wing_control interp dist wuid w c = (w, Err KeyError)) /\
  (forall h1 h2 inner, wc_inner c = Some inner -> ~ In inner (dkeys (w_segs w)) ->
   wc_inner c <> wc_outer c -> wc_h_inner c = Some h1 -> wc_h_outer c = Some h2 ->
   place_wing_control interp dist wuid w c = (w, Ok tt)).
Proof.
  intros interp dist wuid w c.
  exact (conj (fun H => unknown_same interp dist wuid w c (proj2 (same_opt_iff _ _) H))
              (fun h1 h2 i H1 H2 H3 H4 H5 => unknown_inner interp dist wuid w c h1 h2 i H1 H2 (same_opt_not _ _ H3) H4 H5)).
Qed.

(** Such a control stops the whole run, with a KeyError if it is the first control. *)
Theorem C42_stops :
  forall interp dist a wn w cn c, In (wn, w) (a_wings a) -> In (cn, c) (w_ctls w) -> wc_inner c = wc_outer c ->
  (forall k, wc_inner c = Some k -> ~ In k (dkeys (w_segs w))) ->
  (forall a', pre_panelling interp dist a <> (a', Ok tt)) /\
  (forall pre post rest, a_wings a = pre ++ (wn, w) :: post -> (forall k v, In (k, v) pre -> w_ctls v = []) ->
     w_ctls w = (cn, c) :: rest -> pre_panelling interp dist a = (a, Err KeyError)).
Proof.
  intros interp dist a wn w cn c Iw Ic S U.
  exact (conj (pre_panelling_stop interp dist a wn w cn c Iw Ic S U)
              (fun pre post rest A P C => pre_panelling_key interp dist a pre wn w post cn c rest A P C S U)).
Qed.
Print Assumptions C42_bad_reference_partial.
Print Assumptions C42_stops.

Example C42_example :
  place_wing_control ex_ip ex_dist "w" (ex_w4 ex_long)
    (mkWC ex_flap None None None (Some "x"%string) (Some "x"%string) 0 1 (1#2) (1#2) None None) = (ex_w4 ex_long, Err KeyError).
Proof. vm_compute. reflexivity. Qed.

(** C57: the automatic panel counts followed by [pre_panelling] bring a freshly loaded aircraft
    into the state that the panel numbering (C08), bookkeeping (C09) and array layout (C10) need;
    nothing but the strips changes. *)
Theorem C57_ready_for_lattice :
  forall interp dist oc os a, fresh a -> positive_spans a -> given_counts_ok a ->
  (1 <= or_one oc)%Z -> (1 <= or_one os)%Z ->
  exists a1, set_autopanels oc os a = (a1, Ok tt) /\
    forall a2, pre_panelling interp dist a1 = (a2, Ok tt) ->
      panelled a2 /\ counts_set a2 /\ same_but_strips a1 a2 /\
      exists st, panel_count a2 = Ok st /\ consecutive 0 (bk_list (c_book st)) (c_p st).
Proof.
  intros interp dist oc os a F P G NC NS. destruct (chain interp dist oc os a F P G NC NS) as (a1 & E & H).
  exists a1. split; [exact E|]. intros a2 H2. destruct (H a2 H2) as (A & B & C).
  destruct (panel_count_inv a2 A B) as (st & Es & I1 & _). exact (conj A (conj B (conj C (ex_intro _ st (conj Es I1))))).
Qed.
Print Assumptions C57_ready_for_lattice.

(** Without controls nothing can fail, whatever the geometry. *)
Theorem C57_plain_aircraft :
  forall interp dist a, fresh a -> (forall wn w, In (wn, w) (a_wings a) -> w_ctls w = []) ->
  (forall wn w sn s, In (wn, w) (a_wings a) -> In (sn, s) (w_segs w) -> exists n, ws_num_s s = Some n /\ (1 <= n <= 100)%Z) ->
  exists a', pre_panelling interp dist a = (a', Ok tt) /\ a_uid a' = a_uid a /\ dict_rel divided (a_wings a) (a_wings a').
Proof. exact pre_panelling_plain. Qed.
Print Assumptions C57_plain_aircraft.

Definition ex_new : aircraft := mkAC "ac" [("w", ex_w4 ex_long); ("x", mkWing "x" 1 [ex_seg "a"] [])]%string.
Example C57_example :
  fresh ex_new /\ positive_spans ex_new /\ given_counts_ok ex_new /\
  exists a1 a2 st, set_autopanels None None ex_new = (a1, Ok tt) /\ pre_panelling ex_ip ex_dist a1 = (a2, Ok tt) /\
    panel_count a2 = Ok st /\ c_p st = 105%Z.
Proof.
  assert (F : fresh ex_new).
  { intros wn w [E|[E|[]]]; injection E as <- <-.
    - split; [repeat constructor; cbn; intuition discriminate|]. split; [repeat constructor; cbn; intuition discriminate|]. split.
      + cbn [w_segs ex_w4]. intros sn s I. repeat (destruct I as [E|I]; [injection E as <- <-; reflexivity|]). destruct I.
      + intros cn c [E|[]]. injection E as <- <-. reflexivity.
    - split; [repeat constructor; cbn; intuition discriminate|]. split; [constructor|]. split; [|intros cn c []].
      intros sn s [E|[]]. injection E as <- <-. reflexivity. }
  split; [exact F|]. split; [|split].
  - intros wn w sn s [E|[E|[]]]; injection E as <- <-; cbn [w_segs ex_w4]; intro I;
      repeat (destruct I as [E|I]; [injection E as <- <-; reflexivity|]); destruct I.
  - intros wn w [E|[E|[]]]; injection E as <- <-; (split; [|cbn; intros cn c n I E; repeat (destruct I as [X|I]; [injection X as <- <-; injection E as <-; vm_compute; discriminate|]); destruct I]);
      cbn [w_segs ex_w4]; intros sn s n I E;
      repeat (destruct I as [X|I]; [injection X as <- <-; destruct E as [E|E]; injection E as <-; vm_compute; discriminate|]); destruct I.
  - do 3 eexists. split; [vm_compute; reflexivity|]. split; [vm_compute; reflexivity|]. split; vm_compute; reflexivity.
Qed.

(** C58: as many equal strips as asked for, on a segment without controls, up to 100. *)
Theorem C58_equal_strips_partial :
  forall interp wuid sn s n, ws_strips s = new_segment -> ws_num_s s = Some n -> (1 <= n <= 100)%Z ->
  exists l, divide_segment interp wuid sn s = (set_strips s l, Ok tt) /\ equal_strips n l.
Proof. exact divide_plain. Qed.
Print Assumptions C58_equal_strips_partial.

(** From 101 on this is false: neighbouring lines are closer than 0.01 and every other one is
    dropped without notice (51 strips instead of 101). *)
Theorem C58_equal_strips_refuted :
  exists s n l, ws_strips s = new_segment /\ ws_num_s s = Some n /\ (1 <= n)%Z /\
    divide_segment ex_ip "w" "a" s = (set_strips s l, Ok tt) /\ (2 * Z.of_nat (List.length l) = n + 1)%Z /\ n = 101%Z.
Proof.
  exists (mkWS "a" (Some 1%Z) (Some 101%Z) 2 new_segment), 101%Z. eexists. repeat (split; [reflexivity|]).
  split; [discriminate|]. split; [vm_compute; reflexivity|]. vm_compute. auto.
Qed.
Print Assumptions C58_equal_strips_refuted.

(** In general (controls present, any count): no line is removed, every requested line is there or
    replaced by one less than 1/100 inboard, no other lines appear. *)
Theorem C58_requested_lines :
  forall interp wuid sn s n s' ops, ws_strips s = run (interp wuid sn) ops -> ws_num_s s = Some n -> (1 <= n)%Z ->
  divide_segment interp wuid sn s = (s', Ok tt) ->
  (forall i, (0 < i < n)%Z -> exists y, line_at (ws_strips s') y /\ y <= inject_Z i / inject_Z n /\
     inject_Z i / inject_Z n < y + (1 # 100)) /\
  (forall y, line_at (ws_strips s) y -> line_at (ws_strips s') y) /\
  (forall y, line_at (ws_strips s') y ->
     line_at (ws_strips s) y \/ exists i, (0 <= i <= n)%Z /\ y == inject_Z i / inject_Z n).
Proof. exact divide_near. Qed.
Print Assumptions C58_requested_lines.

Theorem C58_division_succeeds :
  forall interp wuid sn s n ops, interp_ok (interp wuid sn) -> ws_strips s = run (interp wuid sn) ops ->
  ws_num_s s = Some n -> (1 <= n)%Z -> exists s', divide_segment interp wuid sn s = (s', Ok tt).
Proof. exact divide_total. Qed.
Print Assumptions C58_division_succeeds.

(** An unusable number of strips stops the run: a missing one with a TypeError, a negative one (below
    -1) with a ValueError. *)
Theorem C58_bad_count :
  forall interp dist a pre wn w post spre sn s spost, fresh a -> (forall k v, In (k, v) (a_wings a) -> w_ctls v = []) ->
  a_wings a = pre ++ (wn, w) :: post -> (forall k v k' x, In (k, v) pre -> In (k', x) (w_segs v) -> good_count x) ->
  w_segs w = spre ++ (sn, s) :: spost -> (forall k' x, In (k', x) spre -> good_count x) -> bad_count s ->
  exists a', pre_panelling interp dist a = (a', count_error (ws_num_s s)).
Proof. exact pre_panelling_bad_count. Qed.

Example C58_bad_example :
  let s := mkWS "b" None (Some (-2)%Z) 2 new_segment in
  bad_count s /\ snd (pre_panelling ex_ip ex_dist (mkAC "ac" [("w", mkWing "w" 0 [ex_seg "a"; ("b", s)] [])]%string)) = Err ValueError.
Proof. vm_compute. auto. Qed.

Example C58_example :
  exists s', divide_segment ex_ip "w" "s1" (mkWS "s1" (Some 8%Z) (Some 3%Z) 5 (run lin_interp ex_ops)) = (s', Ok tt) /\
    List.length (run lin_interp ex_ops) = 8%nat /\ List.length (ws_strips s') = 10%nat.
Proof. eexists. split; [vm_compute; reflexivity|]. vm_compute. auto. Qed.
Print Assumptions C58_bad_count.
