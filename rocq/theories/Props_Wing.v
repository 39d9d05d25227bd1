(** Property theorems: automatic panel counts, segment positions, span and area (C26, C27). *)
From Coq Require Import List String ZArith QArith Qabs.
From Verif Require Import PyBase StripModel AircraftModel WingModel WingSpec WingProofs Props_Strips Props_Lattice.
Import ListNotations.
Open Scope Q_scope.

(** C26: user values are kept, missing ones are filled; chordwise with the setting, spanwise with
    the smallest whole number that is at least the share of the segment in the wing span. *)
Theorem C26_autopanels :
  forall oc os a,
  (forall k w, In (k, w) (a_wings a) -> needs_span w -> 0 < total_span w) ->
  exists a', set_autopanels oc os a = (a', Ok tt) /\ a_uid a' = a_uid a /\
    dict_rel (wing_filled (or_one oc) (or_one os)) (a_wings a) (a_wings a').
Proof. exact autopanels_ok. Qed.
Print Assumptions C26_autopanels.

(** At least one panel per segment and at most the setting; in total at least the setting and
    less than the setting plus the number of segments. *)
Theorem C26_autopanel_bounds :
  forall w w' nc n, (1 <= n)%Z -> wing_filled nc n w w' ->
  (forall k s', In (k, s') (w_segs w') -> exists s, In (k, s) (w_segs w) /\
     (ws_num_s s = None -> 0 < ws_span s -> (1 <= count_s s' <= n)%Z)) /\
  (w_segs w <> [] -> (forall k s, In (k, s) (w_segs w) -> ws_num_s s = None /\ 0 < ws_span s) ->
   (n <= zsum (map (fun x => count_s (snd x)) (w_segs w')) < n + Z.of_nat (List.length (w_segs w)))%Z).
Proof.
  intros w w' nc n N F.
  exact (conj (panels_at_least_one w w' nc n N F) (fun NE H => panel_totals w w' nc n N F NE H)).
Qed.
Print Assumptions C26_autopanel_bounds.

(** A second run, even with other settings, changes nothing. *)
Theorem C26_autopanels_idempotent :
  forall oc os oc' os' a a', set_autopanels oc os a = (a', Ok tt) -> positive_spans a ->
  set_autopanels oc' os' a' = (a', Ok tt).
Proof.
  intros oc os oc' os' a a' E P.
  destruct (autopanels_ok oc os a (positive_total a P)) as (b & Eb & _ & D).
  rewrite E in Eb. injection Eb as ->. exact (autopanels_id oc' os' b (filled_all_set _ _ a b D)).
Qed.
Print Assumptions C26_autopanels_idempotent.

(** Zero span and a missing count: division by zero. *)
Theorem C26_autopanels_zero_span :
  forall oc os a, (exists k w, In (k, w) (a_wings a) /\ needs_span w /\ total_span w == 0) ->
  snd (set_autopanels oc os a) = Err ZeroDivisionError.
Proof. exact autopanels_error. Qed.
Print Assumptions C26_autopanels_zero_span.

(** Spans 5, 3 and 2 with 7 panels requested: 4 + 3 + 2; the second wing keeps its values. *)
Definition ex_auto : aircraft :=
  mkAC "ac" [("w", mkWing "w" 2 [("a", mkWS "a" None None 5 new_segment);
                                   ("b", mkWS "b" (Some 9%Z) None 3 new_segment);
                                   ("c", mkWS "c" None None 2 new_segment)] [("flap", mkWC ex_flap None None None None None 0 1 (1#2) (1#2) None None)]);
             ("fin", ex_fin)]%string.
Example C26_example :
  positive_spans ex_auto /\
  exists a', set_autopanels (Some 4%Z) (Some 7%Z) ex_auto = (a', Ok tt) /\
    map (fun x => map (fun y => (ws_num_c (snd y), ws_num_s (snd y))) (w_segs (snd x))) (a_wings a') =
      [[(Some 4, Some 4); (Some 9, Some 3); (Some 4, Some 2)]; [(Some 5, Some 2)]]%Z /\
    map (fun x => map (fun y => wc_num_c (snd y)) (w_ctls (snd x))) (a_wings a') = [[Some 4%Z]; []].
Proof.
  split.
  - intros wn w sn s [E|[E|[]]]; injection E as <- <-; cbn [w_segs].
    + intros [E|[E|[E|[]]]]; injection E as <- <-; reflexivity.
    + intros [E|[]]; injection E as <- <-; reflexivity.
  - eexists. split; [vm_compute; reflexivity|]. vm_compute. auto.
Qed.
Example C26_zero_example :
  exists a, (exists k w, In (k, w) (a_wings a) /\ needs_span w /\ total_span w == 0) /\
    snd (set_autopanels None None a) = Err ZeroDivisionError.
Proof.
  exists (mkAC "ac" [("w", mkWing "w" 0 [("a", mkWS "a" None None 0 new_segment)] [])])%string. split; [|reflexivity].
  eexists _, _. split; [left; reflexivity|]. split; [|reflexivity]. eexists _, _. split; [left; reflexivity|reflexivity].
Qed.

(** C27: the segments cover 0 to 1 one after the other, each with its share of the span. *)
Theorem C27_positions :
  forall l, l <> [] -> (forall g, In g l -> 0 < g_span g) ->
  exists ps, positions l = Ok ps /\ List.length ps = List.length l /\ chained 0 ps 1 /\
    forall i g a b, nth_error l i = Some g -> nth_error ps i = Some (a, b) ->
      (b - a) * qsum (map g_span l) == g_span g.
Proof. exact positions_ok. Qed.
Print Assumptions C27_positions.

(** Positions are missing only if no segment has any span: a division by zero. *)
Theorem C27_zero_span :
  forall l e, positions l = Err e <-> e = ZeroDivisionError /\ l <> [] /\ (forall g, In g l -> g_span g == 0).
Proof. exact positions_fail. Qed.
Print Assumptions C27_zero_span.

Theorem C27_areas :
  forall l ws,
  span_of l == qsum (map (fun g => Qabs (g_span g)) l) /\
  wing_area l == qsum (map (fun g => g_span g * (g_inner_chord g + g_outer_chord g) / 2) l) /\
  aircraft_area ws == qsum (map (fun w => qsum (map (fun g => g_span g * (g_inner_chord g + g_outer_chord g) / 2) w)) ws).
Proof. exact areas. Qed.
Print Assumptions C27_areas.

Example C27_zero_example : positions [mkSG 0 3 2; mkSG 0 2 1] = Err ZeroDivisionError.
Proof. reflexivity. Qed.
Example C27_example :
  exists ps, positions [mkSG 2 3 2; mkSG 1 2 1; mkSG 5 1 1] = Ok ps /\
    Forall2 (fun p q => fst p == fst q /\ snd p == snd q) ps [(0, 1#4); (1#4, 3#8); (3#8, 1)] /\
    wing_area [mkSG 2 3 2; mkSG 1 2 1; mkSG 5 1 1] == 23 # 2.
Proof.
  eexists. split; [vm_compute; reflexivity|]. split; [|vm_compute; reflexivity].
  repeat constructor; vm_compute; reflexivity.
Qed.
