(** Model of the automatic panel counts (aero/vlm.py:49-77, [set_autopanels]) and of the
    wing-level quantities of objects/aircraft.py: [Wing.span] (344-350), [Wing.area] (335-341),
    [Aircraft.area] (156-163), the segment positions computed in [Wing.generate] (403-408).

    Simplifications: spans, chords and ratios are exact rationals (the rounding of
    [segment_span/wing_span*autopanels_s] before [ceil] is not modelled); the vertex-based
    continuity warnings of [Wing.generate] (410-498) only write log messages; see JoinModel. *)
From Coq Require Import List String ZArith QArith Qround Qabs Bool.
From Verif Require Import PyBase StripModel AircraftModel.
Import ListNotations.
Open Scope Q_scope.

(** vlm.py:46 *)
Definition MIN_AUTOPANELS : Z := 1.

(** [Wing.span] (aircraft.py:344-350): sum of the absolute segment spans. *)
Definition wing_span (w : wing) : Q :=
  fold_left (fun sp x => sp + Qabs (ws_span (snd x))) (w_segs w) 0.

Definition set_num_c (s : wsegment) (n : option Z) : wsegment :=
  mkWS (ws_uid s) n (ws_num_s s) (ws_span s) (ws_strips s).
Definition set_num_s (s : wsegment) (n : option Z) : wsegment :=
  mkWS (ws_uid s) (ws_num_c s) n (ws_span s) (ws_strips s).
Definition set_wc_num_c (c : wcontrol) (n : option Z) : wcontrol :=
  mkWC (wc_ctl c) n (wc_deflection c) (wc_deflection_mirror c) (wc_inner c) (wc_outer c)
    (wc_eta_inner c) (wc_eta_outer c) (wc_xsi_inner c) (wc_xsi_outer c) (wc_h_inner c) (wc_h_outer c).

(** Body of the first loop (63-71) for one segment; [W] is [segment.parent_wing.span]. *)
Definition auto_segment (W : Q) (ac as_ : Z) (s : wsegment) : wsegment * res unit :=
  let s1 := match ws_num_c s with None => set_num_c s (Some ac) | Some _ => s end in
  match ws_num_s s1 with
  | Some _ => (s1, Ok tt)
  | None =>
    if Qeqb W 0 then (s1, Err ZeroDivisionError)
    else (set_num_s s1 (Some (Qceiling (ws_span s1 / W * inject_Z as_))), Ok tt)
  end.

(** The first loop over the segments of one wing; an exception stops it. *)
Fixpoint auto_segments (W : Q) (ac as_ : Z) (l : dict wsegment) : dict wsegment * res unit :=
  match l with
  | [] => ([], Ok tt)
  | (k, s) :: l' =>
    let '(s', r) := auto_segment W ac as_ s in
    match r with
    | Err e => ((k, s') :: l', Err e)
    | Ok _ => let '(l2, r2) := auto_segments W ac as_ l' in ((k, s') :: l2, r2)
    end
  end.

Definition set_segs (w : wing) (l : dict wsegment) : wing := mkWing (w_uid w) (w_symmetry w) l (w_ctls w).
Definition set_ctls (w : wing) (l : dict wcontrol) : wing := mkWing (w_uid w) (w_symmetry w) (w_segs w) l.

(** The first loop over all wings (61-71). *)
Fixpoint auto_wings (ac as_ : Z) (l : dict wing) : dict wing * res unit :=
  match l with
  | [] => ([], Ok tt)
  | (k, w) :: l' =>
    let '(segs, r) := auto_segments (wing_span w) ac as_ (w_segs w) in
    match r with
    | Err e => ((k, set_segs w segs) :: l', Err e)
    | Ok _ => let '(l2, r2) := auto_wings ac as_ l' in ((k, set_segs w segs) :: l2, r2)
    end
  end.

(** The second loop (73-77). *)
Definition auto_control (ac : Z) (c : wcontrol) : wcontrol :=
  match wc_num_c c with None => set_wc_num_c c (Some ac) | Some _ => c end.
Definition auto_controls (ac : Z) (w : wing) : wing :=
  set_ctls w (map (fun x => (fst x, auto_control ac (snd x))) (w_ctls w)).

(** [set_autopanels] (49-77).  [oc], [os] are the entries 'vlm_autopanels_c'/'_s' of the
    settings dictionary, [None] if absent ([dict.get] with default). *)
Definition set_autopanels (oc os : option Z) (a : aircraft) : aircraft * res unit :=
  let ac := match oc with Some n => n | None => MIN_AUTOPANELS end in
  let as_ := match os with Some n => n | None => MIN_AUTOPANELS end in
  let '(ws, r) := auto_wings ac as_ (a_wings a) in
  match r with
  | Err e => (mkAC (a_uid a) ws, Err e)
  | Ok _ => (mkAC (a_uid a) (map (fun x => (fst x, auto_controls ac (snd x))) ws), Ok tt)
  end.

(** ** Positions, span and area *)

(** The geometry entries of a segment that [Wing.generate] and the area properties read. *)
Record seggeo := mkSG { g_span : Q; g_inner_chord : Q; g_outer_chord : Q }.

(** [Wing.span] on these. *)
Definition span_of (l : list seggeo) : Q := fold_left (fun sp g => sp + Qabs (g_span g)) l 0.

(** The position loop of [Wing.generate] (403-408): (inner, outer) for every segment. *)
Fixpoint positions_from (pos W : Q) (l : list seggeo) : list (Q * Q) :=
  match l with
  | [] => []
  | g :: l' => (pos / W, (pos + g_span g) / W) :: positions_from (pos + g_span g) W l'
  end.
(** A zero span is a division by zero at the first segment. *)
Definition positions (l : list seggeo) : res (list (Q * Q)) :=
  if (Qeqb (span_of l) 0 && negb (match l with [] => true | _ => false end))%bool then Err ZeroDivisionError
  else Ok (positions_from 0 (span_of l) l).

(** [WingSegment.area] (aircraft.py:640-644), [Wing.area] (335-341), [Aircraft.area] (156-163). *)
Definition seg_area (g : seggeo) : Q := g_span g * (1 # 2) * (g_inner_chord g + g_outer_chord g).
Definition wing_area (l : list seggeo) : Q := fold_left (fun a g => a + seg_area g) l 0.
Definition aircraft_area (ws : list (list seggeo)) : Q := fold_left (fun a w => a + wing_area w) ws 0.
