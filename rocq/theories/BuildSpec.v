(** The aircraft that results from a session of calls, described from the list of calls alone. *)
From Coq Require Import List String ZArith QArith Bool.
From Verif Require Import PyBase StripModel AircraftModel.
Import ListNotations.

(** Names in the order of their first appearance, empty ones left out. *)
Fixpoint first_seen (seen : list string) (l : list string) : list string :=
  match l with
  | [] => []
  | u :: r => if (String.eqb u "" || existsb (String.eqb u) seen)%bool then first_seen seen r else u :: first_seen (u :: seen) r
  end.
Definition names (l : list string) : list string := first_seen [] l.

(** The calls after the one that made wing [w]. *)
Fixpoint since (w : string) (bs : list build) : list build :=
  match bs with
  | [] => []
  | b :: r => match b with BWing u => if String.eqb u w then r else since w r | _ => since w r end
  end.

Definition wing_calls (bs : list build) : list string := flat_map (fun b => match b with BWing u => [u] | _ => [] end) bs.
Definition segment_calls (w : string) (bs : list build) : list string :=
  flat_map (fun b => match b with BSegment w' u => if String.eqb w' w then [u] else [] | _ => [] end) bs.
Definition control_calls (w : string) (bs : list build) : list string :=
  flat_map (fun b => match b with BControl w' u => if String.eqb w' w then [u] else [] | _ => [] end) bs.
Definition symmetry_calls (w : string) (bs : list build) : list Z :=
  flat_map (fun b => match b with BSymmetry w' s => if (String.eqb w' w && (0 <=? s)%Z && (s <=? 3)%Z)%bool then [s] else [] | _ => [] end) bs.

(** The whole width and chord of a segment as one area, belonging to no control. *)
Definition plain_strip : strip := {|
  eta_a := 0; eta_b := 1; eta_c := 1; eta_d := 0;
  st_subs := [(ASegment, {| sa_type := ASegment; xsi_a := 0; xsi_b := 0; xsi_c := 1; xsi_d := 1; sa_hinge := None; sa_ctrl := None |})] |}.
Definition described_segment (u : string) : wsegment :=
  {| ws_uid := u; ws_num_c := None; ws_num_s := None; ws_span := 0; ws_strips := [plain_strip] |}.
Definition described_control (u : string) : wcontrol :=
  {| wc_ctl := {| ct_uid := u; ct_type := None |}; wc_num_c := None; wc_deflection := None; wc_deflection_mirror := None; wc_inner := None; wc_outer := None;
     wc_eta_inner := 0; wc_eta_outer := 0; wc_xsi_inner := 0; wc_xsi_outer := 0; wc_h_inner := None; wc_h_outer := None |}.
Definition described_wing (w : string) (bs : list build) : wing :=
  {| w_uid := w; w_symmetry := last (symmetry_calls w bs) 0%Z;
     w_segs := map (fun u => (u, described_segment u)) (names (segment_calls w bs));
     w_ctls := map (fun u => (u, described_control u)) (names (control_calls w bs)) |}.
Definition described (bs : list build) : aircraft :=
  {| a_uid := "aircraft"; a_wings := map (fun w => (w, described_wing w (since w bs))) (names (wing_calls bs)) |}.

(** What a call returns or raises after the calls [bs]. *)
Definition outcome (bs : list build) (b : build) : res unit :=
  let taken l u := existsb (String.eqb u) l in
  let add l u := if String.eqb u "" then Err ComponentDefinitionError else if taken l u then Err ValueError else Ok tt in
  let on w r := if (negb (String.eqb w "") && taken (wing_calls bs) w)%bool then r else Err KeyError in
  match b with
  | BWing u => add (wing_calls bs) u
  | BSegment w u => on w (add (segment_calls w (since w bs)) u)
  | BControl w u => on w (add (control_calls w (since w bs)) u)
  | BSymmetry w s => on w (if ((0 <=? s) && (s <=? 3))%Z then Ok tt else Err ValueError)
  end.
