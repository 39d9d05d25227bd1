(** Model of [pre_panelling] (aero/vlm.py:80-227): placing the controls on the strips of the
    wing segments and adding the regular spanwise divisions.

    Simplifications:
    - positions are exact rationals; [np.linspace(0, 1, n+1)] (223) is the list i/n;
    - [xsi_interpol] (inside [add_subdivision*]) and the distance between two points of a
      segment (180-187: coordinates and a square root) are Section variables, indexed by the
      wing and segment uid;
    - [lin_interpol] of commonlibs (external) is linear interpolation, an exception for a
      zero-length interval;
    - relative positions that were never set (None) are outside the model: the control has
      passed [WingControl.check], or arithmetic on None is a TypeError anyway;
    - log messages are dropped. *)
From Coq Require Import List String ZArith QArith Bool.
From Verif Require Import PyBase StripModel AircraftModel WingModel.
Import ListNotations.
Open Scope Q_scope.

Definition set_strips (s : wsegment) (l : segment) : wsegment :=
  mkWS (ws_uid s) (ws_num_c s) (ws_num_s s) (ws_span s) l.

(** A row of [list_of_segments] (129-138): uid, etas, device line, hinge line. *)
Record prow := mkPR { p_seg : string; p_eta1 : Q; p_eta2 : Q; p_x1 : Q; p_x2 : Q; p_h1 : Q; p_h2 : Q }.

Definition opt_is (o : option string) (k : string) : bool :=
  match o with Some s => String.eqb k s | None => false end.

(** The loop that collects the segments (148-168).  [started] is [inner_set]; the loop is left
    at the outer segment, so [outer_set] is never True inside it. *)
Fixpoint collect (c : wcontrol) (h1 h2 : Q) (keys : list string) (started : bool) : list prow :=
  let xavg := (wc_xsi_inner c + wc_xsi_outer c) / 2 in                              (* 145 *)
  let havg := (h1 + h2) / 2 in                                                      (* 146 *)
  match keys with
  | [] => []
  | k :: ks =>
    if opt_is (wc_inner c) k then
      mkPR k (wc_eta_inner c) 1 (wc_xsi_inner c) xavg h1 havg :: collect c h1 h2 ks true
    else if started then
      if opt_is (wc_outer c) k then [mkPR k 0 (wc_eta_outer c) xavg (wc_xsi_outer c) havg h2]
      else mkPR k 0 1 xavg xavg havg havg :: collect c h1 h2 ks true
    else collect c h1 h2 ks false
  end.

(** [lin_interpol((y1, y2), (x1, x2), x)] of commonlibs.math.interpolation (external). *)
Definition lin_interpol (y1 y2 x1 x2 x : Q) : res Q :=
  if Qeqb x1 x2 then Err LibError else Ok (y1 + (y2 - y1) / (x2 - x1) * (x - x1)).

Section PrePanel.
(** [xsi_interpol] on segment [s] of wing [w]. *)
Variable interp : string -> string -> Q * Q -> Q * Q -> Q -> res Q.
(** Distance between two points (eta, xsi) of segment [s] of wing [w] (180-187). *)
Variable seg_dist : string -> string -> Q * Q -> Q * Q -> Q.

(** [control_len] (172-187): the running length, starting at 0. *)
Fixpoint lengths (w : string) (l : Q) (rows : list prow) : list Q :=
  match rows with
  | [] => [l]
  | r :: rs => l :: lengths w (l + seg_dist w (p_seg r) (p_eta1 r, p_x1 r) (p_eta2 r, p_x2 r)) rs
  end.

(** The update loop (192-205). *)
Fixpoint adjust (c : wcontrol) (h1 h2 l : Q) (rows : list prow) (ls : list Q) : res (list prow) :=
  match rows, ls with
  | r :: rs, li :: ((lo :: _) as ls') =>
    let? xi := lin_interpol (wc_xsi_inner c) (wc_xsi_outer c) 0 l li in
    let? xo := lin_interpol (wc_xsi_inner c) (wc_xsi_outer c) 0 l lo in
    let? hi := lin_interpol h1 h2 0 l li in
    let? ho := lin_interpol h1 h2 0 l lo in
    let? rest := adjust c h1 h2 l rs ls' in
    Ok (mkPR (p_seg r) (p_eta1 r) (p_eta2 r) xi xo hi ho :: rest)
  | _, _ => Ok []
  end.

(** Rows of CASE (B) after the optional adjustment (170-205). *)
Definition case_b_rows (wuid : string) (w : wing) (c : wcontrol) (h1 h2 : Q) : res (list prow) :=
  let rows := collect c h1 h2 (dkeys (w_segs w)) false in
  if (negb (Qeqb (wc_xsi_inner c) (wc_xsi_outer c)) || negb (Qeqb h1 h2))%bool then
    let ls := lengths wuid 0 rows in
    adjust c h1 h2 (last ls 0) rows ls
  else Ok rows.

(** [wing.segments[uid].add_subdivision_for_control(...)]. *)
Definition on_segment (wuid : string) (w : wing) (o : option string) (e1 e2 : Q) (c : control)
  (x1 x2 : Q) (h1 h2 : option Q) : wing * res unit :=
  match o with
  | None => (w, Err KeyError)
  | Some u =>
    match dget (w_segs w) u with
    | None => (w, Err KeyError)
    | Some s =>
      let '(l, r) := add_subdivision_for_control (interp wuid u) (ws_strips s) e1 e2 c x1 x2 h1 h2 in
      (set_segs w (dset (w_segs w) u (set_strips s l)), r)
    end
  end.

(** 208-212: place the rows one after the other. *)
Fixpoint place_rows (wuid : string) (w : wing) (c : control) (rows : list prow) : wing * res unit :=
  match rows with
  | [] => (w, Ok tt)
  | r :: rs =>
    let '(w', o) := on_segment wuid w (Some (p_seg r)) (p_eta1 r) (p_eta2 r) c (p_x1 r) (p_x2 r) (Some (p_h1 r)) (Some (p_h2 r)) in
    match o with
    | Err e => (w', Err e)
    | Ok _ => place_rows wuid w' c rs
    end
  end.

Definition same_opt (a b : option string) : bool :=
  match a, b with
  | Some x, Some y => String.eqb x y
  | None, None => true
  | _, _ => false
  end.

(** Body of the loop over the controls (101-212). *)
Definition place_wing_control (wuid : string) (w : wing) (c : wcontrol) : wing * res unit :=
  if same_opt (wc_inner c) (wc_outer c) then                                        (* CASE (A), 121-124 *)
    on_segment wuid w (wc_inner c) (wc_eta_inner c) (wc_eta_outer c) (wc_ctl c)
      (wc_xsi_inner c) (wc_xsi_outer c) (wc_h_inner c) (wc_h_outer c)
  else                                                                              (* CASE (B) *)
    match wc_h_inner c, wc_h_outer c with
    | Some h1, Some h2 =>
      match case_b_rows wuid w c h1 h2 with
      | Err e => (w, Err e)
      | Ok rows => place_rows wuid w (wc_ctl c) rows
      end
    | _, _ => (w, Err TypeError)                                                    (* 146: None + ... *)
    end.

Fixpoint place_controls (wuid : string) (w : wing) (l : list wcontrol) : wing * res unit :=
  match l with
  | [] => (w, Ok tt)
  | c :: cs =>
    let '(w', o) := place_wing_control wuid w c in
    match o with
    | Err e => (w', Err e)
    | Ok _ => place_controls wuid w' cs
    end
  end.

(** Apply [f] to the wings one after the other; an exception stops. *)
Fixpoint each_wing (f : string -> wing -> wing * res unit) (l : dict wing) : dict wing * res unit :=
  match l with
  | [] => ([], Ok tt)
  | (k, w) :: l' =>
    let '(w', o) := f k w in
    match o with
    | Err e => ((k, w') :: l', Err e)
    | Ok _ => let '(l2, o2) := each_wing f l' in ((k, w') :: l2, o2)
    end
  end.

(** [np.linspace(0, 1, num_s+1)] (223): a negative number of samples is a ValueError. *)
Definition linspace_etas (n : Z) : res (list Q) :=
  if Z.ltb (n + 1) 0 then Err ValueError
  else if Z.eqb n 0 then Ok [0]
  else Ok (map (fun i => inject_Z (Z.of_nat i) / inject_Z n) (seq 0 (Z.to_nat (n + 1)))).

(** The inner loop of part two (223-226). *)
Fixpoint add_lines (ip : Q * Q -> Q * Q -> Q -> res Q) (seg : segment) (etas : list Q) : segment * res unit :=
  match etas with
  | [] => (seg, Ok tt)
  | e :: es =>
    if (Qeqb e 0 || Qeqb e 1)%bool then add_lines ip seg es
    else
      let '(seg', o) := add_subdivision ip seg e e true in
      match o with
      | Err x => (seg', Err x)
      | Ok _ => add_lines ip seg' es
      end
  end.

Definition divide_segment (wuid suid : string) (s : wsegment) : wsegment * res unit :=
  match ws_num_s s with
  | None => (s, Err TypeError)                                                      (* None + 1 *)
  | Some n =>
    match linspace_etas n with
    | Err e => (s, Err e)
    | Ok etas => let '(l, o) := add_lines (interp wuid suid) (ws_strips s) etas in (set_strips s l, o)
    end
  end.

Fixpoint divide_segments (wuid : string) (l : dict wsegment) : dict wsegment * res unit :=
  match l with
  | [] => ([], Ok tt)
  | (k, s) :: l' =>
    let '(s', o) := divide_segment wuid k s in
    match o with
    | Err e => ((k, s') :: l', Err e)
    | Ok _ => let '(l2, o2) := divide_segments wuid l' in ((k, s') :: l2, o2)
    end
  end.

(** [pre_panelling] (80-227). *)
Definition pre_panelling (a : aircraft) : aircraft * res unit :=
  let '(ws, o) := each_wing (fun k w => place_controls k w (dvalues (w_ctls w))) (a_wings a) in
  match o with
  | Err e => (mkAC (a_uid a) ws, Err e)
  | Ok _ =>
    let '(ws2, o2) := each_wing (fun k w => let '(l, r) := divide_segments k (w_segs w) in (set_segs w l, r)) ws in
    (mkAC (a_uid a) ws2, o2)
  end.

End PrePanel.
