(** Model of the spanwise/chordwise subdivision of a wing segment:
    /repo/src/lib/pytornado/objects/aircraft.py, classes [WingSegment]
    (strip handling only), [SegmentStrip] and [StripSubdivision].

    Simplifications:
    - eta and xsi are exact rationals (rounding of the few [+]/[-] is not modelled);
    - the keys 0, 1, 2, ... of [WingSegment.subdivision] are the positions in a list
      (lines 626, 755 and 773: a new key is always the current length);
    - a Python reference to a strip is its position in the list;
    - log messages are dropped;
    - [xsi_interpol] (lines 2059-2093) is a Section variable here: it may return any
      value or raise.  It is modelled over R in [GeomModel.v]. *)
From Coq Require Import List String QArith Bool Arith.
From Verif Require Import PyBase.
Import ListNotations.
Open Scope Q_scope.

(** aircraft.py:66-67 *)
Definition MIN_XSI_LIMIT : Q := 1 # 100.
Definition MIN_ETA_LIMIT : Q := 1 # 100.

(** [WingControl.device_type]: the setter (aircraft.py:1412-1420) only admits
    'slat' and 'flap'; [None] below stands for a control whose type was never set
    (aircraft.py:1386). *)
Inductive dkind := Slat | Flap.
Definition dkind_eqb (a b : dkind) : bool :=
  match a, b with Slat, Slat => true | Flap, Flap => true | _, _ => false end.

(** The parts of a [WingControl] object that the strips look at. *)
Record control := mkControl { ct_uid : string; ct_type : option dkind }.

(** Keys of [SegmentStrip.subarea]: 'segment', 'slat', 'flap' (aircraft.py:1575, 1692, 1704). *)
Inductive akind := ASegment | ADev (k : dkind).
Definition akind_eqb (a b : akind) : bool :=
  match a, b with
  | ASegment, ASegment => true
  | ADev x, ADev y => dkind_eqb x y
  | _, _ => false
  end.

(** [StripSubdivision] (aircraft.py:1778-1805): xsi_a/xsi_d are on the inner edge of the strip,
    xsi_b/xsi_c on the outer edge; [sa_hinge] is [rel_hinge_vertices] (1990-1992),
    absent for the 'segment' subarea. *)
Record subarea := mkSub {
  sa_type : akind;
  xsi_a : Q; xsi_b : Q; xsi_c : Q; xsi_d : Q;
  sa_hinge : option (Q * Q);
  sa_ctrl : option control }.

(** [StripSubdivision.__init__] (1794-1805): note that xsi_c and xsi_d are swapped. *)
Definition new_subarea (va vb vc vd : Q) (ty : akind) : subarea :=
  {| sa_type := ty; xsi_a := va; xsi_b := vb; xsi_c := vd; xsi_d := vc;
     sa_hinge := None; sa_ctrl := None |}.

(** [SegmentStrip] (1548-1575). [st_subs] is the ordered dictionary [subarea]. *)
Record strip := mkStrip {
  eta_a : Q; eta_b : Q; eta_c : Q; eta_d : Q;
  st_subs : list (akind * subarea) }.

Fixpoint sget (l : list (akind * subarea)) (k : akind) : option subarea :=
  match l with
  | [] => None
  | (k', v) :: l' => if akind_eqb k k' then Some v else sget l' k
  end.

(** In-place update of an existing entry / insertion at the end. *)
Fixpoint sset (l : list (akind * subarea)) (k : akind) (v : subarea) : list (akind * subarea) :=
  match l with
  | [] => [(k, v)]
  | (k', v') :: l' => if akind_eqb k k' then (k', v) :: l' else (k', v') :: sset l' k v
  end.

Definition smem (l : list (akind * subarea)) (k : akind) : bool :=
  match sget l k with Some _ => true | None => false end.

(** [SegmentStrip.__init__] (1548-1575): one 'segment' subarea from 0 to 1. *)
Definition new_strip (ea eb ec ed : Q) : strip :=
  {| eta_a := ea; eta_b := eb; eta_c := ec; eta_d := ed;
     st_subs := [(ASegment, new_subarea 0 0 1 1 ASegment)] |}.

(** A segment is its list of strips ([WingSegment.subdivision]). *)
Definition segment := list strip.

(** [WingSegment.__init__] (619-626). *)
Definition new_segment : segment := [new_strip 0 1 1 0].

(** Setters for the fields that the code mutates. *)
Definition set_ab (v : subarea) (a b : Q) : subarea :=
  {| sa_type := sa_type v; xsi_a := a; xsi_b := b; xsi_c := xsi_c v; xsi_d := xsi_d v;
     sa_hinge := sa_hinge v; sa_ctrl := sa_ctrl v |}.
Definition set_cd (v : subarea) (c d : Q) : subarea :=
  {| sa_type := sa_type v; xsi_a := xsi_a v; xsi_b := xsi_b v; xsi_c := c; xsi_d := d;
     sa_hinge := sa_hinge v; sa_ctrl := sa_ctrl v |}.
Definition set_hinge (v : subarea) (h1 h2 : Q) : subarea :=
  {| sa_type := sa_type v; xsi_a := xsi_a v; xsi_b := xsi_b v; xsi_c := xsi_c v; xsi_d := xsi_d v;
     sa_hinge := Some (h1, h2); sa_ctrl := sa_ctrl v |}.
Definition set_ctrl (v : subarea) (c : control) : subarea :=
  {| sa_type := sa_type v; xsi_a := xsi_a v; xsi_b := xsi_b v; xsi_c := xsi_c v; xsi_d := xsi_d v;
     sa_hinge := sa_hinge v; sa_ctrl := Some c |}.
Definition set_subs (s : strip) (l : list (akind * subarea)) : strip :=
  {| eta_a := eta_a s; eta_b := eta_b s; eta_c := eta_c s; eta_d := eta_d s; st_subs := l |}.
Definition set_bc (s : strip) (b c : Q) : strip :=
  {| eta_a := eta_a s; eta_b := b; eta_c := c; eta_d := eta_d s; st_subs := st_subs s |}.

(** [self.subarea[k].rel_vertices[...] = ...] (and the like): mutate one subarea;
    KeyError if the entry is missing. *)
Definition upd_sub (s : strip) (k : akind) (f : subarea -> subarea) : strip * res unit :=
  match sget (st_subs s) k with
  | Some v => (set_subs s (sset (st_subs s) k (f v)), Ok tt)
  | None => (s, Err KeyError)
  end.

(** Run [f] on the mutated strip unless an exception was raised. *)
Definition then_ (p : strip * res unit) (f : strip -> strip * res unit) : strip * res unit :=
  match p with
  | (s, Ok _) => f s
  | (s, Err e) => (s, Err e)
  end.

(** xsi outside the open interval (0,1): aircraft.py:1668-1670 *)
Definition xsi_bad (x : Q) : bool := Qleb x 0 || Qleb 1 x.
(** hinge outside [0,1]: aircraft.py:1672-1674 *)
Definition hinge_bad (x : Q) : bool := Qltb x 0 || Qltb 1 x.

(** [SegmentStrip._add_subarea] (1633-1714).  Result: the strip after the call and
    the outcome.  The optional hinge arguments default to the line (1660-1666). *)
Definition add_subarea (s : strip) (c : control) (xsi1 xsi2 : Q) (oh1 oh2 : option Q)
  : strip * res unit :=
  match ct_type c with
  | None => (s, Err ValueError)                                        (* 1654-1655 *)
  | Some k =>
    if smem (st_subs s) (ADev k) then (s, Err ValueError)              (* 1657-1658 *)
    else
      let h1 := match oh1 with Some h => h | None => xsi1 end in
      let h2 := match oh2 with Some h => h | None => xsi2 end in
      if xsi_bad xsi2 || xsi_bad xsi1 then (s, Err ValueError)
      else if hinge_bad h1 || hinge_bad h2 then (s, Err ValueError)
      else if match sget (st_subs s) (ADev Slat) with                  (* 1676-1679 *)
              | Some v => Qltb xsi1 (xsi_d v + MIN_XSI_LIMIT) || Qltb xsi2 (xsi_c v + MIN_XSI_LIMIT)
              | None => false end then (s, Err ValueError)
      else if match sget (st_subs s) (ADev Flap) with                  (* 1681-1684 *)
              | Some v => Qltb (xsi_a v) (xsi1 + MIN_XSI_LIMIT) || Qltb (xsi_b v) (xsi2 + MIN_XSI_LIMIT)
              | None => false end then (s, Err ValueError)
      else
        then_
          match k with
          | Slat =>                                                    (* 1686-1696 *)
            upd_sub (set_subs s (sset (st_subs s) (ADev Slat) (new_subarea 0 0 xsi1 xsi2 (ADev Slat))))
              ASegment (fun v => set_ab v xsi1 xsi2)
          | Flap =>                                                    (* 1698-1708 *)
            upd_sub (set_subs s (sset (st_subs s) (ADev Flap) (new_subarea xsi1 xsi2 1 1 (ADev Flap))))
              ASegment (fun v => set_cd v xsi2 xsi1)
          end
          (fun s2 => upd_sub s2 (ADev k) (fun v => set_ctrl (set_hinge v h1 h2) c))   (* 1711-1712 *)
  end.

(** [SegmentStrip._update_subarea] (1727-1759). *)
Definition update_subarea (s : strip) (k : dkind) (xsi1 xsi2 h1 h2 : Q) : strip * res unit :=
  match k with
  | Slat =>
    then_ (upd_sub s (ADev Slat) (fun v => set_cd v xsi2 xsi1)) (fun s1 =>
    then_ (upd_sub s1 ASegment (fun v => set_ab v xsi1 xsi2)) (fun s2 =>
    upd_sub s2 (ADev Slat) (fun v => set_hinge v h1 h2)))
  | Flap =>
    then_ (upd_sub s (ADev Flap) (fun v => set_ab v xsi1 xsi2)) (fun s1 =>
    then_ (upd_sub s1 ASegment (fun v => set_cd v xsi2 xsi1)) (fun s2 =>
    upd_sub s2 (ADev Flap) (fun v => set_hinge v h1 h2)))
  end.

(** [StripSubdivision.rel_length] (1807-1821). *)
Definition rel_length (v : subarea) : Q :=
  (1 # 2) * ((xsi_c v + xsi_d v) - (xsi_a v + xsi_b v)).

(** [WingSegment._get_subdiv_at_eta] (814-836): first strip with eta_a <= eta < eta_b;
    [None] is the implicit [return None] at the end of the loop. *)
Fixpoint get_subdiv_from (i : nat) (seg : segment) (eta : Q) : option (nat * strip * bool) :=
  match seg with
  | [] => None
  | s :: seg' =>
    if Qleb (eta_a s) eta && Qltb eta (eta_b s)
    then Some (i, s, Qeqb eta (eta_a s))
    else get_subdiv_from (S i) seg' eta
  end.
Definition get_subdiv_at_eta (seg : segment) (eta : Q) := get_subdiv_from 0 seg eta.

(** [WingSegment._get_outer_neighbour_subdiv] (838-859). *)
Fixpoint outer_neighbour_from (i : nat) (seg : segment) (eta : Q) (best : Q * option nat)
  : Q * option nat :=
  match seg with
  | [] => best
  | s :: seg' =>
    let diff := eta - eta_a s in
    let best' := if Qltb diff (fst best) && Qleb 0 diff then (diff, Some i) else best in
    outer_neighbour_from (S i) seg' eta best'
  end.
Definition get_outer_neighbour (seg : segment) (eta : Q) : option nat :=
  snd (outer_neighbour_from 0 seg (eta + MIN_ETA_LIMIT / 10) (1, None)).

Section Segment.

(** [xsi_interpol(self.vertices, rel_inner, rel_outer, eta)] for the segment at hand. *)
Variable interp : Q * Q -> Q * Q -> Q -> res Q.

(** Inheritance of one device when strip [ip] is cut and the new strip is [inew]
    (783-795 for the flap, 798-810 for the slat).  The mutations before an exception
    are kept. [ea], [eb] are the old borders of the cut strip. *)
Definition inherit (seg : segment) (ip inew : nat) (k : dkind) (ea eb eta : Q)
  : segment * res unit :=
  match nth_error seg ip with
  | None => (seg, Err KeyError)
  | Some sp =>
    match sget (st_subs sp) (ADev k) with
    | None => (seg, Ok tt)
    | Some v =>
      let xsi1 := match k with Flap => xsi_a v | Slat => xsi_d v end in
      let xsi2 := match k with Flap => xsi_b v | Slat => xsi_c v end in
      match sa_hinge v, sa_ctrl v with
      | Some (h1, h2), Some c =>
        match interp (ea, xsi1) (eb, xsi2) eta with
        | Err e => (seg, Err e)
        | Ok xs =>
          match interp (ea, h1) (eb, h2) eta with
          | Err e => (seg, Err e)
          | Ok hs =>
            match nth_error seg inew with
            | None => (seg, Err KeyError)
            | Some sn =>
              let '(sn', r) := add_subarea sn c xs xsi2 (Some hs) (Some h2) in
              let seg1 := set_nth seg inew sn' in
              match r with
              | Err e => (seg1, Err e)
              | Ok _ =>
                let '(sp', r') := update_subarea sp k xsi1 xs h1 hs in
                (set_nth seg1 ip sp', r')
              end
            end
          end
        end
      | _, _ => (seg, Err AttributeError)   (* no hinge/control on a device: see _add_subarea *)
      end
    end
  end.

(** [WingSegment.add_subdivision] (726-812).  Result: the (possibly mutated) segment and
    the returned strip ([Some i]) or [None] (751), or the exception. *)
Definition add_subdivision (seg : segment) (etaA etaD : Q) (ignore_inval_eta : bool)
  : segment * res (option nat) :=
  if Qleb etaA 0 || Qleb 1 etaA then                                     (* 747-753 *)
    (seg, if ignore_inval_eta then Ok None else Err ValueError)
  else
    let inew := List.length seg in                                       (* 755 *)
    match get_subdiv_at_eta seg etaA with                                (* 756 *)
    | None => (seg, Err TypeError)           (* unpacking None *)
    | Some (ip, sp, on_border) =>
      if on_border then (seg, Ok (Some ip))                              (* 758-760 *)
      else if Qltb (etaA - eta_a sp) MIN_ETA_LIMIT then (seg, Ok (Some ip))   (* 762-765 *)
      else
        let sn := new_strip etaA (eta_b sp) (eta_c sp) etaD in           (* 768-773 *)
        let ea := eta_a sp in let eb := eta_b sp in                      (* 775-776 *)
        let seg1 := set_nth (seg ++ [sn]) ip (set_bc sp etaA etaD) in    (* 779-780 *)
        let '(seg2, r2) := inherit seg1 ip inew Flap ea eb etaA in
        match r2 with
        | Err e => (seg2, Err e)
        | Ok _ =>
          let '(seg3, r3) := inherit seg2 ip inew Slat ea eb etaA in
          match r3 with
          | Err e => (seg3, Err e)
          | Ok _ => (seg3, Ok (Some inew))
          end
        end
    end.

(** A row of [sd_list] (896): strip, xsi1, xsi2, xsi_h1, xsi_h2. *)
Record row := mkRow { r_idx : nat; r_x1 : Q; r_x2 : Q; r_h1 : Q; r_h2 : Q }.

(** [sd_list[-1][2] = xsi_div; sd_list[-1][4] = xsi_h_div; sd_list.append([...])]
    (916-920 and 932-934); the list is kept reversed, last row first. *)
Definition push_row (rows : list row) (i : nat) (xd hd x2 h2 : Q) : list row :=
  match rows with
  | [] => [mkRow i xd x2 hd h2]
  | r :: rs => mkRow i xd x2 hd h2 :: mkRow (r_idx r) (r_x1 r) xd (r_h1 r) hd :: rs
  end.

(** The while loop of CASE 3 (923-939).  [k] is 100 minus the value of [n] before the
    iteration, so running out of [k] is exactly the "Too many loops" RuntimeError. *)
Fixpoint control_loop (seg : segment) (etaA etaB xsi1 xsi2 h1 h2 : Q) (k : nat)
  (rows : list row) (cur : nat) (eta_rn : Q) : res (list row * nat) :=
  if Qltb eta_rn etaB then
    match get_outer_neighbour seg eta_rn with
    | None => Err AttributeError
    | Some nb =>
      match nth_error seg nb, nth_error seg cur with
      | Some snb, Some slast =>
        let? xd := interp (etaA, xsi1) (etaB, xsi2) (eta_b slast) in
        let? hd := interp (etaA, h1) (etaB, h2) (eta_b slast) in
        let rows' := push_row rows nb xd hd xsi2 h2 in
        match k with
        | O => Err RuntimeError
        | S k' => control_loop seg etaA etaB xsi1 xsi2 h1 h2 k' rows' nb (eta_b snb)
        end
      | _, _ => Err KeyError
      end
    end
  else Ok (rows, cur).

(** 945-948: add the subarea to every listed strip; an exception keeps the earlier additions. *)
Fixpoint add_rows (seg : segment) (c : control) (rows : list row) : segment * res unit :=
  match rows with
  | [] => (seg, Ok tt)
  | r :: rs =>
    match nth_error seg (r_idx r) with
    | None => (seg, Err KeyError)
    | Some s =>
      let '(s', o) := add_subarea s c (r_x1 r) (r_x2 r) (Some (r_h1 r)) (Some (r_h2 r)) in
      let seg' := set_nth seg (r_idx r) s' in
      match o with
      | Err e => (seg', Err e)
      | Ok _ => add_rows seg' c rs
      end
    end
  end.

(** [WingSegment.add_subdivision_for_control] (861-950).  The return value
    (first row of the list) is dropped. *)
Definition add_subdivision_for_control (seg : segment) (etaA etaB : Q) (c : control)
  (xsi1 xsi2 : Q) (oh1 oh2 : option Q) : segment * res unit :=
  let h1 := match oh1 with Some h => h | None => xsi1 end in            (* 878-884 *)
  let h2 := match oh2 with Some h => h | None => xsi2 end in
  let '(seg1, r1) :=
    if Qeqb etaA 0 then (seg, Ok (Some O))                               (* 887-888 *)
    else add_subdivision seg etaA etaA false in                          (* 890 *)
  match r1 with
  | Err e => (seg1, Err e)
  | Ok None => (seg1, Err AttributeError)
  | Ok (Some i1) =>
    match nth_error seg1 i1 with
    | None => (seg1, Err KeyError)
    | Some sd1 =>
      let eta_b_sd1 := eta_b sd1 in                                      (* 893 *)
      let row1 := mkRow i1 xsi1 xsi2 h1 h2 in                            (* 896 *)
      if Qeqb etaB eta_b_sd1 then                                        (* CASE 1, 899-900 *)
        add_rows seg1 c [row1]
      else if Qltb etaB eta_b_sd1 then                                   (* CASE 2, 903-904 *)
        let '(seg2, r2) := add_subdivision seg1 etaB etaB false in
        match r2 with
        | Err e => (seg2, Err e)
        | Ok _ => add_rows seg2 c [row1]
        end
      else                                                               (* CASE 3, 907-943 *)
        match get_outer_neighbour seg1 eta_b_sd1 with
        | None => (seg1, Err AttributeError)
        | Some nb =>
          match nth_error seg1 nb with
          | None => (seg1, Err KeyError)
          | Some snb =>
            match (let? xd := interp (etaA, xsi1) (etaB, xsi2) eta_b_sd1 in
                   let? hd := interp (etaA, h1) (etaB, h2) eta_b_sd1 in
                   let rows := push_row [row1] nb xd hd xsi2 h2 in
                   control_loop seg1 etaA etaB xsi1 xsi2 h1 h2 100 rows nb (eta_b snb)) with
            | Err e => (seg1, Err e)
            | Ok (rows, last) =>
              match nth_error seg1 last with
              | None => (seg1, Err KeyError)
              | Some slast =>
                let '(seg2, r2) :=
                  if Qltb etaB (eta_b slast)                             (* 942-943 *)
                  then add_subdivision seg1 etaB etaB false
                  else (seg1, Ok None) in
                match r2 with
                | Err e => (seg2, Err e)
                | Ok _ => add_rows seg2 c (rev rows)
                end
              end
            end
          end
        end
    end
  end.

(** What can be done to the strips of a segment through the API. *)
Inductive op :=
| OpSubdiv (etaA etaD : Q) (ignore : bool)
| OpControl (etaA etaB : Q) (c : control) (x1 x2 : Q) (oh1 oh2 : option Q).

Definition step (seg : segment) (o : op) : segment :=
  match o with
  | OpSubdiv a d ig => fst (add_subdivision seg a d ig)
  | OpControl a b c x1 x2 h1 h2 => fst (add_subdivision_for_control seg a b c x1 x2 h1 h2)
  end.

Definition run (ops : list op) : segment := fold_left step ops new_segment.

End Segment.

(** Linear interpolation in eta: what [xsi_interpol] computes on a segment with parallel
    edges of equal length (used in examples and witnesses only). *)
Definition lin_interp (p q : Q * Q) (eta : Q) : res Q :=
  let '(e1, x1) := p in let '(e2, x2) := q in
  if Qeqb e1 e2 then Err RuntimeError
  else Ok (Qred (x1 + (x2 - x1) * ((eta - e1) / (e2 - e1)))).
