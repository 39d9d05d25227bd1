(** The strips of [StripModel] and the division lines of [PrePanelModel] with rounded arithmetic: the
    same functions of objects/aircraft.py and aero/vlm.py, every [+ - * /] on relative positions
    being followed by a rounding.

    A finite double is a rational number, so positions stay in [Q]; comparisons are exact.  The
    rounding is a parameter; [rnd64] is the one of IEEE 754 double precision.

    Simplifications: those of [StripModel] except rounding; the exponent range is unbounded in
    [rnd64] (the numbers here are 0 or of magnitude between 2^-1022 and 2; a difference of doubles
    below 2^-1022 is exact anyway); no NaN. *)
From Coq Require Import List String ZArith QArith Qround Bool Arith.
From Verif Require Import PyBase StripModel.
Import ListNotations.
Open Scope Q_scope.

(** ** Rounding to 53 bits, to nearest, ties to even *)
Definition pow2 (k : Z) : Q := if (0 <=? k)%Z then inject_Z (2 ^ k) else 1 / inject_Z (2 ^ (- k)).
Definition round_even (q : Q) : Z :=
  let m := Qfloor q in let r := q - inject_Z m in
  match Qcompare r (1 # 2) with
  | Lt => m
  | Gt => (m + 1)%Z
  | Eq => if Z.even m then m else (m + 1)%Z
  end.
(** [k] with 2^52 <= q 2^k < 2^53, for q > 0. *)
Definition scale (q : Q) : Z :=
  let k := (52 - (Z.log2 (Qnum q) - Z.log2 (Zpos (Qden q))))%Z in
  if Qleb (inject_Z (2 ^ 52)) (q * pow2 k) then k else (k + 1)%Z.
Definition rnd_pos (q : Q) : Q := let k := scale q in Qred (inject_Z (round_even (q * pow2 k)) * pow2 (- k)).
Definition rnd64 (q : Q) : Q :=
  match Qcompare q 0 with Eq => 0 | Gt => rnd_pos q | Lt => - rnd_pos (- q) end.

Section Rounded.
Variable rnd : Q -> Q.
Definition fadd (x y : Q) : Q := rnd (x + y).
Definition fsub (x y : Q) : Q := rnd (x - y).
Definition fmul (x y : Q) : Q := rnd (x * y).
Definition fdiv (x y : Q) : Q := rnd (x / y).
(** MIN_XSI_LIMIT, MIN_ETA_LIMIT = 0.01 (66, 67): the literal is rounded. *)
Definition LIMIT : Q := rnd (1 # 100).

(** ** Strips *)

(** [SegmentStrip._add_subarea] (1633-1714).  Result: the strip after the call and
    the outcome.  The optional hinge arguments default to the line (1660-1666). *)
Definition fadd_subarea (s : strip) (c : control) (xsi1 xsi2 : Q) (oh1 oh2 : option Q)
  : strip * res unit :=
  match ct_type c with
  | None => (s, Err ValueError)                                        (* 1654-1655 *)
  | Some k =>
    if smem (st_subs s) (ADev k) then (s, Err ValueError)              (* 1657-1658 *)
    else
      let h1 := match oh1 with Some h => h | None => xsi1 end in
      let h2 := match oh2 with Some h => h | None => xsi2 end in
      if xsi_bad xsi2 || xsi_bad xsi1 then (s, Err ValueError)
      else if hinge_bad h1 || hinge_bad h2 then (s, Err ValueError)
      else if match sget (st_subs s) (ADev Slat) with                  (* 1676-1679 *)
              | Some v => Qltb xsi1 (fadd (xsi_d v) LIMIT) || Qltb xsi2 (fadd (xsi_c v) LIMIT)
              | None => false end then (s, Err ValueError)
      else if match sget (st_subs s) (ADev Flap) with                  (* 1681-1684 *)
              | Some v => Qltb (xsi_a v) (fadd xsi1 LIMIT) || Qltb (xsi_b v) (fadd xsi2 LIMIT)
              | None => false end then (s, Err ValueError)
      else
        then_
          match k with
          | Slat =>                                                    (* 1686-1696 *)
            upd_sub (set_subs s (sset (st_subs s) (ADev Slat) (new_subarea 0 0 xsi1 xsi2 (ADev Slat))))
              ASegment (fun v => set_ab v xsi1 xsi2)
          | Flap =>                                                    (* 1698-1708 *)
            upd_sub (set_subs s (sset (st_subs s) (ADev Flap) (new_subarea xsi1 xsi2 1 1 (ADev Flap))))
              ASegment (fun v => set_cd v xsi2 xsi1)
          end
          (fun s2 => upd_sub s2 (ADev k) (fun v => set_ctrl (set_hinge v h1 h2) c))   (* 1711-1712 *)
  end.

(** [WingSegment._get_outer_neighbour_subdiv] (838-859). *)
Fixpoint fouter_neighbour_from (i : nat) (seg : segment) (eta : Q) (best : Q * option nat)
  : Q * option nat :=
  match seg with
  | [] => best
  | s :: seg' =>
    let diff := fsub eta (eta_a s) in
    let best' := if Qltb diff (fst best) && Qleb 0 diff then (diff, Some i) else best in
    fouter_neighbour_from (S i) seg' eta best'
  end.
Definition fget_outer_neighbour (seg : segment) (eta : Q) : option nat :=
  snd (fouter_neighbour_from 0 seg (fadd eta (fdiv LIMIT 10)) (1, None)).

(** [xsi_interpol] with its own rounding: any function. *)
Variable interp : Q * Q -> Q * Q -> Q -> res Q.

(** Inheritance of one device when strip [ip] is cut and the new strip is [inew]
    (783-795 for the flap, 798-810 for the slat).  The mutations before an exception
    are kept. [ea], [eb] are the old borders of the cut strip. *)
Definition finherit (seg : segment) (ip inew : nat) (k : dkind) (ea eb eta : Q)
  : segment * res unit :=
  match nth_error seg ip with
  | None => (seg, Err KeyError)
  | Some sp =>
    match sget (st_subs sp) (ADev k) with
    | None => (seg, Ok tt)
    | Some v =>
      let xsi1 := match k with Flap => xsi_a v | Slat => xsi_d v end in
      let xsi2 := match k with Flap => xsi_b v | Slat => xsi_c v end in
      match sa_hinge v, sa_ctrl v with
      | Some (h1, h2), Some c =>
        match interp (ea, xsi1) (eb, xsi2) eta with
        | Err e => (seg, Err e)
        | Ok xs =>
          match interp (ea, h1) (eb, h2) eta with
          | Err e => (seg, Err e)
          | Ok hs =>
            match nth_error seg inew with
            | None => (seg, Err KeyError)
            | Some sn =>
              let '(sn', r) := fadd_subarea sn c xs xsi2 (Some hs) (Some h2) in
              let seg1 := set_nth seg inew sn' in
              match r with
              | Err e => (seg1, Err e)
              | Ok _ =>
                let '(sp', r') := update_subarea sp k xsi1 xs h1 hs in
                (set_nth seg1 ip sp', r')
              end
            end
          end
        end
      | _, _ => (seg, Err AttributeError)   (* no hinge/control on a device: see _add_subarea *)
      end
    end
  end.

(** [WingSegment.add_subdivision] (726-812).  Result: the (possibly mutated) segment and
    the returned strip ([Some i]) or [None] (751), or the exception. *)
Definition fadd_subdivision (seg : segment) (etaA etaD : Q) (ignore_inval_eta : bool)
  : segment * res (option nat) :=
  if Qleb etaA 0 || Qleb 1 etaA then                                     (* 747-753 *)
    (seg, if ignore_inval_eta then Ok None else Err ValueError)
  else
    let inew := List.length seg in                                       (* 755 *)
    match get_subdiv_at_eta seg etaA with                                (* 756 *)
    | None => (seg, Err TypeError)           (* unpacking None *)
    | Some (ip, sp, on_border) =>
      if on_border then (seg, Ok (Some ip))                              (* 758-760 *)
      else if Qltb (fsub etaA (eta_a sp)) LIMIT then (seg, Ok (Some ip))   (* 762-765 *)
      else
        let sn := new_strip etaA (eta_b sp) (eta_c sp) etaD in           (* 768-773 *)
        let ea := eta_a sp in let eb := eta_b sp in                      (* 775-776 *)
        let seg1 := set_nth (seg ++ [sn]) ip (set_bc sp etaA etaD) in    (* 779-780 *)
        let '(seg2, r2) := finherit seg1 ip inew Flap ea eb etaA in
        match r2 with
        | Err e => (seg2, Err e)
        | Ok _ =>
          let '(seg3, r3) := finherit seg2 ip inew Slat ea eb etaA in
          match r3 with
          | Err e => (seg3, Err e)
          | Ok _ => (seg3, Ok (Some inew))
          end
        end
    end.

(** The while loop of CASE 3 (923-939).  [k] is 100 minus the value of [n] before the
    iteration, so running out of [k] is exactly the "Too many loops" RuntimeError. *)
Fixpoint fcontrol_loop (seg : segment) (etaA etaB xsi1 xsi2 h1 h2 : Q) (k : nat)
  (rows : list row) (cur : nat) (eta_rn : Q) : res (list row * nat) :=
  if Qltb eta_rn etaB then
    match fget_outer_neighbour seg eta_rn with
    | None => Err AttributeError
    | Some nb =>
      match nth_error seg nb, nth_error seg cur with
      | Some snb, Some slast =>
        let? xd := interp (etaA, xsi1) (etaB, xsi2) (eta_b slast) in
        let? hd := interp (etaA, h1) (etaB, h2) (eta_b slast) in
        let rows' := push_row rows nb xd hd xsi2 h2 in
        match k with
        | O => Err RuntimeError
        | S k' => fcontrol_loop seg etaA etaB xsi1 xsi2 h1 h2 k' rows' nb (eta_b snb)
        end
      | _, _ => Err KeyError
      end
    end
  else Ok (rows, cur).

(** 945-948: add the subarea to every listed strip; an exception keeps the earlier additions. *)
Fixpoint fadd_rows (seg : segment) (c : control) (rows : list row) : segment * res unit :=
  match rows with
  | [] => (seg, Ok tt)
  | r :: rs =>
    match nth_error seg (r_idx r) with
    | None => (seg, Err KeyError)
    | Some s =>
      let '(s', o) := fadd_subarea s c (r_x1 r) (r_x2 r) (Some (r_h1 r)) (Some (r_h2 r)) in
      let seg' := set_nth seg (r_idx r) s' in
      match o with
      | Err e => (seg', Err e)
      | Ok _ => fadd_rows seg' c rs
      end
    end
  end.

(** [WingSegment.add_subdivision_for_control] (861-950).  The return value
    (first row of the list) is dropped. *)
Definition fadd_subdivision_for_control (seg : segment) (etaA etaB : Q) (c : control)
  (xsi1 xsi2 : Q) (oh1 oh2 : option Q) : segment * res unit :=
  let h1 := match oh1 with Some h => h | None => xsi1 end in            (* 878-884 *)
  let h2 := match oh2 with Some h => h | None => xsi2 end in
  let '(seg1, r1) :=
    if Qeqb etaA 0 then (seg, Ok (Some O))                               (* 887-888 *)
    else fadd_subdivision seg etaA etaA false in                          (* 890 *)
  match r1 with
  | Err e => (seg1, Err e)
  | Ok None => (seg1, Err AttributeError)
  | Ok (Some i1) =>
    match nth_error seg1 i1 with
    | None => (seg1, Err KeyError)
    | Some sd1 =>
      let eta_b_sd1 := eta_b sd1 in                                      (* 893 *)
      let row1 := mkRow i1 xsi1 xsi2 h1 h2 in                            (* 896 *)
      if Qeqb etaB eta_b_sd1 then                                        (* CASE 1, 899-900 *)
        fadd_rows seg1 c [row1]
      else if Qltb etaB eta_b_sd1 then                                   (* CASE 2, 903-904 *)
        let '(seg2, r2) := fadd_subdivision seg1 etaB etaB false in
        match r2 with
        | Err e => (seg2, Err e)
        | Ok _ => fadd_rows seg2 c [row1]
        end
      else                                                               (* CASE 3, 907-943 *)
        match fget_outer_neighbour seg1 eta_b_sd1 with
        | None => (seg1, Err AttributeError)
        | Some nb =>
          match nth_error seg1 nb with
          | None => (seg1, Err KeyError)
          | Some snb =>
            match (let? xd := interp (etaA, xsi1) (etaB, xsi2) eta_b_sd1 in
                   let? hd := interp (etaA, h1) (etaB, h2) eta_b_sd1 in
                   let rows := push_row [row1] nb xd hd xsi2 h2 in
                   fcontrol_loop seg1 etaA etaB xsi1 xsi2 h1 h2 100 rows nb (eta_b snb)) with
            | Err e => (seg1, Err e)
            | Ok (rows, last) =>
              match nth_error seg1 last with
              | None => (seg1, Err KeyError)
              | Some slast =>
                let '(seg2, r2) :=
                  if Qltb etaB (eta_b slast)                             (* 942-943 *)
                  then fadd_subdivision seg1 etaB etaB false
                  else (seg1, Ok None) in
                match r2 with
                | Err e => (seg2, Err e)
                | Ok _ => fadd_rows seg2 c (rev rows)
                end
              end
            end
          end
        end
    end
  end.

Definition fstep (seg : segment) (o : op) : segment :=
  match o with
  | OpSubdiv a d ig => fst (fadd_subdivision seg a d ig)
  | OpControl a b c x1 x2 h1 h2 => fst (fadd_subdivision_for_control seg a b c x1 x2 h1 h2)
  end.

Definition frun (ops : list op) : segment := fold_left fstep ops new_segment.


(** [np.linspace(0, 1, num_s+1)] (vlm.py:224): numpy computes the step, multiplies the numbers
    0, 1, ... with it, adds the start (0: exact) and sets the last value. *)
Definition flinspace (n : Z) : res (list Q) :=
  if Z.ltb (n + 1) 0 then Err ValueError
  else if Z.eqb n (-1) then Ok []
  else if Z.eqb n 0 then Ok [0]
  else Ok (map (fun i => fmul (inject_Z (Z.of_nat i)) (fdiv 1 (inject_Z n))) (seq 0 (Z.to_nat n)) ++ [1]).

(** The inner loop of part two (223-226). *)
Fixpoint fadd_lines (seg : segment) (etas : list Q) : segment * res unit :=
  match etas with
  | [] => (seg, Ok tt)
  | e :: es =>
    if (Qeqb e 0 || Qeqb e 1)%bool then fadd_lines seg es
    else
      let '(seg', o) := fadd_subdivision seg e e true in
      match o with
      | Err x => (seg', Err x)
      | Ok _ => fadd_lines seg' es
      end
  end.


(** Part two of [pre_panelling] for one segment (vlm.py:224-227). *)
Definition fdivide (seg : segment) (n : Z) : segment * res unit :=
  match flinspace n with Err e => (seg, Err e) | Ok etas => fadd_lines seg etas end.
End Rounded.
