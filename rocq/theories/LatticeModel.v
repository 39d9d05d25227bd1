(** Model of the panel count and bookkeeping in aero/vlm.py [gen_lattice] (271-363),
    objects/vlm_struct.py, and of the array accesses of aero/c_lattice.cpp.

    Simplifications: panel counts are unbounded integers (the C code uses int/long);
    the geometry written to the arrays is in [PanelModel.v]. *)
From Coq Require Import List String ZArith QArith Qround Bool.
From Verif Require Import PyBase StripModel AircraftModel.
Import ListNotations.
Open Scope Z_scope.

(** [BookKeepingEntry] (vlm_struct.py:33-36).  The subarea object is identified by the
    enumeration tuple that yielded it. *)
Record entry := mkEntry {
  e_visit : subarea_visit;
  e_lo : Z; e_hi : Z;              (* pan_idx = range(e_lo, e_hi) *)
  e_num_c : Z;
  e_mirror : bool }.

Definition v_sub (v : subarea_visit) : subarea := obj (fst (fst (fst v))).
Definition v_seg (v : subarea_visit) : wsegment := obj (snd (fst v)).
Definition v_wing (v : subarea_visit) : wing := obj (snd v).

(** Python's [range(lo, hi)] as a list. *)
Definition py_range (lo hi : Z) : list Z := map (fun i => lo + Z.of_nat i) (seq 0 (Z.to_nat (hi - lo))).

(** [VLMLattice] (vlm_struct.py:79-108), bookkeeping part. *)
Record book := mkBook {
  bk_list : list entry;
  bk_wing : dict (list entry);
  bk_wing_mirror : dict (list entry) }.
Definition clean_book : book := mkBook [] [] [].

(** [defaultdict(list)[k].append(e)]. *)
Definition dappend (d : dict (list entry)) (k : string) (e : entry) : dict (list entry) :=
  dset d k (match dget d k with Some l => l ++ [e] | None => [e] end).

(** [update_bookkeeping] (vlm_struct.py:86-99). *)
Definition update_book (b : book) (e : entry) : book :=
  let uid := w_uid (v_wing (e_visit e)) in
  if e_mirror e
  then mkBook (bk_list b ++ [e]) (bk_wing b) (dappend (bk_wing_mirror b) uid e)
  else mkBook (bk_list b ++ [e]) (dappend (bk_wing b) uid e) (bk_wing_mirror b).

(** Chordwise panel count of a subarea (vlm.py:289-297): that of the parent control if there
    is one, else that of the segment; shortened on the main surface.  A count that is still
    None is a TypeError (in [ceil] or in [num_r +=]).  *)
Definition num_chordwise (v : subarea_visit) : res Z :=
  let s := v_sub v in
  let? n := match sa_ctrl s with
            | Some c => match dget (w_ctls (v_wing v)) (ct_uid c) with
                        | Some wc => Ok (wc_num_c wc)
                        | None => Err KeyError
                        end
            | None => Ok (ws_num_c (v_seg v))
            end in
  match n with
  | None => Err TypeError
  | Some n =>
    Ok match sa_type s with
       | ASegment => Qceiling (rel_length s * inject_Z n)
       | ADev _ => n
       end
  end.

(** Loop state of the panel count (vlm.py:271-314). *)
Record cnt := mkCnt { c_subareas : Z; c_r : Z; c_p : Z; c_book : book }.

Definition count_step (st : cnt) (v : subarea_visit) : res cnt :=
  let? n := num_chordwise v in
  let p1 := c_p st + n in
  let b1 := update_book (c_book st) (mkEntry v (c_p st) p1 n false) in
  if Z.eqb (w_symmetry (v_wing v)) 0
  then Ok (mkCnt (c_subareas st + 1) (c_r st + n) p1 b1)
  else Ok (mkCnt (c_subareas st + 2) (c_r st + n + n) (p1 + n)
             (update_book b1 (mkEntry v p1 (p1 + n) n true))).

Fixpoint count_loop (st : cnt) (l : list subarea_visit) : res cnt :=
  match l with
  | [] => Ok st
  | v :: l' => let? st' := count_step st v in count_loop st' l'
  end.

Definition panel_count (a : aircraft) : res cnt :=
  count_loop (mkCnt 0 0 0 clean_book) (all_subareas a).

(** [array_panels] (vlm.py:333 and 350): row i is [1, num_chordwise_panels] of entry i. *)
Definition array_panels (b : book) : list (Z * Z) := map (fun e => (1, e_num_c e)) (bk_list b).

(** ** Array accesses of [vlm_lattice] (c_lattice.cpp) *)

(** The arrays: corner points, symmetry flags, panel numbers (inputs); panel corners, vortex
    points, collocation points, bound leg midpoints, normals, areas (lattice). *)
Inductive arr := APts | ASym | APan | AP | AV | AC | ABLM | AN | AA.
Inductive access := Rd (a : arr) (i : Z) | Wr (a : arr) (i : Z).

(** c_vlm.h: NUM_P = 4, NUM_V = 4, NUM_COORD = 3. *)
Definition NUM_P := 4.
Definition NUM_V := 4.
Definition NUM_COORD := 3.

Definition three (mk : Z -> access) (i : Z) : list access := [mk i; mk (i + 1); mk (i + 2)].

(** Body of the panel loop (164-288): the reads of values just written are listed once. *)
Definition panel_accesses (start_pan index_pan : Z) : list access :=
  let p := start_pan + index_pan in
  let iP := p * NUM_P * NUM_COORD in
  let iV := p * NUM_V * NUM_COORD in
  let iN := p * NUM_COORD in
  three (Wr AP) iP ++ three (Wr AP) (iP + 1 * NUM_COORD) ++
  three (Wr AP) (iP + 2 * NUM_COORD) ++ three (Wr AP) (iP + 3 * NUM_COORD) ++      (* 182-196 *)
  three (Rd AP) iP ++ three (Rd AP) (iP + 1 * NUM_COORD) ++
  three (Rd AP) (iP + 2 * NUM_COORD) ++ three (Rd AP) (iP + 3 * NUM_COORD) ++
  three (Wr AV) (iV + 1 * NUM_COORD) ++ three (Wr AV) (iV + 2 * NUM_COORD) ++
  three (Rd AV) (iV + 1 * NUM_COORD) ++ three (Rd AV) (iV + 2 * NUM_COORD) ++
  three (Wr AV) iV ++ three (Wr AV) (iV + 3 * NUM_COORD) ++                        (* 206-212 *)
  three (Wr AC) iN ++ three (Rd AC) iN ++                                          (* 218-225 *)
  three (Wr ABLM) iN ++                                                            (* 228-230 *)
  three (Wr AN) iN ++                                                              (* 246-248 *)
  [Wr AA p].                                                                       (* 287 *)

(** Corner point reads (120-135) at the four vertex offsets. *)
Definition vertex_reads (index_seg : Z) : list access :=
  flat_map (fun k => three (Rd APts) (index_seg * NUM_P * NUM_COORD + k * NUM_COORD)) [0; 1; 2; 3].

(** The two panel loops (162-164): [index_pan = j*pan_c + i] (167). *)
Definition panel_loop (start_pan pan_s pan_c : Z) : list access :=
  flat_map (fun i => flat_map (fun j => panel_accesses start_pan (j * pan_c + i)) (py_range 0 pan_s))
    (py_range 0 pan_c).

(** The symmetry loop (100-291): the vertices are only permuted by 102-117, so the four offsets
    read are the same; returns the accesses and the updated [start_pan]. *)
Fixpoint sym_loop (k : nat) (index_seg start_pan pan_s pan_c : Z) : list access * Z :=
  match k with
  | O => ([], start_pan)
  | S k' =>
    let '(acc, sp) := sym_loop k' index_seg (start_pan + pan_s * pan_c) pan_s pan_c in
    (vertex_reads index_seg ++ panel_loop start_pan pan_s pan_c ++ acc, sp)
  end.

(** The subarea loop (75-292).  [pan] and [sym] are the contents of the arrays from
    [index_seg] on (what they contain beyond the end is irrelevant: the reads are listed). *)
Fixpoint seg_loop (index_seg start_pan : Z) (sym : Z -> Z) (pan : list (Z * Z)) : list (list access) :=
  match pan with
  | [] => []
  | (pan_s, pan_c) :: pan' =>
    let n := if 0 <? sym index_seg then 2%nat else 1%nat in
    let '(acc, sp) := sym_loop n index_seg start_pan pan_s pan_c in
    ([Rd APan (index_seg * 2); Rd APan (index_seg * 2 + 1); Rd ASym index_seg] ++ acc)
      :: seg_loop (index_seg + 1) sp sym pan'
  end.

(** [vlm_lattice] with [info->num_seg = length pan]: accesses per subarea. *)
Definition vlm_lattice_accesses (sym : Z -> Z) (pan : list (Z * Z)) : list (list access) :=
  seg_loop 0 0 sym pan.

(** Array sizes as allocated by [gen_lattice] (331-362).  Note that [array_symmetry] has
    [num_p] entries (354), although it is indexed by subarea. *)
Definition array_size (num_subareas num_p : Z) (a : arr) : Z :=
  match a with
  | APts => num_subareas * 4 * 3
  | ASym => num_p
  | APan => num_subareas * 2
  | AP | AV => num_p * 4 * 3
  | AC | ABLM | AN => num_p * 3
  | AA => num_p
  end.

(** What [gen_lattice] passes to the C code (symmetry flags all zero, 354). *)
Definition gen_lattice_accesses (st : cnt) : list (list access) :=
  vlm_lattice_accesses (fun _ => 0) (array_panels (c_book st)).
