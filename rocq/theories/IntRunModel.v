(** Model of whole runs of the compiled functions with C integers: all array accesses of [vlm_lattice]
    (aero/c_lattice.cpp 70-293), and those of [vlm_downwash] (c_downwash.cpp 30-95), [vlm_boundary]
    (c_boundary.cpp 43-69) and [vlm_results] (c_results.cpp 57-204) to the lattice, with the values of
    the loop counters.

    Simplifications: as in [IntModel.v]; the order of accesses within a panel is that of
    [LatticeModel.panel_accesses]; a run that contains an undefined operation is [None] as a whole. *)
From Coq Require Import List ZArith Bool.
From Verif Require Import LatticeModel IntModel.
Import ListNotations.
Open Scope Z_scope.

(** One thing after the other. *)
Fixpoint in_turn {A} (l : list (option (list A))) : option (list A) :=
  match l with
  | [] => Some []
  | None :: _ => None
  | Some x :: r => match in_turn r with None => None | Some y => Some (x ++ y) end
  end.

(** [a[index]], [a[index + 1]], [a[index + 2]] *)
Definition int_three (mk : Z -> access) (e : option Z) : option (list access) :=
  in_turn (map (fun d => match e with
    | None => None
    | Some k => match ceval (CAdd (CI k) (CI d)) with Some (_, z) => Some [mk z] | None => None end
    end) [0; 1; 2]).

(** Body of the panel loop (164-288). *)
Definition int_panel (start index_pan : Z) : option (list access) :=
  let pt := lattice_point start index_pan in
  let iN := lattice_index_N start index_pan in
  in_turn
    [int_three (Wr AP) (pt 0); int_three (Wr AP) (pt 1); int_three (Wr AP) (pt 2); int_three (Wr AP) (pt 3);
     int_three (Rd AP) (pt 0); int_three (Rd AP) (pt 1); int_three (Rd AP) (pt 2); int_three (Rd AP) (pt 3);
     int_three (Wr AV) (pt 1); int_three (Wr AV) (pt 2); int_three (Rd AV) (pt 1); int_three (Rd AV) (pt 2);
     int_three (Wr AV) (pt 0); int_three (Wr AV) (pt 3);
     int_three (Wr AC) iN; int_three (Rd AC) iN; int_three (Wr ABLM) iN; int_three (Wr AN) iN;
     match lattice_index_A start index_pan with Some k => Some [Wr AA k] | None => None end].

(** The panel loops (162-164), 167. *)
Definition int_panel_loop (start pan_s pan_c : Z) : option (list access) :=
  in_turn (map (fun i => in_turn (map (fun j =>
    match lattice_index_pan pan_c i j with None => None | Some p => int_panel start p end) (py_range 0 pan_s))) (py_range 0 pan_c)).

(** Corners of a subarea (86-89, 102-117, 120-135). *)
Definition int_vertex (index_seg k : Z) : option Z :=
  assign_int (CAdd (CMul (CMul (CI index_seg) (CI NUM_P)) (CI NUM_COORD)) (CMul (CI k) (CI NUM_COORD))).
Definition int_vertex_reads (index_seg : Z) : option (list access) :=
  in_turn (map (fun k => int_three (Rd APts) (int_vertex index_seg k)) [0; 1; 2; 3]).

(** The symmetry loop (99-291) with [start_pan += pan_seg] (290). *)
Fixpoint int_sym_loop (k : nat) (index_seg start pan_s pan_c pan_seg : Z) : option (list access * Z) :=
  match k with
  | O => Some ([], start)
  | S k' =>
    match in_turn [int_vertex_reads index_seg; int_panel_loop start pan_s pan_c], assign_int (CAdd (CI start) (CI pan_seg)) with
    | Some acc, Some start' =>
      match int_sym_loop k' index_seg start' pan_s pan_c pan_seg with
      | Some (acc', start'') => Some (acc ++ acc', start'')
      | None => None
      end
    | _, _ => None
    end
  end.

(** The subarea loop (75-292), its counter an [int] below [info->num_seg]; 78-80: numbers of panels. *)
Fixpoint int_seg_loop (index_seg start : Z) (sym : Z -> Z) (pan : list (Z * Z)) : option (list (list access)) :=
  match pan with
  | [] => Some []
  | (s, c) :: pan' =>
    match assign_int (CMul (CI index_seg) (CI 2)), assign_int (CAdd (CMul (CI index_seg) (CI 2)) (CI 1)) with
    | Some k1, Some k2 =>
      match assign_int (CL s), assign_int (CL c) with
      | Some pan_s, Some pan_c =>
        match assign_int (CMul (CI pan_s) (CI pan_c)) with
        | Some pan_seg =>
          match int_sym_loop (if 0 <? sym index_seg then 2%nat else 1%nat) index_seg start pan_s pan_c pan_seg with
          | Some (acc, start') =>
            match assign_int (CAdd (CI index_seg) (CI 1)) with
            | Some index_seg' =>
              match int_seg_loop index_seg' start' sym pan' with
              | Some l => Some (([Rd APan k1; Rd APan k2; Rd ASym index_seg] ++ acc) :: l)
              | None => None
              end
            | None => None
            end
          | None => None
          end
        | None => None
        end
      | _, _ => None
      end
    | _, _ => None
    end
  end.
Definition int_lattice (sym : Z -> Z) (pan : list (Z * Z)) : option (list (list access)) := int_seg_loop 0 0 sym pan.

(** ** The other functions *)
Definition single {A} (x : option A) : option (list A) := match x with Some y => Some [y] | None => None end.
Definition over_counters {A} (n : Z) (f : Z -> option (list A)) : option (list A) :=
  match counters n with None => None | Some c => in_turn (map f c) end.
Definition int_boundary (n : Z) : option (list (arr * Z)) := over_counters n (fun i => in_turn (map single (boundary_reads i))).
Definition int_downwash (n : Z) : option (list (arr * Z)) :=
  over_counters n (fun i => over_counters n (fun j => in_turn (map single (downwash_reads i j)))).
Definition int_results (n : Z) : option (list (arr * Z)) :=
  over_counters n (fun i => over_counters n (fun j => in_turn (map single (results_reads i j)))).
