(** Model of [standard_run] (stdfun/run.py:84-182) from the loaded project to the files: the loop
    over the flight states, [save_all] and [save_aeroperformance_map] (fileio/native/results.py),
    [make_all] (plot/makeplots.py) and [show_and_save] (plot/plottools.py:481-505).

    Simplifications:
    - loading the project ([prepare]), the computation for one state ([compute]), drawing
      ([draw]) and [str] of a plot option are Section variables; [world] is everything they change
      (aircraft, lattice, VLM data, CPACS file);
    - a path is relative to the project directory; [ProjectPaths] (external) replaces the counter
      in the name of the output directory, the name of the project must not contain braces;
    - creating directories, log messages and the time stamp in the names of plots are dropped;
    - the plot directory that [make_all] stores in the settings is in [SettingsModel.add_plot_dir];
      no flag depends on it. *)
From Coq Require Import List String Ascii ZArith QArith Bool Decimal DecimalString.
From Verif Require Import PyBase PyVal StateModel.
Import List ListNotations.
Open Scope string_scope.

(** [f"{i:03d}"] *)
Fixpoint zeros (k : nat) : string := match k with O => "" | S k' => String "0"%char (zeros k') end.
Definition dec3 (i : nat) : string :=
  let s := NilZero.string_of_uint (Nat.to_uint i) in zeros (3 - String.length s) ++ s.

(** settings.py:163-190 *)
Definition results_dir (base : string) (i : nat) : string := "_results/" ++ base ++ "_" ++ dec3 i.
Definition f_results_global (base : string) (i : nat) : string := results_dir base i ++ "/global.json".
Definition f_results_panelwise (base : string) (i : nat) : string := results_dir base i ++ "/panelwise.dat".
Definition f_results_matrix (base : string) (i : nat) : string := results_dir base i ++ "/matrix.dat".
Definition f_results_apm_global (base : string) : string := "_results/" ++ base ++ "_aeroperformance.json".

Section Run.
(** Numbers in results, tables, and the mutable rest of the program. *)
Variable V T world : Type.

(** What the computation leaves in [vlmdata]: [forces], [coeffs], [panelwise], and the matrix with
    the right-hand side. *)
Record out := mkOut { o_forces : string -> V; o_coeffs : string -> V; o_panel : T; o_matrix : T }.

(** Content of a file. *)
Inductive content :=
| CGlobal (aero : dict num) (forces coeffs : string -> V)
| CTable (t : T)
| CMap (aero : dict stored) (results : dict (list V)).

Inductive event :=
| EFile (path : string) (c : content)
| EPlot (i : nat) (name : string)
| EShow (i : nat).

(** A program that writes files and may raise. *)
Definition prog A := (list event * res A)%type.
Definition ret {A} (a : A) : prog A := ([], Ok a).
Definition lift {A} (r : res A) : prog A := ([], r).
Definition emit (e : event) : prog unit := ([e], Ok tt).
Definition andthen {A B} (m : prog A) (f : A -> prog B) : prog B :=
  match m with
  | (t, Ok a) => let '(t', r) := f a in ((t ++ t')%list, r)
  | (t, Err e) => (t, Err e)
  end.

Variable base : string.
Variable draw : nat -> string -> res unit.
Variable str_of : pyval -> string.
Variable compute : world -> bool -> dict num -> world * res out.
(** [cpacs.results.save_aeroperformance_map]; see [CpacsModel]. *)
Variable save_cpacs : world -> dict (list V) -> res world.

Definition flag (s : dict pyval) (k1 k2 : string) : res bool :=
  let? d := getitem (PDict s) k1 in let? v := getitem d k2 in Ok (truthy v).

Definition when (b : res bool) (m : prog unit) : prog unit :=
  andthen (lift b) (fun b => if b then m else ret tt).

(** [save_all] (results.py:46-66) and the three writers (69-157). *)
Definition save_all (s : dict pyval) (i : nat) (aero : dict num) (o : out) : prog unit :=
  andthen (when (flag s "save_results" "global")
             (emit (EFile (f_results_global base i) (CGlobal aero (o_forces o) (o_coeffs o))))) (fun _ =>
  andthen (when (flag s "save_results" "panelwise")
             (emit (EFile (f_results_panelwise base i) (CTable (o_panel o))))) (fun _ =>
  when (flag s "save_results" "matrix_system")
             (emit (EFile (f_results_matrix base i) (CTable (o_matrix o)))))).

(** plottools.py:481-505 *)
Fixpoint emit_plots (i : nat) (names : list string) : prog unit :=
  match names with [] => ret tt | n :: names' => andthen (emit (EPlot i n)) (fun _ => emit_plots i names') end.
Definition show_and_save (p : pyval) (i : nat) (names : list string) : prog unit :=
  andthen (lift (getitem p "save")) (fun sv =>
  andthen (if truthy sv then emit_plots i names else ret tt) (fun _ =>
  andthen (lift (getitem p "show")) (fun sh =>
  if truthy sh then emit (EShow i) else ret tt))).

(** [plot2d3d] (222-253): figures are saved even if drawing fails; then the error goes on, unless
    saving raises itself. *)
Definition plot2d3d (p : pyval) (i : nat) (name : string) : prog unit :=
  andthen (show_and_save p i [name ++ "3D"; name ++ "2D"]) (fun _ => lift (draw i name)).

(** downwash.py:41-69 *)
Definition view_downwash (p : pyval) (i : nat) : prog unit :=
  andthen (lift (draw i "downwash")) (fun _ => show_and_save p i ["downwash"]).

(** makeplots.py:139-148 *)
Fixpoint plot_results (p : pyval) (i : nat) (keys : list pyval) : prog unit :=
  match keys with
  | [] => ret tt
  | k :: keys' => andthen (plot2d3d p i ("results_" ++ str_of k)) (fun _ => plot_results p i keys')
  end.
(** Iteration over a value; the options are a list (checked). *)
Definition elements (v : pyval) : res (list pyval) := match v with PList l => Ok l | _ => Err TypeError end.

(** makeplots.py:49-59: evaluate, then plot. *)
Definition plot_if (s : dict pyval) (name : string) (m : pyval -> prog unit) : prog unit :=
  andthen (lift (let? d := getitem (PDict s) "plot" in getitem d name)) (fun p =>
  andthen (lift (getitem p "save")) (fun sv =>
  andthen (lift (getitem p "show")) (fun sh =>
  if truthy sv || truthy sh then m p else ret tt))).

(** [make_all] (37-76). *)
Definition make_all (s : dict pyval) (i : nat) : prog unit :=
  andthen (plot_if s "matrix_downwash" (fun p => view_downwash p i)) (fun _ =>
  andthen (plot_if s "geometry" (fun p => plot2d3d p i "geometry")) (fun _ =>
  andthen (plot_if s "lattice" (fun p => plot2d3d p i "lattice")) (fun _ =>
  plot_if s "results" (fun p =>
    andthen (lift (let? o := getitem p "opt" in elements o)) (fun keys => plot_results p i keys))))).

(** state.py:80-87 and 126-128. *)
Definition GLOBAL_COEFFS : list string :=
  ["Fx"; "Fy"; "Fz"; "FD"; "FC"; "FL"; "Mx"; "My"; "Mz"; "Cx"; "Cy"; "Cz"; "CD"; "CC"; "CL"; "Cl"; "Cm"; "Cn"].
Definition new_results : dict (list V) := map (fun k => (k, [])) GLOBAL_COEFFS.

(** [results[k].append(x)] *)
Definition append_to (r : dict (list V)) (k : string) (x : V) : dict (list V) :=
  match dget r k with Some l => dset r k (l ++ [x])%list | None => r end.
(** run.py:145-163 *)
Definition append_all (r : dict (list V)) (o : out) : dict (list V) :=
  let f := o_forces o in let c := o_coeffs o in
  let r := append_to r "Fx" (f "x") in let r := append_to r "Fy" (f "y") in let r := append_to r "Fz" (f "z") in
  let r := append_to r "FD" (f "D") in let r := append_to r "FC" (f "C") in let r := append_to r "FL" (f "L") in
  let r := append_to r "Mx" (f "l") in let r := append_to r "My" (f "m") in let r := append_to r "Mz" (f "n") in
  let r := append_to r "Cx" (c "x") in let r := append_to r "Cy" (c "y") in let r := append_to r "Cz" (c "z") in
  let r := append_to r "CD" (c "D") in let r := append_to r "CC" (c "C") in let r := append_to r "CL" (c "L") in
  let r := append_to r "Cl" (c "l") in let r := append_to r "Cm" (c "m") in append_to r "Cn" (c "n").

(** The loop (109-165).  [rows] are the states that the generator yields, [last] is how it ends. *)
Fixpoint loop (s : dict pyval) (rows : list (dict num)) (last : res unit) (i : nat) (w : world) (r : dict (list V))
  : prog (world * dict (list V)) :=
  match rows with
  | [] => andthen (lift last) (fun _ => ret (w, r))
  | aero :: rows' =>
    let '(w', ro) := compute w (Nat.eqb i 0) aero in
    andthen (lift ro) (fun o =>
    andthen (save_all s i aero o) (fun _ =>
    andthen (make_all s i) (fun _ =>
    loop s rows' last (S i) w' (append_all r o))))
  end.

(** [save_aeroperformance_map] (results.py:160-189). *)
Definition save_map (st : fstate) (r : dict (list V)) : prog unit :=
  emit (EFile (f_results_apm_global base) (CMap (f_aero st) r)).

(** 109-182, after the project has been loaded.  Without states the name [lattice] is not bound
    (177). *)
Definition run (parse : string -> res num) (cpacs : bool) (s : dict pyval) (st : fstate) (w : world) : prog world :=
  let '(rows, last) := iter_states parse st in
  andthen (loop s rows last 0 w new_results) (fun wr =>
  andthen (if cpacs then lift (save_cpacs (fst wr) (snd wr)) else ret (fst wr)) (fun w' =>
  andthen (when (flag s "save_results" "aeroperformance") (save_map st (snd wr))) (fun _ =>
  match rows with [] => lift (Err UnboundLocalError) | _ => ret w' end))).
End Run.
Arguments mkOut {V T}.
Arguments o_forces {V T}.
Arguments o_coeffs {V T}.
Arguments o_panel {V T}.
Arguments o_matrix {V T}.
Arguments CGlobal {V T}.
Arguments CTable {V T}.
Arguments CMap {V T}.
Arguments EFile {V T}.
Arguments EPlot {V T}.
Arguments EShow {V T}.
