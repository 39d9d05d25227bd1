(** Specifications for the standard run (C36, C63, C64). *)
From Coq Require Import List String Ascii Arith ZArith QArith.
From Verif Require Import PyBase PyVal StateModel SettingsModel SettingsSpec RunModel.
Import ListNotations.
Open Scope string_scope.

(** Decimal numerals. *)
Definition digit (c : ascii) : option nat :=
  let n := nat_of_ascii c in (if (48 <=? n) && (n <=? 57) then Some (n - 48) else None)%nat.
Fixpoint reading (acc : nat) (s : string) : option nat :=
  match s with
  | EmptyString => Some acc
  | String c r => match digit c with Some d => reading (10 * acc + d)%nat r | None => None end
  end.
(** [s] is the number [i] with three digits, or with more if necessary. *)
Definition three_digits (s : string) (i : nat) : Prop :=
  reading 0 s = Some i /\ (String.length s = 3%nat \/ ((3 < String.length s)%nat /\ forall r, s <> String "0" r)).

Section Spec.
Variable V T world : Type.
Notation out := (out V T).
Notation content := (content V T).
Notation event := (event V T).

(** The results of the flight states, one after the other; the mesh is new for the first one. *)
Inductive computes (compute : world -> bool -> dict num -> world * res out)
  : nat -> world -> list (dict num) -> list out -> world -> Prop :=
| cp_nil i w : computes compute i w [] [] w
| cp_cons i w aero rows o outs w1 w2 :
    compute w (i =? 0)%nat aero = (w1, Ok o) -> computes compute (S i) w1 rows outs w2 ->
    computes compute i w (aero :: rows) (o :: outs) w2.

(** The files of one state: save flag, name, content. *)
Inductive state_file (aero : dict num) (o : out) : string -> string -> content -> Prop :=
| sf_global : state_file aero o "global" "global.json" (CGlobal aero (o_forces o) (o_coeffs o))
| sf_panel : state_file aero o "panelwise" "panelwise.dat" (CTable (o_panel o))
| sf_matrix : state_file aero o "matrix_system" "matrix.dat" (CTable (o_matrix o)).

Definition requested (s : dict pyval) (key : string) : Prop := at_path (PDict s) ["save_results"; key] (PBool true).

(** A file of state [i]. *)
Definition result_file (base : string) (s : dict pyval) (rows : list (dict num)) (outs : list out) (p : string) (c : content) : Prop :=
  exists i aero o key name d,
    nth_error rows i = Some aero /\ nth_error outs i = Some o /\
    state_file aero o key name c /\ requested s key /\
    three_digits d i /\ p = "_results/" ++ base ++ "_" ++ d ++ "/" ++ name.

(** The results per name. *)
Definition table (outs : list out) (r : dict (list V)) : Prop :=
  let f k := Some (map (fun o => o_forces o k) outs) in
  let c k := Some (map (fun o => o_coeffs o k) outs) in
  dkeys r = ["Fx"; "Fy"; "Fz"; "FD"; "FC"; "FL"; "Mx"; "My"; "Mz"; "Cx"; "Cy"; "Cz"; "CD"; "CC"; "CL"; "Cl"; "Cm"; "Cn"] /\
  (dget r "Fx" = f "x" /\ dget r "Fy" = f "y" /\ dget r "Fz" = f "z") /\
  (dget r "FD" = f "D" /\ dget r "FC" = f "C" /\ dget r "FL" = f "L") /\
  (dget r "Mx" = f "l" /\ dget r "My" = f "m" /\ dget r "Mz" = f "n") /\
  (dget r "Cx" = c "x" /\ dget r "Cy" = c "y" /\ dget r "Cz" = c "z") /\
  (dget r "CD" = c "D" /\ dget r "CC" = c "C" /\ dget r "CL" = c "L") /\
  (dget r "Cl" = c "l" /\ dget r "Cm" = c "m" /\ dget r "Cn" = c "n").

(** The aeroperformance map. *)
Definition map_file (base : string) (s : dict pyval) (st : fstate) (outs : list out) (p : string) (c : content) : Prop :=
  requested s "aeroperformance" /\ p = "_results/" ++ base ++ "_aeroperformance.json" /\
  exists r, table outs r /\ c = CMap (f_aero st) r.

Definition written (t : list event) : list (string * content) :=
  flat_map (fun e => match e with EFile p c => [(p, c)] | _ => [] end) t.

(** Figures: plot of the settings, option, names. *)
Definition plot_flag (s : dict pyval) (plot key : string) : Prop := at_path (PDict s) ["plot"; plot; key] (PBool true).
Definition figure (str_of : pyval -> string) (s : dict pyval) (plot name : string) : Prop :=
  (plot = "matrix_downwash" /\ name = "downwash") \/
  (plot = "geometry" /\ (name = "geometry2D" \/ name = "geometry3D")) \/
  (plot = "lattice" /\ (name = "lattice2D" \/ name = "lattice3D")) \/
  (plot = "results" /\ exists opts o, at_path (PDict s) ["plot"; "results"; "opt"] (PList opts) /\ In o opts /\
     (name = "results_" ++ str_of o ++ "2D" \/ name = "results_" ++ str_of o ++ "3D")).
(** What is drawn for a plot of the settings. *)
Definition drawing (str_of : pyval -> string) (s : dict pyval) (plot label : string) : Prop :=
  (plot = "matrix_downwash" /\ label = "downwash") \/ (plot = "geometry" /\ label = "geometry") \/ (plot = "lattice" /\ label = "lattice") \/
  (plot = "results" /\ exists opts o, at_path (PDict s) ["plot"; "results"; "opt"] (PList opts) /\ In o opts /\ label = "results_" ++ str_of o).
End Spec.
