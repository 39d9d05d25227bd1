(** Specifications for the analysis of a flight state (C85-C88). *)
From Coq Require Import Reals Qreals List String QArith.
From Verif Require Import PyBase PyVal StateModel AircraftModel Vec PanelModel VlmModel AnalysisModel RunModel.
Import ListNotations.
Open Scope string_scope.

(** File [name] of the state with number [d] in a list of written files. *)
Definition has_file {C} (files : list (string * C)) (base d name : string) (c : C) : Prop :=
  In ("_results/" ++ base ++ "_" ++ d ++ "/" ++ name, c) files.

(** ** Tables *)

(** Column [j] of a table consists of the numbers [xs]. *)
Definition numbers (t : table) (j : nat) (xs : list R) : Prop :=
  map (fun row => nth_error row j) t = map (fun x => Some (Some x)) xs.
Definition number (row : list (option R)) (j : nat) (x : R) : Prop := nth_error row j = Some (Some x).

(** A row that is a list of numbers followed by a number. *)
Definition equation (row : list (option R)) (a : list R) (b : R) : Prop := row = (map Some a ++ [Some b])%list.

(** Columns of panelwise.dat: gamma, vx, vy, vz, vmag, fx, fy, fz, fmag, cp. *)
Definition well_shaped (panels matrix : table) : Prop :=
  panels <> [] /\ List.length matrix = List.length panels /\
  (forall row, In row panels -> List.length row = 10%nat) /\
  (forall row, In row matrix -> List.length row = S (List.length panels)).
Definition forces_add_up (forces : string -> option R) (panels : table) : Prop :=
  (forall xs, numbers panels 5 xs -> forces "x" = Some (rsum xs)) /\
  (forall xs, numbers panels 6 xs -> forces "y" = Some (rsum xs)) /\
  (forall xs, numbers panels 7 xs -> forces "z" = Some (rsum xs)).
Definition magnitude (row : list (option R)) (j : nat) : Prop :=
  forall x y z, number row j x -> number row (j + 1) y -> number row (j + 2) z ->
    number row (j + 3) (sqrt (x * x + y * y + z * z))%R.
Definition magnitudes (panels : table) : Prop := forall row, In row panels -> magnitude row 1 /\ magnitude row 5.
(** A square matrix whose homogeneous system has only the zero solution. *)
Definition regular (m : list (list R)) : Prop :=
  (forall row, In row m -> List.length row = List.length m) /\
  forall x, List.length x = List.length m -> (forall row, In row m -> dot row x = 0%R) -> forall y, In y x -> y = 0%R.
(** If the rows of matrix.dat are equations of a regular system, the circulations solve them all. *)
Definition system_solved (panels matrix : table) : Prop :=
  forall gs eqs, numbers panels 0 gs -> Forall2 (fun row ab => equation row (fst ab) (snd ab)) matrix eqs ->
    regular (map fst eqs) -> forall a b, In (a, b) eqs -> dot a gs = b.

(** The contract of [dgesv] (the returned info is ignored, vlm.py:476): NaN in the right-hand side
    makes the result NaN; otherwise the result has the same length, and it solves the system if the
    matrix is regular. *)
Definition solver_ok (solve : option (list (list R)) -> option (list R) -> option (list R)) : Prop :=
  forall m b g, solve m b = Some g ->
    exists rhs, b = Some rhs /\ List.length g = List.length rhs /\
      forall rows, m = Some rows -> List.length rows = List.length rhs -> regular rows -> solves rows rhs g.

(** ** Values *)

(** The flow that a state describes. *)
Definition state_values (aero : dict num) (f : flow) : Prop :=
  exists v rho a b p q r,
    dget aero "airspeed" = Some (Some v) /\ dget aero "density" = Some (Some rho) /\
    dget aero "alpha" = Some (Some a) /\ dget aero "beta" = Some (Some b) /\
    dget aero "rate_P" = Some (Some p) /\ dget aero "rate_Q" = Some (Some q) /\ dget aero "rate_R" = Some (Some r) /\
    f = mkFlow (Q2R v) (Q2R rho) (Q2R a) (Q2R b) (Q2R p) (Q2R q) (Q2R r).

(** Values and coordinates of the user's reference dictionary: numbers of any Python type. *)
Definition real_value (v : pyval) (x : R) : Prop :=
  (exists q, v = PFlt (Some q) /\ x = Q2R q) \/ (exists z, v = PInt z /\ x = IZR z).
Definition real_point (v : pyval) (p : vec) : Prop :=
  exists x y z, v = PList [x; y; z] /\ real_value x (vx p) /\ real_value y (vy p) /\ real_value z (vz p).
Definition reference_values (d : dict pyval) (r : refs) : Prop :=
  exists a s c g m,
    dget d "area" = Some a /\ real_value a (r_area r) /\ dget d "span" = Some s /\ real_value s (r_span r) /\
    dget d "chord" = Some c /\ real_value c (r_chord r) /\
    dget d "gcenter" = Some g /\ real_point g (r_CG r) /\ dget d "rcenter" = Some m /\ real_point m (r_RP r).

(** Loads and coefficients of a result as they appear under their names. *)
Definition named_loads (f c : string -> option R) (x : results) : Prop :=
  (f "x" = Some (vx (o_F x)) /\ f "y" = Some (vy (o_F x)) /\ f "z" = Some (vz (o_F x))) /\
  (f "D" = Some (c_D (o_co x)) /\ f "C" = Some (c_C (o_co x)) /\ f "L" = Some (c_L (o_co x))) /\
  (f "l" = Some (vx (o_M x)) /\ f "m" = Some (vy (o_M x)) /\ f "n" = Some (vz (o_M x))) /\
  (c "x" = c_Cx (o_co x) /\ c "y" = c_Cy (o_co x) /\ c "z" = c_Cz (o_co x)) /\
  (c "D" = c_CD (o_co x) /\ c "C" = c_CC (o_co x) /\ c "L" = c_CL (o_co x)) /\
  (c "l" = c_Cl (o_co x) /\ c "m" = c_Cm (o_co x) /\ c "n" = c_Cn (o_co x)).
(** A row of panelwise.dat and a row of matrix.dat. *)
Definition panel_row (g : R) (x : panel_result) : list (option R) :=
  let v := o_iw x in let f := o_f x in
  [Some g; Some (vx v); Some (vy v); Some (vz v); Some (vnorm v); Some (vx f); Some (vy f); Some (vz f); Some (vnorm f); o_cp x].
Definition matrix_row (row : list R) (b : R) : list (option R) := (map Some row ++ [Some b])%list.

(** The aircraft has a wing with a segment. *)
Definition has_segment (a : aircraft) : Prop := exists wn w sn s, In (wn, w) (a_wings a) /\ In (sn, s) (w_segs w).
