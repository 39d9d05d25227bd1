(** Model of the analysis of one flight state in [standard_run] (stdfun/run.py:124-131): [gen_lattice],
    [calc_downwash], [calc_boundary], [solver], [calc_results] (aero/vlm.py) with the data that
    Python and C exchange (aero/c_vlm.cpp), and the tables of fileio/native/results.py.  It is
    the function [compute] of [RunModel].

    Simplifications:
    - the numerics are those of [VlmModel] and [NormalModel] (exact reals, undeformed wings); [None]
      as a number is NaN or an infinity, and an array with such an element counts as unknown as a
      whole; if a value of the state or a reference value is NaN, then all results are;
    - [dgesv] (scipy.linalg.lapack, external) is the Section variable [solve];
    - a numpy vector of floats is a list of floats (see [PyVal]), so a Python list of floats is not
      told apart from it; the arrays of the lattice always have the type that C expects, as they
      are made by [np.zeros] (vlm.py:356-361);
    - C prints a message if a value is missing or has the wrong type; messages are dropped. *)
From Coq Require Import Reals Qreals List String ZArith QArith Bool.
From Verif Require Import PyBase PyVal StateModel AircraftModel LatticeModel Vec PanelModel NormalModel VlmModel PrePanelModel.
From Verif Require RunModel.
Import List ListNotations.
Open Scope string_scope.

(** A double: [None] is NaN or an infinity. *)
Definition num_of (x : option Q) : option R := option_map Q2R x.

(** c_vlm.h:63-66; a C function returns a value or an error code. *)
Inductive cerr := ERR_TYPE | ERR_KEY.
Inductive cres (A : Type) := Got (a : A) | Fail (e : cerr).
Arguments Got {A} a.
Arguments Fail {A} e.
Notation "'get' x ':=' e 'in' k" := (match e with Got x => k | Fail c => Fail c end)
  (at level 200, x pattern, e at level 100, k at level 200).

(** [PyDict_Contains], [PyFloat_Check], [PyFloat_AsDouble] (e.g. c_vlm.cpp:634-650); an integer is
    not a float. *)
Definition get_float (d : dict pyval) (k : string) : cres (option R) :=
  match dget d k with
  | None => Fail ERR_KEY
  | Some (PFlt x) => Got (num_of x)
  | Some _ => Fail ERR_TYPE
  end.

(** [PyArray_Check], [PyArray_ISFLOAT] (e.g. 845-878). *)
Fixpoint floats_of (l : list pyval) : option (list (option R)) :=
  match l with
  | [] => Some []
  | PFlt x :: l' => match floats_of l' with Some r => Some (num_of x :: r) | None => None end
  | _ => None
  end.
Definition get_array (d : dict pyval) (k : string) : cres (list (option R)) :=
  match dget d k with
  | None => Fail ERR_KEY
  | Some (PList l) => match floats_of l with Some r => Got r | None => Fail ERR_TYPE end
  | Some _ => Fail ERR_TYPE
  end.

(** [get_statestruct] (612-762); [None] if a value is NaN. *)
Definition get_state (d : dict pyval) : cres (option flow) :=
  get v := get_float d "airspeed" in
  get a := get_float d "alpha" in
  get b := get_float d "beta" in
  get p := get_float d "rate_P" in
  get q := get_float d "rate_Q" in
  get r := get_float d "rate_R" in
  get rho := get_float d "density" in
  Got (match v, rho, a, b, p, q, r with
       | Some v, Some rho, Some a, Some b, Some p, Some q, Some r => Some (mkFlow v rho a b p q r)
       | _, _, _, _, _, _, _ => None
       end).

(** The three values that C reads from an array (c_boundary.cpp:50-52); shorter arrays: unknown. *)
Definition point_of (l : list (option R)) : option vec :=
  match l with Some x :: Some y :: Some z :: _ => Some (mkV x y z) | _ => None end.

(** [get_refstruct] (764-882). *)
Definition get_refs (d : dict pyval) : cres (option refs) :=
  get a := get_float d "area" in
  get s := get_float d "span" in
  get c := get_float d "chord" in
  get g := get_array d "gcenter" in
  get r := get_array d "rcenter" in
  Got (match a, s, c, point_of g, point_of r with
       | Some a, Some s, Some c, Some g, Some r => Some (mkRefs a s c g r)
       | _, _, _, _, _ => None
       end).

(** [VLMData] (vlm_struct.py:111-179). *)
Record vlmdata := mkVD {
  d_matrix : option (list (list R));
  d_rhs : option (list R);
  d_panel : dict (list (option R));
  d_forces : dict (option R);
  d_coeffs : dict (option R) }.
Definition new_loads : dict (option R) :=
  map (fun k => (k, Some 0%R)) ["x"; "y"; "z"; "D"; "C"; "L"; "l"; "m"; "n"].
Definition new_data : vlmdata :=
  mkVD None None (map (fun k => (k, [])) ["gamma"; "vx"; "vy"; "vz"; "vmag"; "fx"; "fy"; "fz"; "fmag"; "cp"])
    new_loads new_loads.

(** [set_resultstruct] (1135-1307): a missing key ends the function. *)
Fixpoint set_items (d : dict (option R)) (l : list (string * option R)) : dict (option R) * bool :=
  match l with
  | [] => (d, true)
  | (k, x) :: l' => if dmem d k then set_items (dset d k x) l' else (d, false)
  end.
Definition force_items (o : option results) : list (string * option R) :=
  let f (g : results -> R) := option_map g o in
  [("x", f (fun o => vx (o_F o))); ("y", f (fun o => vy (o_F o))); ("z", f (fun o => vz (o_F o)));
   ("D", f (fun o => c_D (o_co o))); ("C", f (fun o => c_C (o_co o))); ("L", f (fun o => c_L (o_co o)));
   ("l", f (fun o => vx (o_M o))); ("m", f (fun o => vy (o_M o))); ("n", f (fun o => vz (o_M o)))].
Definition coeff_items (o : option results) : list (string * option R) :=
  let c (g : coeffs -> option R) := match o with Some o => g (o_co o) | None => None end in
  [("x", c c_Cx); ("y", c c_Cy); ("z", c c_Cz); ("D", c c_CD); ("C", c c_CC); ("L", c c_CL);
   ("l", c c_Cl); ("m", c c_Cm); ("n", c c_Cn)].
Definition set_results (d : vlmdata) (o : option results) : vlmdata :=
  let '(f, ok) := set_items (d_forces d) (force_items o) in
  mkVD (d_matrix d) (d_rhs d) (d_panel d) f (if ok then fst (set_items (d_coeffs d) (coeff_items o)) else d_coeffs d).

(** Results per panel (c_results.cpp:129-133 and 158-205). *)
Definition panel_items (n : nat) (o : option results) : list (string * list (option R)) :=
  let p (g : panel_result -> option R) := match o with Some o => map g (o_panels o) | None => repeat None n end in
  [("vx", p (fun x => Some (vx (o_iw x)))); ("vy", p (fun x => Some (vy (o_iw x)))); ("vz", p (fun x => Some (vz (o_iw x))));
   ("vmag", p (fun x => Some (vnorm (o_iw x))));
   ("fx", p (fun x => Some (vx (o_f x)))); ("fy", p (fun x => Some (vy (o_f x)))); ("fz", p (fun x => Some (vz (o_f x))));
   ("fmag", p (fun x => Some (vnorm (o_f x)))); ("cp", p o_cp)].

(** Everything that lives longer than one state: aircraft, its reference values, VLM data. *)
Record world := mkWorld { x_aircraft : aircraft; x_refs : dict pyval; x_data : vlmdata }.
Definition table := list (list (option R)).

Section Analysis.
Variable interp : string -> string -> Q * Q -> Q * Q -> Q -> res Q.
Variable seg_dist : string -> string -> Q * Q -> Q * Q -> Q.
Variable geo : string -> string -> quad.
Variable camber : subarea_visit -> R -> R.
(** [dgesv]: the solution for a matrix and a right-hand side; the flag that tells whether the matrix
    is singular is dropped by [solver] (vlm.py:474). *)
Variable solve : option (list (list R)) -> option (list R) -> option (list R).

Definition zero_panel : panel :=
  mkPanel vzero vzero vzero vzero vzero vzero vzero vzero vzero vzero vzero 0.

(** [gen_lattice] (vlm.py:230-418) after [pre_panelling], with [py2c_lattice] (c_vlm.cpp:95-169).  If
    C cannot read the values, the arrays keep their zeros. *)
Definition make_lattice (s : dict pyval) (st : cres (option flow)) (a : aircraft) : res (option (list panel)) :=
  let? eps := getitem (PDict s) "_epsilon" in                                       (* 362 *)
  let? rot := getitem (PDict s) "_do_normal_rotations" in                           (* 379 *)
  let gen alpha beta := NormalModel.gen_lattice geo camber (PyVal.truthy rot) alpha beta a in
  match eps, st with
  | PFlt _, Got (Some f) => let? pn := gen (f_alpha f) (f_beta f) in Ok (Some (set_normals (fst pn) (snd pn)))
  | PFlt _, Got None => let? _ := gen 0%R 0%R in Ok None
  | _, _ => let? pn := gen 0%R 0%R in Ok (Some (map (fun _ => zero_panel) (fst pn)))
  end.

(** [get_latticestruct] (334-486): the only value that can fail is [epsilon]. *)
Definition get_epsilon (s : dict pyval) : cres (option R) := get_float s "_epsilon".

(** [calc_downwash] (421-444), [py2c_downwash] (172-208). *)
Definition calc_downwash (eps : cres (option R)) (lat : option (list panel)) (n : nat) : option (list (list R)) :=
  match eps with
  | Got e => match e, lat with Some e, Some l => downwash e l | _, _ => None end
  | Fail _ => Some (repeat (repeat 0%R n) n)
  end.

(** [calc_boundary] (447-466), [py2c_boundary] (211-260). *)
Definition calc_boundary (eps : cres (option R)) (lat : option (list panel)) (n : nat)
    (st : cres (option flow)) (rf : cres (option refs)) : option (list R) :=
  match eps, st, rf with
  | Got _, Got f, Got r => match lat, f, r with Some l, Some f, Some r => Some (boundary l f r) | _, _, _ => None end
  | _, _, _ => Some (repeat 0%R n)
  end.

(** [calc_results] (488-526), [py2c_results] (263-330): arrays with zeros, then C. *)
Definition calc_results (d : vlmdata) (eps : cres (option R)) (lat : option (list panel)) (n : nat)
    (st : cres (option flow)) (rf : cres (option refs)) (gamma : option (list R)) : vlmdata :=
  let zeros := fold_left (fun p k => dset p k (repeat (Some 0%R) n))
                 ["vx"; "vy"; "vz"; "vmag"; "fx"; "fy"; "fz"; "fmag"; "cp"] (d_panel d) in
  let d := mkVD (d_matrix d) (d_rhs d) zeros (d_forces d) (d_coeffs d) in
  match eps, st, rf with
  | Got e, Got f, Got r =>
    let o := match e, lat, f, r, gamma with
             | Some e, Some l, Some f, Some r, Some g => vlm_results e l f r g
             | _, _, _, _, _ => None
             end in
    let d := mkVD (d_matrix d) (d_rhs d) (dupdate (d_panel d) (panel_items n o)) (d_forces d) (d_coeffs d) in
    set_results d o
  | _, _, _ => d
  end.

(** Number of panels: [lattice.info['num_panels']] (vlm.py:327). *)
Definition num_panels (a : aircraft) : res nat := let? st := panel_count a in Ok (Z.to_nat (c_p st)).

(** [np.stack(..., axis=-1)] of columns (results.py:109). *)
Definition column (d : vlmdata) (k : string) : list (option R) := match dget (d_panel d) k with Some l => l | None => [] end.
Definition stack (n : nat) (cols : list (list (option R))) : table :=
  map (fun i => map (fun c => nth i c None) cols) (seq 0 n).
(** [_save_panelwise] (84-127) *)
Definition panel_table (n : nat) (d : vlmdata) : table :=
  stack n (map (column d) ["gamma"; "vx"; "vy"; "vz"; "vmag"; "fx"; "fy"; "fz"; "fmag"; "cp"]).
(** [_save_matrix_system] (130-157): matrix and right-hand side side by side. *)
Definition matrix_table (n : nat) (d : vlmdata) : table :=
  match d_matrix d, d_rhs d with
  | Some m, Some r => map (fun x => (map Some (fst x) ++ [Some (snd x)])%list) (combine m r)
  | _, _ => repeat (repeat None (S n)) n
  end.
Definition look (d : dict (option R)) (k : string) : option R := match dget d k with Some x => x | None => None end.

(** [calc_downwash], [calc_boundary], [solver], [calc_results] one after the other. *)
Definition steps (eps : cres (option R)) (st : cres (option flow)) (rf : cres (option refs)) (lat : option (list panel))
    (n : nat) (d : vlmdata) : vlmdata :=
  let m := calc_downwash eps lat n in
  let b := calc_boundary eps lat n st rf in
  let g := solve m b in
  let gamma := match g with Some g => map Some g | None => repeat None n end in
  calc_results (mkVD m b (dset (d_panel d) "gamma" gamma) (d_forces d) (d_coeffs d)) eps lat n st rf g.

(** run.py:118-131 for one state; [first] is [make_new_subareas]; the state gets the reference
    values of the aircraft (118).  The values of a state are floats (state.py:238).  Without panels
    the condition number (vlm.py:444) is an exception of numpy. *)
Definition analyse (s : dict pyval) (w : world) (first : bool) (aero : dict num)
    : world * res (RunModel.out (option R) table) :=
  let '(a, ra) := if first then pre_panelling interp seg_dist (x_aircraft w) else (x_aircraft w, Ok tt) in
  let stop e := (mkWorld a (x_refs w) (x_data w), Err e) in
  match ra with
  | Err e => stop e
  | Ok _ =>
    let st := get_state (map (fun kx => (fst kx, PFlt (snd kx))) aero) in
    match (let? n := num_panels a in let? l := make_lattice s st a in Ok (n, l)) with
    | Err e => stop e
    | Ok (n, lat) =>
      if Nat.eqb n 0 then stop LibError else
      let d := steps (get_epsilon s) st (get_refs (x_refs w)) lat n (x_data w) in
      (mkWorld a (x_refs w) d,
       Ok (RunModel.mkOut (look (d_forces d)) (look (d_coeffs d)) (panel_table n d) (matrix_table n d)))
    end
  end.
End Analysis.
