(** Model of the flight state: objects/state.py, fileio/native/state.py, fileio/cpacs/state.py.

    Simplifications:
    - integers and floats of a state file are exact rationals; products are exact;
      NaN is [None] of [num], infinities are not modelled;
    - entries of a list are scalars (null, bool, number, string); nested lists are not expressible;
    - log messages are dropped. *)
From Coq Require Import List String ZArith QArith Bool.
From Verif Require Import PyBase.
Import ListNotations.
Open Scope string_scope.

(** A float of a numpy array: [None] is NaN. *)
Definition num := option Q.

(** Scalars that a state dictionary can hold (JSON, or Python values of the same kind). *)
Inductive sval := VNone | VBool (b : bool) | VNum (q : Q) | VNan | VStr (s : string).
(** An entry given by the user: a scalar or a list. *)
Inductive entry := One (v : sval) | Many (l : list sval).

(** A value stored in [FlightState.aero]: a scalar (initially None, state.py:122-124), a list
    (165) or a float array (201-203). *)
Inductive stored := SRaw (v : sval) | SList (l : list sval) | SArr (l : list num).

(** state.py:41-49 *)
Definition AIRSPEED := "airspeed". Definition ALPHA := "alpha". Definition ALTITUDE := "altitude".
Definition BETA := "beta". Definition DENSITY := "density". Definition MACH := "mach".
Definition RATE_P := "rate_P". Definition RATE_Q := "rate_Q". Definition RATE_R := "rate_R".

(** 51-61 *)
Definition STATE_ALL_PARAMS : list string :=
  [AIRSPEED; ALPHA; ALTITUDE; BETA; DENSITY; MACH; RATE_P; RATE_Q; RATE_R].
(** 64-72 *)
Definition STATE_PRIMARY_PARAMS : list string :=
  [AIRSPEED; ALPHA; BETA; DENSITY; RATE_P; RATE_Q; RATE_R].

(** [FlightState] (107-135) without the result lists. *)
Record fstate := mkFS { f_aero : dict stored; f_num : nat; f_idx : option nat }.

(** [FlightState.__init__] (109-135). *)
Definition new_state : fstate := mkFS (map (fun p => (p, SRaw VNone)) STATE_ALL_PARAMS) 0 None.

Definition set_aero (st : fstate) (a : dict stored) : fstate := mkFS a (f_num st) (f_idx st).

(** [isinstance(value, (int, float))] (186): True for bool as well. *)
Definition is_number (v : sval) : bool :=
  match v with VBool _ | VNum _ | VNan => true | VNone | VStr _ => false end.

(** 160-161: [if not isinstance(value, list): value = [value]]. *)
Definition to_list (e : entry) : list sval := match e with One v => [v] | Many l => l end.

(** 159-165: every entry of the dictionary is stored as a list. *)
Definition fill (a : dict stored) (d : dict entry) : dict stored :=
  fold_left (fun acc kv => dset acc (fst kv) (SList (to_list (snd kv)))) d a.

(** 184-187.  The elements of an array are numpy floats, which are instances of float.
    The nine parameters are always present (init); a scalar that is not None could only come from
    a direct assignment to [aero], which is outside this model. *)
Definition is_input (a : dict stored) (p : string) : bool :=
  match dget a p with
  | Some (SList l) => forallb is_number l
  | Some (SArr _) => true
  | _ => false
  end.

(** 189-190: airspeed+density, airspeed+altitude or mach+altitude. *)
Definition valid_inputs (a : dict stored) : bool :=
  match is_input a AIRSPEED, is_input a MACH, is_input a DENSITY, is_input a ALTITUDE with
  | true, false, true, false | true, false, false, true | false, true, false, true => true
  | _, _, _, _ => false
  end.

Section State.
(** [float(s)] for a string, as done by numpy (external). *)
Variable parse : string -> res num.
(** [ambiance.Atmosphere(h)]: density and speed of sound for an array of altitudes, or an
    exception (external). *)
Variable atmosphere : list num -> res (list num * list num).

(** One element of [np.array(..., dtype=float)] (203). *)
Definition to_float (v : sval) : res num :=
  match v with
  | VNone | VNan => Ok None
  | VBool b => Ok (Some (if b then 1 else 0)%Q)
  | VNum q => Ok (Some q)
  | VStr s => parse s
  end.
Fixpoint to_array (l : list sval) : res (list num) :=
  match l with
  | [] => Ok []
  | v :: l' => let? x := to_float v in let? xs := to_array l' in Ok (x :: xs)
  end.

(** 201-203, for the parameters [ps]; an exception leaves the later ones unconverted. *)
Fixpoint convert (ps : list string) (a : dict stored) : dict stored * res unit :=
  match ps with
  | [] => (a, Ok tt)
  | p :: ps' =>
    match dget a p with
    | Some (SList l) =>
      match to_array l with
      | Ok xs => convert ps' (dset a p (SArr xs))
      | Err e => (a, Err e)
      end
    | _ => convert ps' a
    end
  end.

Definition array_of (a : dict stored) (p : string) : list num :=
  match dget a p with Some (SArr xs) => xs | _ => [] end.

(** Product of floats; NaN is absorbing. *)
Definition nmul (x y : num) : num :=
  match x, y with Some a, Some b => Some (a * b)%Q | _, _ => None end.

(** Elementwise product of two arrays with numpy's broadcasting. *)
Definition amul (xs ys : list num) : res (list num) :=
  if Nat.eqb (List.length xs) (List.length ys) then Ok (map (fun p => nmul (fst p) (snd p)) (combine xs ys))
  else match xs, ys with
       | [x], _ => Ok (map (nmul x) ys)
       | _, [y] => Ok (map (fun x => nmul x y) xs)
       | _, _ => Err ValueError
       end.

(** [(x < -90) & (x > 90)] (222); comparisons with NaN are False. *)
Definition range_is_not_ok (x : num) : bool :=
  match x with Some q => Qltb q (-90) && Qltb 90 q | None => false end.

(** [check_values] (217-224): ordering comparison of None is a TypeError. *)
Definition check_angle (a : dict stored) (p : string) : res unit :=
  match dget a p with
  | Some (SArr xs) => if existsb range_is_not_ok xs then Err ValueError else Ok tt
  | _ => Err TypeError
  end.
Definition check_values (a : dict stored) : res unit :=
  let? _ := check_angle a ALPHA in check_angle a BETA.

(** 205-215: the part after the conversion; the flags were computed before it. *)
Definition derive (in_alt in_dens in_mach : bool) (a : dict stored) : dict stored * res unit :=
  match (if in_alt then let? r := atmosphere (array_of a ALTITUDE) in Ok (Some r) else Ok None) with
  | Err e => (a, Err e)
  | Ok r =>
    match (if in_dens then Ok a else
           match r with Some (rho, _) => Ok (dset a DENSITY (SArr rho)) | None => Err UnboundLocalError end) with
    | Err e => (a, Err e)
    | Ok a1 =>
      match (if in_mach then
               match r with
               | Some (_, c) => let? v := amul (array_of a1 MACH) c in Ok (dset a1 AIRSPEED (SArr v))
               | None => Err UnboundLocalError
               end
             else Ok a1) with
      | Err e => (a1, Err e)
      | Ok a2 => (a2, check_values a2)
      end
    end
  end.

(** Lengths of the lists: 164 and 167-168; [None] if they differ. *)
Definition common_length (d : dict entry) : option nat :=
  match d with
  | [] => None
  | (_, e) :: d' =>
    let n := List.length (to_list e) in
    if forallb (fun kv => Nat.eqb (List.length (to_list (snd kv))) n) d' then Some n else None
  end.

(** [FlightState.update_from_dict] (154-215). *)
Definition update (st : fstate) (d : dict entry) : fstate * res unit :=
  let a := fill (f_aero st) d in
  match d, common_length d with
  | [], _ => (st, Err IndexError)                                  (* 170: [list(set())[0]] *)
  | _, None => (set_aero st a, Err ValueError)                     (* 167-168 *)
  | _, Some n =>
    let st1 := mkFS a n (f_idx st) in
    if valid_inputs a then
      let '(a1, r1) := convert STATE_ALL_PARAMS a in
      match r1 with
      | Err e => (set_aero st1 a1, Err e)
      | Ok _ =>
        let '(a2, r2) := derive (is_input a ALTITUDE) (is_input a DENSITY) (is_input a MACH) a1 in
        (set_aero st1 a2, r2)
      end
    else (st1, Err ValueError)                                     (* 190-198 *)
  end.

(** [float(self.aero[param][i])] (238). *)
Definition read (a : dict stored) (p : string) (i : nat) : res num :=
  match dget a p with
  | None => Err KeyError
  | Some (SRaw _) => Err TypeError
  | Some (SList l) => match nth_error l i with None => Err IndexError | Some VNone => Err TypeError | Some v => to_float v end
  | Some (SArr xs) => match nth_error xs i with None => Err IndexError | Some x => Ok x end
  end.
Fixpoint read_all (a : dict stored) (ps : list string) (i : nat) : res (dict num) :=
  match ps with
  | [] => Ok []
  | p :: ps' => let? x := read a p i in let? l := read_all a ps' i in Ok ((p, x) :: l)
  end.

(** [iter_states] (226-242): the states that are yielded, and how the iteration ends.  The velocity
    vector of the state is the function of [VlmModel] applied to these values. *)
Fixpoint iter_from (a : dict stored) (i k : nat) : list (dict num) * res unit :=
  match k with
  | O => ([], Ok tt)
  | S k' =>
    match read_all a STATE_PRIMARY_PARAMS i with
    | Err e => ([], Err e)
    | Ok row => let '(rows, r) := iter_from a (S i) k' in (row :: rows, r)
    end
  end.
Definition iter_states (st : fstate) : list (dict num) * res unit := iter_from (f_aero st) 0 (f_num st).

(** [native.state.save] (fileio/native/state.py:67-86): the 'aero' dictionary; an array is written
    as a list of floats ([NDArrayEncoder], fileio/utils.py:34-46), NaN as the JSON extension NaN. *)
Definition save_entry (v : stored) : entry :=
  match v with
  | SRaw v => One v
  | SList l => Many l
  | SArr xs => Many (map (fun x => match x with Some q => VNum q | None => VNan end) xs)
  end.
Definition save (st : fstate) : dict entry := map (fun kv => (fst kv, save_entry (snd kv))) (f_aero st).

(** [native.state.load] (38-64). *)
Definition load (d : dict entry) : fstate * res unit := update new_state d.

(** [cpacs.state.load] (fileio/cpacs/state.py:38-109): the four vectors of the aeroperformance map,
    as read through tixi. *)
Definition floats (l : list num) : entry := Many (map (fun x => match x with Some q => VNum q | None => VNan end) l).
Definition load_apm (altitude mach alpha beta : list num) : fstate * res unit :=
  let n := List.length altitude in
  if (Nat.eqb (List.length mach) n && Nat.eqb (List.length alpha) n && Nat.eqb (List.length beta) n)%bool then
    let zeros := Many (repeat (VNum 0) n) in
    update new_state [(ALTITUDE, floats altitude); (ALPHA, floats alpha); (BETA, floats beta); (MACH, floats mach);
                      (RATE_P, zeros); (RATE_Q, zeros); (RATE_R, zeros)]
  else (new_state, Err ValueError).
End State.
