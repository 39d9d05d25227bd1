(** Model of the settings: objects/settings.py, objects/utils.py, fileio/native/settings.py, and the
    part of plot/makeplots.py that writes into the settings.

    Simplifications: paths and project directories are not modelled; log messages are dropped. *)
From Coq Require Import List String ZArith QArith Bool.
From Verif Require Import PyBase PyVal.
Import ListNotations.
Open Scope string_scope.

(** Types that occur in templates. *)
Inductive pytype := TyStr | TyInt | TyFloat | TyBool | TyList | TyDict.

(** A template dictionary maps keys to (default, dtype).  A default is a plain value or a nested
    template; dtype is a tuple of types, where None is [None]; a single type is a tuple with one
    element (utils.py:79). *)
Inductive tval :=
| TPlain (v : pyval)
| TNest (t : list (string * (tval * list (option pytype)))).
Definition template := list (string * (tval * list (option pytype))).

(** [isinstance(v, dtype)] (82); a bool is an int. *)
Definition is_instance1 (v : pyval) (ty : pytype) : bool :=
  match ty, v with
  | TyStr, PStr _ | TyInt, PInt _ | TyInt, PBool _ | TyFloat, PFlt _ | TyBool, PBool _
  | TyList, PList _ | TyDict, PDict _ => true
  | _, _ => false
  end.
Definition is_instance (v : pyval) (tys : list (option pytype)) : bool :=
  existsb (fun ty => match ty with Some t => is_instance1 v t | None => false end) tys.

Definition has_none (tys : list (option pytype)) : bool :=
  existsb (fun ty => match ty with None => true | Some _ => false end) tys.
Definition first_is_dict (tys : list (option pytype)) : bool :=
  match tys with Some TyDict :: _ => true | _ => false end.

(** [check_dict(template_dict, test_dict)] (utils.py:35-90). *)
Fixpoint check_dict (tv : tval) (v : pyval) : res unit :=
  match tv with
  | TPlain _ => Err AttributeError
  | TNest t =>
    (fix loop (t : template) : res unit :=
       match t with
       | [] => Ok tt
       | (key, (value, dtype)) :: t' =>
         let? _ := (if has_none dtype then Ok tt
                    else let? x := getitem v key in if is_instance x dtype then Ok tt else Err TypeError) in
         let? _ := (if first_is_dict dtype then let? x := getitem v key in check_dict value x else Ok tt) in
         loop t'
       end) t
  end.

(** [get_default_dict] (93-126). *)
Fixpoint default_of (tv : tval) : pyval :=
  match tv with
  | TPlain v => v
  | TNest t =>
    PDict ((fix go (t : template) : list (string * pyval) :=
              match t with [] => [] | (key, (value, _)) :: t' => (key, default_of value) :: go t' end) t)
  end.
Definition get_default_dict (t : template) : dict pyval :=
  map (fun e => (fst e, default_of (fst (snd e)))) t.

(** settings.py:37-71 *)
Definition PLOT_OPTIONS : template :=
  [("opt", (TPlain (PList []), [Some TyList])); ("show", (TPlain (PBool false), [Some TyBool]));
   ("save", (TPlain (PBool false), [Some TyBool]))].
Definition DEFAULT_PLOT_DICT : template :=
  [("geometry", (TNest PLOT_OPTIONS, [Some TyDict])); ("lattice", (TNest PLOT_OPTIONS, [Some TyDict]));
   ("matrix_downwash", (TNest PLOT_OPTIONS, [Some TyDict])); ("results", (TNest PLOT_OPTIONS, [Some TyDict]))].
Definition DEFAULT_SAVE_DICT : template :=
  [("global", (TPlain (PBool false), [Some TyBool])); ("panelwise", (TPlain (PBool false), [Some TyBool]));
   ("aeroperformance", (TPlain (PBool false), [Some TyBool])); ("matrix_system", (TPlain (PBool false), [Some TyBool]))].
Definition DEFAULT_SETTINGS : template :=
  [("aircraft", (TPlain PNone, [Some TyStr]));
   ("state", (TPlain PNone, [Some TyStr]));
   ("deformation", (TPlain PNone, [None; Some TyStr]));
   ("vlm_autopanels_c", (TPlain (PInt 4), [Some TyInt]));
   ("vlm_autopanels_s", (TPlain (PInt 4), [Some TyInt]));
   ("save_results", (TNest DEFAULT_SAVE_DICT, [Some TyDict]));
   ("plot", (TNest DEFAULT_PLOT_DICT, [Some TyDict]));
   ("_do_normal_rotations", (TPlain (PBool true), [Some TyBool]));
   ("_deformation_check", (TPlain (PBool true), [Some TyBool]));
   ("_epsilon", (TPlain (PFlt (Some (1 # 1000000))), [Some TyFloat]))].

(** [self.settings] of a new object (127). *)
Definition new_settings : dict pyval := get_default_dict DEFAULT_SETTINGS.

(** [v[k] = x] for an object reached through a dictionary. *)
Definition setitem (v : pyval) (k : string) (x : pyval) : pyval :=
  match v with PDict d => PDict (dset d k x) | _ => v end.

(** [_check_settings_dict] (227-237). *)
Definition check_settings (s : dict pyval) : res unit :=
  let? _ := check_dict (TNest DEFAULT_SETTINGS) (PDict s) in
  match dget s "_epsilon" with
  | Some (PFlt (Some e)) => if Qltb 0 e && Qltb e 1 then Ok tt else Err ValueError
  | Some (PFlt None) => Err ValueError
  | Some _ => Err TypeError       (* not reached: the type was checked *)
  | None => Err KeyError
  end.

(** [update_from_dict] (202-218).  The values of the caller's dictionary are stored by reference:
    if it has the key 'plot', then the change of 'opt' (215-216) is seen by the caller as well.
    The result is the settings, the caller's dictionary, and the outcome. *)
Definition update (s d : dict pyval) : dict pyval * dict pyval * res unit :=
  let s1 := dupdate s d in
  match (let? plot := getitem (PDict s1) "plot" in
         let? results := getitem plot "results" in
         let? opt := getitem results "opt" in Ok (plot, results, opt)) with
  | Err e => (s1, d, Err e)
  | Ok (plot, results, opt) =>
    if truthy opt then (s1, d, check_settings s1)
    else
      let plot' := setitem plot "results" (setitem results "opt" (PList [PStr "cp"])) in
      let s2 := dset s1 "plot" plot' in
      (s2, if dmem d "plot" then dset d "plot" plot' else d, check_settings s2)
  end.

(** [clean_dict] (fileio/native/settings.py:87-106), as a function from the dictionary before the
    call to the dictionary after it; nested dictionaries are changed in place, lists are not
    visited. *)
Fixpoint clean (v : pyval) : pyval :=
  match v with
  | PDict d =>
    PDict ((fix go (d : list (string * pyval)) : list (string * pyval) :=
              match d with
              | [] => []
              | (k, x) :: d' => if startswith "_" k then go d' else (k, clean x) :: go d'
              end) d)
  | _ => v
  end.
Definition clean_dict (d : dict pyval) : dict pyval :=
  match clean (PDict d) with PDict d' => d' | _ => d end.

(** [save] (70-84): the settings after the call, and the content of the file. *)
Definition save (s : dict pyval) : dict pyval * res pyval :=
  let s' := clean_dict s in (s', dump (PDict s')).

(** [load] (42-67) of a file with the content [d]; the constructor starts from the defaults
    (settings.py:127-130). *)
Definition load (d : dict pyval) : dict pyval * res unit :=
  let '(s, _, r) := update new_settings d in (s, r).

(** What [make_all] (plot/makeplots.py:50-75) stores in the settings: the plot directory. *)
Definition add_plot_dir (path : string) (s : dict pyval) (name : string) : dict pyval :=
  match getitem (PDict s) "plot" with
  | Ok plot => match getitem plot name with
               | Ok opts => dset s "plot" (setitem plot name (setitem opts "plot_dir" (PPath path)))
               | Err _ => s
               end
  | Err _ => s
  end.
Definition after_plots (path : string) (s : dict pyval) : dict pyval :=
  fold_left (add_plot_dir path) ["matrix_downwash"; "geometry"; "lattice"; "results"] s.
