(** Model of the reference counts in the Python wrappers of aero/c_vlm.cpp.

    An object has a number, a kind and a reference count.  Attributes and dictionary items are the
    references that containers hold.  What the numerical functions compute is left out: they work
    on the data blocks of arrays and touch no reference count.

    Simplifications: keys of dictionaries are compared by their text; the key objects stored in a
    dictionary are not listed (an existing item keeps its key object, so replacing an item changes
    no count of a key); [PyDict_Contains] on something that is no dictionary is undefined; Python
    objects that are freed when their count falls to zero stay listed with count zero; attributes
    are plain ones (no property, no [__getattr__]); each key is taken as a new object, although
    CPython hands out one shared object for a text of one character (the count of that object grows
    instead). *)
From Coq Require Import List ZArith String Bool.
Import ListNotations.
Open Scope Z_scope.

Inductive kind := KFloatArray | KOtherArray | KFloat | KLong | KStr | KDict | KOther.
Definition kind_eqb (a b : kind) : bool :=
  match a, b with
  | KFloatArray, KFloatArray | KOtherArray, KOtherArray | KFloat, KFloat | KLong, KLong | KStr, KStr | KDict, KDict | KOther, KOther => true
  | _, _ => false
  end.
Definition slots := list (Z * string * Z).     (* owner, name, value *)
Record pyworld := mkPW { objs : list (kind * Z) (* object i is element i *); attrs : slots; items : slots }.

Inductive outcome := Success | ERR_TYPE | ERR_KEY | ERR_ATTRIBUTE | Undefined.
Definition M (A : Type) := pyworld -> pyworld * (A + outcome).
Definition ret {A} (x : A) : M A := fun w => (w, inl x).
Definition fail {A} (e : outcome) : M A := fun w => (w, inr e).
Definition seqm {A B} (m : M A) (f : A -> M B) : M B :=
  fun w => let (w', r) := m w in match r with inl x => f x w' | inr e => (w', inr e) end.
Notation "'do' x <- a ; b" := (seqm a (fun x => b)) (at level 200, x pattern, a at level 100, b at level 200).

(** ** The C API *)
Definition count_of (l : list (kind * Z)) (o : Z) : Z := match nth_error l (Z.to_nat o) with Some (_, c) => c | None => 0 end.
Definition kind_of (w : pyworld) (o : Z) : kind := match nth_error (objs w) (Z.to_nat o) with Some (k, _) => k | None => KOther end.
Definition add_count (l : list (kind * Z)) (o d : Z) : list (kind * Z) :=
  match nth_error l (Z.to_nat o) with
  | Some (k, c) => firstn (Z.to_nat o) l ++ (k, c + d) :: skipn (S (Z.to_nat o)) l
  | None => l
  end.
Fixpoint lookup (l : slots) (o : Z) (name : string) : option Z :=
  match l with
  | [] => None
  | (o', n', v) :: l' => if (o' =? o) && String.eqb n' name then Some v else lookup l' o name
  end.
Fixpoint replace (l : slots) (o : Z) (name : string) (v : Z) : slots :=
  match l with
  | [] => [(o, name, v)]
  | (o', n', v') :: l' => if (o' =? o) && String.eqb n' name then (o, name, v) :: l' else (o', n', v') :: replace l' o name v
  end.

(** [PyObject_HasAttrString] *)
Definition has_attr (o : Z) (name : string) : M bool :=
  fun w => (w, inl (match lookup (attrs w) o name with Some _ => true | None => false end)).
(** [PyObject_GetAttrString]: a new reference. *)
Definition get_attr (o : Z) (name : string) : M Z :=
  fun w => match lookup (attrs w) o name with
  | Some v => (mkPW (add_count (objs w) v 1) (attrs w) (items w), inl v)
  | None => (w, inr ERR_ATTRIBUTE)
  end.
(** [PyUnicode_FromString], [PyFloat_FromDouble]: a new object with count 1. *)
Definition new_object (k : kind) : M Z :=
  fun w => (mkPW (objs w ++ [(k, 1)]) (attrs w) (items w), inl (Z.of_nat (List.length (objs w)))).
(** [PyDict_Contains], [PyDict_GetItem] (borrowed reference). *)
Definition dict_contains (d : Z) (name : string) : M bool :=
  fun w => match kind_of w d with
  | KDict => (w, inl (match lookup (items w) d name with Some _ => true | None => false end))
  | _ => (w, inr Undefined)
  end.
Definition dict_get (d : Z) (name : string) : M Z :=
  fun w => match lookup (items w) d name with Some v => (w, inl v) | None => (w, inr Undefined) end.
(** [PyDict_SetItem] on an existing key: takes its own reference to the new value, drops the one to
    the old value. *)
Definition dict_set (d : Z) (name : string) (v : Z) : M unit :=
  fun w => let objs1 := add_count (objs w) v 1 in
  let objs2 := match lookup (items w) d name with Some old => add_count objs1 old (-1) | None => objs1 end in
  (mkPW objs2 (attrs w) (replace (items w) d name v), inl tt).
(** Type checks: no effect on counts. *)
Definition check (p : kind -> bool) (o : Z) (e : outcome) : M unit :=
  fun w => if p (kind_of w o) then (w, inl tt) else (w, inr e).
Definition is_array (k : kind) : bool := kind_eqb k KFloatArray || kind_eqb k KOtherArray.
Definition is_float_array (k : kind) : bool := kind_eqb k KFloatArray.

(** ** Readers and writers *)

(** Array attribute (345-355 and the same for the other arrays): the checked reference and the used
    one are both new. *)
Definition array_attr (o : Z) (name : string) : M Z :=
  do h <- has_attr o name;
  if (h : bool) then do t <- get_attr o name; do _ <- check is_array t ERR_TYPE; get_attr o name
  else fail ERR_ATTRIBUTE.
Fixpoint each {A} (f : A -> M Z) (l : list A) : M (list Z) :=
  match l with
  | [] => ret []
  | x :: l' => do y <- f x; do r <- each f l'; ret (y :: r)
  end.
Fixpoint each_ (l : list (M unit)) : M unit :=
  match l with [] => ret tt | m :: l' => do _ <- m; each_ l' end.

(** [get_latticestruct] (332-488) *)
Definition lattice_arrays : list string := ["p"; "v"; "c"; "bound_leg_midpoints"; "n"; "a"]%string.
Definition get_latticestruct (lattice : Z) : M unit :=
  do arrays <- each (array_attr lattice) lattice_arrays;
  do h <- has_attr lattice "epsilon";
  if (h : bool) then
    do t <- get_attr lattice "epsilon";
    do _ <- check (kind_eqb KFloat) t ERR_TYPE;
    do _ <- get_attr lattice "epsilon";
    each_ (map (fun a => check is_float_array a ERR_TYPE) arrays)
  else fail ERR_ATTRIBUTE.

(** Attribute that is a dictionary (500-506, 556-562, 633-639, 776-782, 896-902, 1144-1150,
    1238-1244). *)
Definition dict_attr (o : Z) (name : string) : M Z :=
  do h <- has_attr o name;
  if (h : bool) then get_attr o name else fail ERR_ATTRIBUTE.
(** A value of a dictionary: key object, containment, type (510-524). *)
Definition dict_value (p : kind -> bool) (d : Z) (name : string) : M Z :=
  do _ <- new_object KStr;
  do h <- dict_contains d name;
  if (h : bool) then do v <- dict_get d name; do _ <- check p v ERR_TYPE; ret v else fail ERR_KEY.
(** Storing a number (567-573). *)
Definition store_value (d : Z) (name : string) : M unit :=
  do _ <- new_object KStr;
  do h <- dict_contains d name;
  if (h : bool) then do f <- new_object KFloat; dict_set d name f else fail ERR_KEY.

(** [get_infostruct] (490-545), [set_infostruct] (547-621) *)
Definition get_infostruct (lattice : Z) : M unit :=
  do d <- dict_attr lattice "info";
  do _ <- each (dict_value (kind_eqb KLong) d) ["num_panels"; "num_segments"]%string; ret tt.
Definition set_infostruct (lattice : Z) : M unit :=
  do d <- dict_attr lattice "info";
  each_ (map (store_value d) ["area_min"; "area_max"; "area_avg"; "aspect_min"; "aspect_max"; "aspect_avg"]%string).
(** [get_statestruct] (623-763) *)
Definition get_statestruct (state : Z) : M unit :=
  do d <- dict_attr state "aero";
  do _ <- each (dict_value (kind_eqb KFloat) d) ["airspeed"; "alpha"; "beta"; "rate_P"; "rate_Q"; "rate_R"; "density"]%string; ret tt.
(** [get_refstruct] (765-885) *)
Definition get_refstruct (state : Z) : M unit :=
  do d <- dict_attr state "refs";
  do _ <- each (dict_value (kind_eqb KFloat) d) ["area"; "span"; "chord"]%string;
  do ps <- each (dict_value is_array d) ["gcenter"; "rcenter"]%string;
  each_ (map (fun a => check is_float_array a ERR_TYPE) ps).
(** [get_resultstruct] (887-1133), [set_resultstruct] (1135-1330) *)
Definition get_resultstruct (data : Z) : M unit :=
  do d <- dict_attr data "panelwise";
  do l <- each (dict_value is_array d) ["gamma"; "vx"; "vy"; "vz"; "vmag"; "fx"; "fy"; "fz"; "fmag"; "cp"]%string;
  each_ (map (fun a => check is_float_array a ERR_TYPE) l).
Definition set_resultstruct (data : Z) : M unit :=
  do f <- dict_attr data "forces";
  do _ <- each_ (map (store_value f) ["x"; "y"; "z"; "D"; "C"; "L"; "l"; "m"; "n"]%string);
  do c <- dict_attr data "coeffs";
  each_ (map (store_value c) ["x"; "y"; "z"; "D"; "C"; "L"; "l"; "m"; "n"]%string).

(** ** The functions called from Python (95-329); an error code ends the call, None is returned.
    Not listed: the reference to None that is returned, and the arguments (borrowed). *)
Definition py2c_lattice (lattice state : Z) : M unit :=
  do _ <- get_latticestruct lattice; do _ <- get_infostruct lattice; do _ <- get_statestruct state; set_infostruct lattice.
Definition py2c_downwash (lattice : Z) : M unit :=
  do _ <- get_latticestruct lattice; get_infostruct lattice.
Definition py2c_boundary (lattice state : Z) : M unit :=
  do _ <- get_latticestruct lattice; do _ <- get_infostruct lattice; do _ <- get_statestruct state; get_refstruct state.
Definition py2c_results (lattice state data : Z) : M unit :=
  do _ <- get_latticestruct lattice; do _ <- get_infostruct lattice; do _ <- get_statestruct state; do _ <- get_refstruct state;
  do _ <- get_resultstruct data; set_resultstruct data.

(** The calls for one flight state (stdfun/run.py:129-135, aero/vlm.py:365, 440, 462, 506).  The array ['gamma'] and the
    result arrays are made by Python between the calls. *)
Inductive call := CLattice | CDownwash | CBoundary | CResults.
Definition perform (lattice state data : Z) (c : call) : M unit :=
  match c with
  | CLattice => py2c_lattice lattice state
  | CDownwash => py2c_downwash lattice
  | CBoundary => py2c_boundary lattice state
  | CResults => py2c_results lattice state data
  end.
