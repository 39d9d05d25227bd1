(** Model of [WingControl]: the [device_type] setter and [check] (objects/aircraft.py:1342-1526).

    Simplifications: the control holds its data as Python values; the symmetry of the parent wing
    is an argument; log messages are dropped. *)
From Coq Require Import List String ZArith QArith Bool.
From Verif Require Import PyBase PyVal SchemaModel.
Import ListNotations.
Open Scope string_scope.

Record ctldef := mkCD {
  cd_uid : string;
  cd_device : option string;
  cd_deflection : pyval;
  cd_mirror : pyval;
  cd_segment : dict pyval;
  cd_rel : dict pyval;
  cd_hinge : dict pyval;
  cd_panels : dict pyval }.

(** [WingControl.__init__] (1371-1404). *)
Definition new_control (uid : string) : ctldef :=
  mkCD uid None PNone PNone
    [("inner", PNone); ("outer", PNone)]
    [("eta_inner", PNone); ("eta_outer", PNone); ("xsi_inner", PNone); ("xsi_outer", PNone)]
    [("xsi_inner", PNone); ("xsi_outer", PNone)]
    [("num_c", PNone)].

(** [device_type] setter (1411-1419). *)
Definition set_device (c : ctldef) (v : pyval) : res ctldef :=
  match v with
  | PStr s =>
    if String.eqb s "slat" || String.eqb s "flap" then
      Ok (mkCD (cd_uid c) (Some s) (cd_deflection c) (cd_mirror c) (cd_segment c) (cd_rel c) (cd_hinge c) (cd_panels c))
    else Err ValueError
  | _ => Err TypeError
  end.

Definition set_deflections (c : ctldef) (d m : pyval) : ctldef :=
  mkCD (cd_uid c) (cd_device c) d m (cd_segment c) (cd_rel c) (cd_hinge c) (cd_panels c).

(** [x == y] for the segment uids, which are strings or None here. *)
Definition same_uid (x y : pyval) : bool :=
  match x, y with PStr a, PStr b => String.eqb a b | PNone, PNone => true | _, _ => false end.

(** [a <= b] for numbers; with None a TypeError; False for NaN. *)
Definition py_le (a b : pyval) : res bool :=
  match number_of a, number_of b with
  | Some (Some x), Some (Some y) => Ok (Qleb x y)
  | Some _, Some _ => Ok false
  | _, _ => Err TypeError
  end.

(** [-90.0 <= v <= +90.0] *)
Definition in_90 (v : pyval) : bool :=
  match number_of v with Some (Some q) => Qleb (-90) q && Qleb q 90 | _ => false end.
(** [float(v)] of a number. *)
Definition to_flt (v : pyval) : pyval := match number_of v with Some x => PFlt x | None => v end.

Section Check.
Variable none_ok int_ok : bool.
Let v := validate none_ok.
Let unit_rule := r_float_in int_ok 0 1.

(** The four schemas (1346-1369, validated in 1490-1493). *)
Definition check_schemas (c : ctldef) : res unit :=
  let? _ := v ["inner"; "outer"] [("inner", r_str); ("outer", r_str)] (cd_segment c) in
  let? _ := v [] [("num_c", r_int_pos)] (cd_panels c) in
  let? _ := v ["eta_inner"; "eta_outer"; "xsi_inner"; "xsi_outer"]
              [("eta_inner", unit_rule); ("eta_outer", unit_rule); ("xsi_inner", unit_rule); ("xsi_outer", unit_rule)] (cd_rel c) in
  v ["xsi_inner"; "xsi_outer"] [("xsi_inner", unit_rule); ("xsi_outer", unit_rule)] (cd_hinge c).

(** 1499-1501 *)
Definition check_order (c : ctldef) : res unit :=
  let? i := getitem (PDict (cd_segment c)) "inner" in
  let? o := getitem (PDict (cd_segment c)) "outer" in
  if same_uid i o then
    let? eo := getitem (PDict (cd_rel c)) "eta_outer" in
    let? ei := getitem (PDict (cd_rel c)) "eta_inner" in
    let? b := py_le eo ei in
    if b then Err ValueError else Ok tt
  else Ok tt.

(** 1503-1511 *)
Definition check_angle (d : pyval) : res pyval :=
  if negb (is_num d) then Err TypeError
  else if negb (in_90 d) then Err ValueError
  else Ok (to_flt d).

(** [check] (1485-1526): the control after the call, and the outcome.  [sym]: the wing has
    symmetry ([self.symmetry != 0]). *)
Definition check (sym : bool) (c : ctldef) : ctldef * res unit :=
  match (let? _ := check_schemas c in
         let? _ := (match cd_device c with None => Err ComponentDefinitionError | Some _ => Ok tt end) in
         let? _ := check_order c in
         match cd_deflection c with PNone => Err ComponentDefinitionError | d => check_angle d end) with
  | Err e => (c, Err e)
  | Ok d =>
    match cd_mirror c with
    | PNone => (set_deflections c d (if sym then d else PNone), Ok tt)
    | m =>
      if sym then
        match check_angle m with
        | Ok m' => (set_deflections c d m', Ok tt)
        | Err e => (set_deflections c d m, Err e)
        end
      else (set_deflections c d m, Ok tt)
    end
  end.
End Check.
