(** Model of the native aircraft file: [load] and [save] (fileio/native/aircraft.py:43-205), the
    constructors and setters they use, and [Aircraft.generate], [Wing.generate],
    [WingSegment.generate] with their checks (objects/aircraft.py), as far as the definition of
    the aircraft is concerned.

    Simplifications:
    - the document is the value handed to [json.dump] / returned by [json.load]; reading and writing
      the file is external (see [PyVal.dump]);
    - an exception aborts [load], so the aircraft under construction is not part of the result;
    - a numpy vector is a list of floats;
    - the geometric values computed from the four vertices (aircraft.py:1051-1216) are a Section
      variable here ([derive]; see [SegmentModel]), so is the import of airfoils and the part of
      [Wing.generate] after the segments, which can raise but changes no definition;
    - strips, positions, airfoil objects and states are not part of the definition. *)
From Coq Require Import List String Ascii ZArith QArith Bool.
From Verif Require Import PyBase PyVal SchemaModel ControlModel.
Import ListNotations.
Open Scope string_scope.

Record segdef := mkSD {
  sd_uid : string; sd_vertices : dict pyval; sd_geometry : dict pyval; sd_airfoils : dict pyval; sd_panels : dict pyval }.
Record wingdef := mkWD { wd_uid : string; wd_symmetry : pyval; wd_segs : dict segdef; wd_ctls : dict ctldef }.
Record acdef := mkAD { ad_uid : string; ad_refs : dict pyval; ad_wings : dict wingdef }.

Definition nones (l : list string) : dict pyval := map (fun k => (k, PNone)) l.
Definition GEO_KEYS : list string :=
  ["inner_chord"; "inner_alpha"; "inner_beta"; "inner_axis"; "outer_chord"; "outer_alpha"; "outer_beta"; "outer_axis";
   "span"; "sweep"; "dihedral"].
Definition REF_KEYS : list string := ["area"; "span"; "chord"; "gcenter"; "rcenter"; "comment"].

(** [WingSegment.__init__] (aircraft.py:576-619), [Aircraft.__init__] (126-141). *)
Definition new_vertices := nones ["a"; "b"; "c"; "d"].
Definition new_geometry := nones GEO_KEYS.
Definition new_airfoils := nones ["inner"; "outer"].
Definition new_seg_panels := nones ["num_c"; "num_s"].
Definition new_refs := nones REF_KEYS.

(** [v.items()], iteration over [v], [v.get(k, default)]. *)
Definition items (v : pyval) : res (dict pyval) :=
  match v with PDict d => Ok d | _ => Err AttributeError end.
Fixpoint chars (s : string) : list pyval :=
  match s with EmptyString => [] | String c r => PStr (String c EmptyString) :: chars r end.
Definition iter (v : pyval) : res (list pyval) :=
  match v with
  | PList l => Ok l
  | PDict d => Ok (map (fun kx => PStr (fst kx)) d)
  | PStr s => Ok (chars s)
  | _ => Err TypeError
  end.
Definition get_or (v : pyval) (k : string) (default : pyval) : res pyval :=
  let? d := items v in Ok (match dget d k with Some x => x | None => default end).

(** The uid checks of [add_wing], [add_segment], [add_control] (226-243, 352-388) and of the uid
    setters. *)
Definition new_uid {V} (d : dict V) (u : pyval) : res string :=
  if negb (truthy u) then Err ComponentDefinitionError
  else match u with
       | PStr s => if dmem d s then Err ValueError else Ok s
       | _ => Err TypeError
       end.
(** [Aircraft.uid] setter (147-151). *)
Definition str_uid (u : pyval) : res string := match u with PStr s => Ok s | _ => Err TypeError end.

(** [symmetry in (0, 1, 2, 3)] (321-325). *)
Definition symmetry_ok (v : pyval) : bool :=
  match number_of v with
  | Some (Some q) => Qeqb q 0 || Qeqb q 1 || Qeqb q 2 || Qeqb q 3
  | _ => false
  end.

(** [os.path.join(a, b)], [os.path.basename], ["blade." in s]. *)
Definition is_slash (c : ascii) : bool := Ascii.eqb c "/"%char.
Fixpoint ends_slash (s : string) : bool :=
  match s with EmptyString => false | String c EmptyString => is_slash c | String _ r => ends_slash r end.
Definition path_join (a b : string) : string :=
  if String.prefix "/" b then b
  else if String.eqb a "" || ends_slash a then a ++ b
  else a ++ "/" ++ b.
Fixpoint has_slash (s : string) : bool :=
  match s with EmptyString => false | String c r => is_slash c || has_slash r end.
Fixpoint basename (s : string) : string :=
  match s with
  | EmptyString => ""
  | String c r => if has_slash r then basename r else if is_slash c then r else s
  end.
Definition contains (p s : string) : bool := match String.index 0 p s with Some _ => true | None => false end.

(** settings.py:82 *)
Definition AIRFOILS := "airfoils".

Section IO.
(** The schema library; the project directory ([settings.paths('root')]). *)
Variable none_ok int_ok : bool.
Variable root : string.
(** [float(s)] of a string. *)
Variable parse_float : string -> res (option Q).
(** Geometry from the vertices a, b, c, d and the two axis positions: value for each key. *)
Variable derive : list pyval -> pyval -> pyval -> res (string -> option Q).
(** [_import_airfoils] (694-722) for the inner and outer name. *)
Variable import_airfoils : string -> string -> res unit.
(** [Wing.generate] after the generation of the segments (403-501). *)
Variable finish_wing : list segdef -> res unit.

(** ** load *)

(** One airfoil entry (fileio/native/aircraft.py:86-90). *)
Definition load_airfoil (v : pyval) : res pyval :=
  match v with
  | PStr s => Ok (PStr (if String.prefix AIRFOILS s then path_join root s else s))
  | _ => Err AttributeError
  end.
Fixpoint load_airfoils (d : dict pyval) (acc : dict pyval) : res (dict pyval) :=
  match d with
  | [] => Ok acc
  | (k, v) :: d' => let? v' := load_airfoil v in load_airfoils d' (dset acc k v')
  end.

(** 79, 82, 106-113: copy the items of an entry. *)
Definition copy_items (into : dict pyval) (e : pyval) (key : string) : res (dict pyval) :=
  let? v := getitem e key in let? d := items v in Ok (dupdate into d).
(** 82-84, 92-94: only if given and not empty. *)
Definition copy_optional (into : dict pyval) (e : pyval) (key : string) : res (dict pyval) :=
  let? v := get_or e key PNone in
  if truthy v then copy_items into e key else Ok into.

(** 75-94 *)
Definition parse_segment (segs : dict segdef) (e : pyval) : res (dict segdef) :=
  let? u := getitem e "uid" in
  let? uid := new_uid segs u in
  let? vs := copy_items new_vertices e "vertices" in
  let? g := copy_optional new_geometry e "geometry" in
  let? av := getitem e "airfoils" in
  let? ad := items av in
  let? af := load_airfoils ad new_airfoils in
  let? p := copy_optional new_seg_panels e "panels" in
  Ok (dset segs uid (mkSD uid vs g af p)).

(** 97-115 *)
Definition parse_control (sym : bool) (ctls : dict ctldef) (e : pyval) : res (dict ctldef) :=
  let? u := getitem e "uid" in
  let? uid := new_uid ctls u in
  let? dt := getitem e "device_type" in
  let? c1 := set_device (new_control uid) dt in
  let? defl := getitem e "deflection" in
  let? mirr := get_or e "deflection_mirror" PNone in
  let? sg := copy_items (cd_segment c1) e "segment_uid" in
  let? rl := copy_items (cd_rel c1) e "rel_vertices" in
  let? hg := copy_items (cd_hinge c1) e "rel_hinge_vertices" in
  let? pn := getitem e "panels" in
  let? nc := getitem pn "num_c" in
  let '(c, r) := check none_ok int_ok sym (mkCD uid (cd_device c1) defl mirr sg rl hg (dset (cd_panels c1) "num_c" nc)) in
  let? _ := r in
  Ok (dset ctls uid c).

Fixpoint parse_list {V} (f : dict V -> pyval -> res (dict V)) (acc : dict V) (l : list pyval) : res (dict V) :=
  match l with
  | [] => Ok acc
  | e :: l' => let? acc' := f acc e in parse_list f acc' l'
  end.

(** 68-115 *)
Definition parse_wing (ws : dict wingdef) (e : pyval) : res (dict wingdef) :=
  let? u := getitem e "uid" in
  let? uid := new_uid ws u in
  let? sy := getitem e "symmetry" in
  if negb (symmetry_ok sy) then Err ValueError else
  let? sv := getitem e "segments" in
  let? sl := iter sv in
  let? segs := parse_list parse_segment [] sl in
  let? cv := get_or e "controls" (PList []) in
  let? cl := iter cv in
  let? ctls := parse_list (parse_control (truthy sy)) [] cl in
  Ok (dset ws uid (mkWD uid sy segs ctls)).

(** 60-115: everything before [aircraft.generate()]. *)
Definition parse (doc : pyval) : res acdef :=
  let? u := getitem doc "uid" in
  let? uid := str_uid u in
  let? refs := copy_items new_refs doc "refs" in
  let? wv := getitem doc "wings" in
  let? wl := iter wv in
  let? ws := parse_list parse_wing [] wl in
  Ok (mkAD uid refs ws).

(** ** generate *)

(** [float(v)] and [list(v)]. *)
Definition py_float (v : pyval) : res pyval :=
  match v with
  | PStr s => let? x := parse_float s in Ok (PFlt x)
  | _ => match number_of v with Some x => Ok (PFlt x) | None => Err TypeError end
  end.
Definition py_list (v : pyval) : res pyval := let? l := iter v in Ok (PList l).
(** [np.array(v, dtype=float)] of a list of numbers (the schema has been checked). *)
Definition np_array (v : pyval) : pyval := match v with PList l => PList (map to_flt l) | _ => v end.

Definition modify (f : pyval -> res pyval) (d : dict pyval) (k : string) : res (dict pyval) :=
  let? v := getitem (PDict d) k in let? v' := f v in Ok (dset d k v').

(** [Aircraft.REF_SCHEMA] (87-95) and the first part of [Aircraft.generate] (250-263). *)
Definition ref_schema : schema :=
  [("gcenter", r_xyz); ("rcenter", r_xyz); ("area", r_float_pos int_ok); ("chord", r_float_pos int_ok);
   ("span", r_float_pos int_ok); ("comment", r_str)].
Definition generate_refs (d : dict pyval) : res (dict pyval) :=
  let? d := modify py_float d "area" in
  let? d := modify py_float d "chord" in
  let? d := modify py_float d "span" in
  let? d := modify py_list d "gcenter" in
  let? d := modify py_list d "rcenter" in
  let? _ := validate none_ok ["gcenter"; "rcenter"; "area"; "chord"; "span"] ref_schema d in
  let? d := modify (fun v => Ok (np_array v)) d "gcenter" in
  modify (fun v => Ok (np_array v)) d "rcenter".

(** The schemas of a segment (520-557). *)
Definition vertices_schema : schema := [("a", r_xyz); ("b", r_xyz); ("c", r_xyz); ("d", r_xyz)].
Definition geometry_schema : schema :=
  [("inner_chord", r_float int_ok); ("outer_chord", r_float int_ok);
   ("inner_alpha", r_float_in int_ok (-90) 90); ("outer_alpha", r_float_in int_ok (-90) 90);
   ("inner_beta", r_float_in int_ok (-90) 90); ("outer_beta", r_float_in int_ok (-90) 90);
   ("inner_axis", r_float_in int_ok 0 1); ("outer_axis", r_float_in int_ok 0 1);
   ("span", r_float int_ok); ("sweep", r_float_in int_ok (-90) 90); ("dihedral", r_float_in int_ok (-180) 180)].
Definition airfoil_schema : schema := [("inner", r_str); ("outer", r_str)].
Definition seg_panel_schema : schema := [("num_c", r_int_pos); ("num_s", r_int_pos)].

(** [check_vertices] (1308-1316). *)
Definition check_vertices (d : dict pyval) : res (dict pyval) :=
  let? _ := validate none_ok [] vertices_schema d in
  let? d := modify (fun v => Ok (np_array v)) d "a" in
  let? d := modify (fun v => Ok (np_array v)) d "b" in
  let? d := modify (fun v => Ok (np_array v)) d "c" in
  modify (fun v => Ok (np_array v)) d "d".

(** [check_geometry] (1318-1327). *)
Definition default_axis (v : pyval) : pyval := match v with PNone => PFlt (Some (1 # 4)) | _ => v end.
Definition check_geometry (d : dict pyval) : res (dict pyval) :=
  let? d := modify (fun v => Ok (default_axis v)) d "inner_axis" in
  let? d := modify (fun v => Ok (default_axis v)) d "outer_axis" in
  let? _ := validate none_ok ["inner_axis"; "outer_axis"] geometry_schema d in
  Ok d.

(** The values assigned when all four vertices are there (1077-1216). *)
Definition DERIVED : list string :=
  ["inner_chord"; "inner_beta"; "inner_alpha"; "outer_chord"; "outer_beta"; "outer_alpha"; "span"; "sweep"; "dihedral"].
Definition set_derived (f : string -> option Q) (d : dict pyval) : dict pyval :=
  fold_left (fun acc k => dset acc k (PFlt (f k))) DERIVED d.

(** [str(v)] *)
Definition py_str (v : pyval) : string := match v with PStr s => s | _ => "None" end.

(** [WingSegment.generate] (982-1305).  After [check_vertices] no vertex is None (a missing one is
    an array without dimensions), so 'abcd' is provided and required (1012-1049), unless there is
    another key; a missing vertex is an IndexError at its first coordinate (1084-1086, 1125-1127). *)
Definition is_missing (v : pyval) : bool := match v with PNone => true | _ => false end.
Definition generate_segment (s : segdef) : res segdef :=
  let? vs := check_vertices (sd_vertices s) in
  let? g := check_geometry (sd_geometry s) in
  let? _ := validate none_ok ["inner"; "outer"] airfoil_schema (sd_airfoils s) in
  let? _ := validate none_ok [] seg_panel_schema (sd_panels s) in
  if existsb (fun kx => negb (is_missing (snd kx)) && negb (existsb (String.eqb (fst kx)) ["a"; "b"; "c"; "d"; ""])) vs
  then Err ComponentDefinitionError else
  let? a := getitem (PDict vs) "a" in
  let? b := getitem (PDict vs) "b" in
  let? c := getitem (PDict vs) "c" in
  let? d := getitem (PDict vs) "d" in
  if existsb is_missing [a; b; c; d] then Err IndexError else
  let? ai := getitem (PDict g) "inner_axis" in
  let? ao := getitem (PDict g) "outer_axis" in
  let? f := derive [a; b; c; d] ai ao in
  let? fi := getitem (PDict (sd_airfoils s)) "inner" in
  let? fo := getitem (PDict (sd_airfoils s)) "outer" in
  let? _ := import_airfoils (py_str fi) (py_str fo) in
  Ok (mkSD (sd_uid s) vs (set_derived f g) (sd_airfoils s) (sd_panels s)).

Fixpoint generate_list {V} (f : V -> res V) (d : dict V) : res (dict V) :=
  match d with
  | [] => Ok []
  | (k, s) :: d' => let? s' := f s in let? r := generate_list f d' in Ok ((k, s') :: r)
  end.

(** [Wing.generate] (390-501), [Aircraft.generate] (245-269). *)
Definition generate_wing (w : wingdef) : res wingdef :=
  let? segs := generate_list generate_segment (wd_segs w) in
  let? _ := finish_wing (dvalues segs) in
  Ok (mkWD (wd_uid w) (wd_symmetry w) segs (wd_ctls w)).
Definition generate (a : acdef) : res acdef :=
  let? r := generate_refs (ad_refs a) in
  let? ws := generate_list generate_wing (ad_wings a) in
  Ok (mkAD (ad_uid a) r ws).

(** [load] (43-118). *)
Definition load (doc : pyval) : res acdef := let? a := parse doc in generate a.

(** ** save (121-205) *)

(** 156-163.  ["blade." in None] is a TypeError; other values that are not strings do not occur. *)
Definition save_airfoil (v : pyval) : res pyval :=
  match v with
  | PStr s => Ok (PStr (if contains "blade." s then path_join AIRFOILS (basename s) else s))
  | _ => Err TypeError
  end.
Fixpoint save_airfoils (d : dict pyval) : res (dict pyval) :=
  match d with
  | [] => Ok []
  | (k, v) :: d' => let? v' := save_airfoil v in let? r := save_airfoils d' in Ok ((k, v') :: r)
  end.

Definition save_segment (s : segdef) : res pyval :=
  let? af := save_airfoils (sd_airfoils s) in
  Ok (PDict [("uid", PStr (sd_uid s)); ("vertices", PDict (sd_vertices s)); ("geometry", PDict (sd_geometry s));
             ("airfoils", PDict af); ("panels", PDict (sd_panels s))]).

Definition opt_str (o : option string) : pyval := match o with Some s => PStr s | None => PNone end.
Definition save_control (c : ctldef) : pyval :=
  PDict [("uid", PStr (cd_uid c)); ("device_type", opt_str (cd_device c)); ("deflection", cd_deflection c);
         ("deflection_mirror", cd_mirror c); ("segment_uid", PDict (cd_segment c)); ("rel_vertices", PDict (cd_rel c));
         ("rel_hinge_vertices", PDict (cd_hinge c)); ("panels", PDict (cd_panels c))].

Fixpoint save_list {V} (f : V -> res pyval) (d : dict V) : res (list pyval) :=
  match d with
  | [] => Ok []
  | (_, x) :: d' => let? v := f x in let? r := save_list f d' in Ok (v :: r)
  end.

Definition save_wing (w : wingdef) : res pyval :=
  let? segs := save_list save_segment (wd_segs w) in
  Ok (PDict [("uid", PStr (wd_uid w)); ("symmetry", wd_symmetry w); ("segments", PList segs);
             ("controls", PList (map (fun kc => save_control (snd kc)) (wd_ctls w)))]).

Definition save (a : acdef) : res pyval :=
  let? ws := save_list save_wing (ad_wings a) in
  Ok (PDict [("uid", PStr (ad_uid a)); ("refs", PDict (ad_refs a)); ("wings", PList ws)]).
End IO.
