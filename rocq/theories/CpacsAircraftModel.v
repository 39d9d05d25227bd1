(** Model of reading an aircraft from a CPACS document: [get_aircraft_name], [get_aircraft_wings],
    [get_aircraft_wing_segments], [get_aircraft_controls], [get_aircraft_airfoils],
    [write_airfoil_files], [get_aircraft_refs], [load] (fileio/cpacs/aircraft.py:59-454), with
    [parse_str] (fileio/utils.py:52-73), [get_segment_mid_point] (fileio/cpacs/utils.py:185-203) and
    the two PATCH functions (fileio/cpacs/__patch.py:30-100).

    Simplifications:
    - the document is what the libraries tixi and tigl report about it ([cdoc]); the n-th wing,
      segment and component segment of tigl is the n-th element of the document; opening the
      document is external;
    - strings consist of ASCII characters;
    - the children of [wingAirfoils] are airfoils, and tigl names a profile by its element [name]
      (empty if there is none); the points of a profile are not looked into;
    - an exception aborts [load], so only the result of a call without exception is kept, except
      for the list of airfoil files;
    - [aircraft.generate()] is [AircraftIOModel.generate]. *)
From Coq Require Import List String Ascii ZArith QArith Bool Decimal DecimalString.
From Verif Require Import PyBase PyVal SchemaModel ControlModel AircraftIOModel.
Import ListNotations.
Open Scope string_scope.

(** ** The document *)

(** A point: x, y, z. *)
Record point := mkPt { px : Q; py : Q; pz : Q }.

(** Positions of a control device in its component segment (aircraft.py:230-239). *)
Record devpos := mkDP {
  etaLE_ib : Q; etaTE_ib : Q; xsiLE_ib : Q; etaLE_ob : Q; etaTE_ob : Q; xsiLE_ob : Q; hinge_ib : Q; hinge_ob : Q }.
(** A leading or trailing edge device: its uid attribute, its positions if all of them are there. *)
Record cdev := mkDev { dv_uid : option string; dv_pos : option devpos }.
Record ccomp := mkComp { cc_uid : string; cc_leading : list cdev; cc_trailing : list cdev }.
(** A segment: uid attribute; lower and upper point at (eta, xsi); the profiles (index in the list of
    airfoils) of its inner and outer section. *)
Record cseg := mkSeg {
  cs_uid : option string; cs_lower : Q -> Q -> point; cs_upper : Q -> Q -> point; cs_inner : nat; cs_outer : nat }.
Record cwing := mkWing {
  cw_uid : option string; cw_symmetry : Z; cw_segments : option (list cseg); cw_comps : list ccomp }.
(** An airfoil: its name, its points. *)
Record cfoil := mkFoil { cf_name : option string; cf_points : list (Q * Q) }.
(** A tool-specific control device: uid attribute, deflections. *)
Record ctool := mkTool { ct_uid : option string; ct_deflection : option Q; ct_mirror : option Q }.
Record crefs := mkRefs { cr_x : option Q; cr_y : option Q; cr_z : option Q; cr_area : option Q; cr_length : option Q }.
Record cdoc := mkDoc {
  cd_model : option (option string);   (* the element MODEL, its uid attribute *)
  cd_wings : option (list cwing);
  cd_tools : list ctool;
  cd_foils : list cfoil;
  cd_refs : crefs }.

(** ** Strings *)

(** [c.isalnum() or c in '-_'] (fileio/utils.py:72). *)
Definition between (lo hi : ascii) (c : ascii) : bool :=
  Nat.leb (nat_of_ascii lo) (nat_of_ascii c) && Nat.leb (nat_of_ascii c) (nat_of_ascii hi).
Definition kept_char (c : ascii) : bool :=
  between "a" "z" c || between "A" "Z" c || between "0" "9" c || Ascii.eqb c "-" || Ascii.eqb c "_".
(** [parse_str] *)
Fixpoint parse_str (s : string) : string :=
  match s with
  | EmptyString => ""
  | String c r => if kept_char c then String c (parse_str r) else parse_str r
  end.

(** [f'{i:02}'] *)
Definition two_digits (i : nat) : string :=
  let s := NilEmpty.string_of_uint (Nat.to_uint i) in
  if Nat.ltb i 10 then "0" ++ s else s.

(** [tixi.getTextAttribute] / [getDoubleElement]: a missing entry is an exception of tixi. *)
Definition tixi {A} (o : option A) : res A := match o with Some x => Ok x | None => Err LibError end.

(** [get_aircraft_name] (59-75). *)
Definition aircraft_name (d : cdoc) : res string :=
  match cd_model d with
  | Some u => let? s := tixi u in Ok (parse_str s)
  | None => Ok "NAME_NOT_FOUND"
  end.

(** ** Segments *)

(** [get_segment_mid_point] *)
Definition mid_point (s : cseg) (eta xsi : Q) : point :=
  let l := cs_lower s eta xsi in
  let u := cs_upper s eta xsi in
  mkPt ((px l + px u) / 2) ((py l + py u) / 2) ((pz l + pz u) / 2).

(** Vertices a, b, c, d. *)
Record quad := mkQuad { qa : point; qb : point; qc : point; qd : point }.

(** 153-156 *)
Definition raw_quad (s : cseg) : quad := mkQuad (mid_point s 0 0) (mid_point s 1 0) (mid_point s 1 1) (mid_point s 0 1).

(** [q[1] - p[1] < 0.0 or (q[1] == p[1] and q[2] - p[2] < 0.0)] *)
Definition against_span (p q : point) : bool :=
  Qltb (py q - py p) 0 || (Qeqb (py q) (py p) && Qltb (pz q - pz p) 0).
(** 164-171 *)
Definition reorder (v : quad) : quad :=
  let v := if against_span (qa v) (qb v) then mkQuad (qb v) (qa v) (qc v) (qd v) else v in
  let v := if against_span (qd v) (qc v) then mkQuad (qa v) (qb v) (qd v) (qc v) else v in
  let v := if Qltb (px (qd v) - px (qa v)) 0 then mkQuad (qd v) (qb v) (qc v) (qa v) else v in
  if Qltb (px (qc v) - px (qb v)) 0 then mkQuad (qa v) (qc v) (qb v) (qd v) else v.

Definition py_point (p : point) : pyval := PList [PFlt (Some (px p)); PFlt (Some (py p)); PFlt (Some (pz p))].

Section Load.
(** The schema library; the project directory. *)
Variable none_ok int_ok : bool.
Variable root : string.
(** [tigl.wingComponentSegmentPointGetSegmentEtaXsi]: segment uid, eta, xsi for a position in a
    component segment. *)
Variable locate : string -> Q -> Q -> res (string * Q * Q).

(** [PATHS.FILES.AIRFOIL] (settings.py:96-108) in the project directory. *)
Definition airfoil_file (name : string) : string := path_join root (path_join AIRFOILS ("blade." ++ name)).

(** [get_aircraft_airfoils] (330-361) for one position. *)
Definition profile_name (foils : list cfoil) (i : nat) : res string :=
  match nth_error foils i with
  | None => Err LibError
  | Some f => Ok (match cf_name f with Some s => s | None => "" end)
  end.
Definition segment_airfoil (foils : list cfoil) (i : nat) : res string :=
  let? n := profile_name foils i in
  let name := parse_str n in
  if String.eqb name "" then Err ValueError else Ok (airfoil_file name).

(** 143-182: one segment; [k] is its number. *)
Definition segment_uid (wing_uid : string) (k : nat) (s : cseg) : string :=
  match cs_uid s with Some u => parse_str u | None => wing_uid ++ "_SEGMENT" ++ two_digits k end.
Definition read_segment (foils : list cfoil) (wing_uid : string) (segs : dict segdef) (k : nat) (s : cseg)
  : res (dict segdef) :=
  let? uid := new_uid segs (PStr (segment_uid wing_uid k s)) in
  let v := reorder (raw_quad s) in
  let? fi := segment_airfoil foils (cs_inner s) in
  let? fo := segment_airfoil foils (cs_outer s) in
  Ok (dset segs uid
        (mkSD uid [("a", py_point (qa v)); ("b", py_point (qb v)); ("c", py_point (qc v)); ("d", py_point (qd v))]
           new_geometry [("inner", PStr fi); ("outer", PStr fo)] new_seg_panels)).
Fixpoint read_segments (foils : list cfoil) (wing_uid : string) (segs : dict segdef) (k : nat) (l : list cseg)
  : res (dict segdef) :=
  match l with
  | [] => Ok segs
  | s :: l' => let? segs' := read_segment foils wing_uid segs k s in read_segments foils wing_uid segs' (S k) l'
  end.

(** ** Controls *)

(** The control after 271-286. *)
Definition device_control (uid : string) (leading : bool) (inner outer : string * Q * Q) (h1 h2 : Q) : ctldef :=
  let '(si, ei, xi) := inner in
  let '(so, eo, xo) := outer in
  mkCD uid (Some (if leading then "slat" else "flap")) (PInt 0) PNone
    [("inner", PStr si); ("outer", PStr so)]
    [("eta_inner", PFlt (Some ei)); ("eta_outer", PFlt (Some eo)); ("xsi_inner", PFlt (Some xi)); ("xsi_outer", PFlt (Some xo))]
    [("xsi_inner", PFlt (Some h1)); ("xsi_outer", PFlt (Some h2))]
    [("num_c", PNone)].

(** 218-286: one turn for the position [leading] or trailing.  The state consists of the controls of
    the wing and of the local variables xsiTE_ib and xsiTE_ob, which are assigned in the turn
    'trailing' only. *)
Definition ctlstate := (dict ctldef * option (Q * Q))%type.
Definition device_turn (name : string) (leading : bool) (uid : string) (pos : option devpos) (st : ctlstate)
  : res ctlstate :=
  match pos with
  | None => Ok st
  | Some p =>
    let '(ctls, te) := st in
    let te' := if leading then te else Some (1, 1)%Q in
    let? (inner, outer, h1, h2) :=
      (if leading then
         match te with
         | None => Err UnboundLocalError
         | Some (ti, to) =>
           let? i := locate name (etaTE_ib p) ti in
           let? o := locate name (etaTE_ob p) to in
           let? h1 := locate name (etaTE_ib p) (hinge_ib p) in
           let? h2 := locate name (etaTE_ob p) (hinge_ob p) in
           Ok (i, o, snd h1, snd h2)
         end
       else
         let? i := locate name (etaLE_ib p) (xsiLE_ib p) in
         let? o := locate name (etaLE_ob p) (xsiLE_ob p) in
         let? h1 := locate name (etaLE_ib p) (hinge_ib p) in
         let? h2 := locate name (etaLE_ob p) (hinge_ob p) in
         Ok (i, o, snd h1, snd h2)) in
    let? u := new_uid ctls (PStr uid) in
    Ok (dset ctls u (device_control u leading inner outer h1 h2), te')
  end.

(** 217-286: the loop runs over the trailing edge devices, whose uid is taken for the device at the
    leading edge, too (__patch.py:66-100). *)
Fixpoint read_devices (name : string) (lead trail : list cdev) (st : ctlstate) : res ctlstate :=
  match trail with
  | [] => Ok st
  | t :: trail' =>
    let? uid := tixi (dv_uid t) in
    let? st1 := device_turn name true uid (match lead with l :: _ => dv_pos l | [] => None end) st in
    let? st2 := device_turn name false uid (dv_pos t) st1 in
    read_devices name (tl lead) trail' st2
  end.
Fixpoint read_comps (l : list ccomp) (st : ctlstate) : res ctlstate :=
  match l with
  | [] => Ok st
  | c :: l' => let? st' := read_devices (cc_uid c) (cc_leading c) (cc_trailing c) st in read_comps l' st'
  end.

(** 312-319: set the deflections of the control [uid] in the first wing that has it. *)
Fixpoint set_deflection (uid : string) (defl mirror : pyval) (ws : dict wingdef) : option (dict wingdef) :=
  match ws with
  | [] => None
  | (k, w) :: ws' =>
    match dget (wd_ctls w) uid with
    | Some c => Some ((k, mkWD (wd_uid w) (wd_symmetry w) (wd_segs w) (dset (wd_ctls w) uid (set_deflections c defl mirror))) :: ws')
    | None => match set_deflection uid defl mirror ws' with Some r => Some ((k, w) :: r) | None => None end
    end
  end.
(** 294-323 *)
Definition tool_deflection (t : ctool) : pyval := match ct_deflection t with Some q => PFlt (Some q) | None => PInt 0 end.
Definition tool_mirror (t : ctool) : pyval := match ct_mirror t with Some q => PFlt (Some q) | None => PNone end.
Fixpoint read_deflections (l : list ctool) (ws : dict wingdef) : res (dict wingdef) :=
  match l with
  | [] => Ok ws
  | t :: l' =>
    let? uid := tixi (ct_uid t) in
    match set_deflection uid (tool_deflection t) (tool_mirror t) ws with
    | None => Err ComponentDefinitionError
    | Some ws' => read_deflections l' ws'
    end
  end.

(** 326-327 *)
Fixpoint check_controls (sym : bool) (ctls : dict ctldef) : res (dict ctldef) :=
  match ctls with
  | [] => Ok []
  | (k, c) :: r =>
    let '(c', o) := check none_ok int_ok sym c in
    let? _ := o in
    let? r' := check_controls sym r in
    Ok ((k, c') :: r')
  end.
Fixpoint check_all (ws : dict wingdef) : res (dict wingdef) :=
  match ws with
  | [] => Ok []
  | (k, w) :: r =>
    let? c := check_controls (truthy (wd_symmetry w)) (wd_ctls w) in
    let? r' := check_all r in
    Ok ((k, mkWD (wd_uid w) (wd_symmetry w) (wd_segs w) c) :: r')
  end.

(** ** Wings *)

(** 99-114: one wing; [i] is its number.  The new wing is the last one. *)
Definition wing_uid (i : nat) (w : cwing) : string :=
  match cw_uid w with Some u => parse_str u | None => "WING" ++ two_digits i end.
Definition read_wing (d : cdoc) (ws : dict wingdef) (i : nat) (w : cwing) : res (dict wingdef) :=
  let? uid := new_uid ws (PStr (wing_uid i w)) in
  if negb (symmetry_ok (PInt (cw_symmetry w))) then Err ValueError else
  match cw_segments w with
  | None => Err ValueError
  | Some sl =>
    let? segs := read_segments (cd_foils d) uid [] 1 sl in
    let? st := read_comps (cw_comps w) ([], None) in
    let? ws1 := read_deflections (cd_tools d) (dset ws uid (mkWD uid (PInt (cw_symmetry w)) segs (fst st))) in
    check_all ws1
  end.
Fixpoint read_wings (d : cdoc) (ws : dict wingdef) (i : nat) (l : list cwing) : res (dict wingdef) :=
  match l with
  | [] => Ok ws
  | w :: l' => let? ws' := read_wing d ws i w in read_wings d ws' (S i) l'
  end.
(** [get_aircraft_wings] (78-114) *)
Definition aircraft_wings (d : cdoc) : res (dict wingdef) :=
  match cd_wings d with None => Err ValueError | Some l => read_wings d [] 1 l end.

(** ** Airfoil files, reference values *)

(** [write_airfoil_files] (364-392): the files with header and points; a file of the same name is
    replaced. *)
Definition foil_name (i : nat) (f : cfoil) : string :=
  match cf_name f with Some s => parse_str s | None => "AIRFOIL" ++ two_digits i end.
Fixpoint airfoil_files (files : dict (string * list (Q * Q))) (i : nat) (l : list cfoil)
  : dict (string * list (Q * Q)) :=
  match l with
  | [] => files
  | f :: l' =>
    let n := foil_name i f in
    airfoil_files (dset files (airfoil_file n) (n, cf_points f)) (S i) l'
  end.

(** [get_aircraft_refs] (395-421) *)
Definition read_refs (r : crefs) : res (dict pyval) :=
  let? x := tixi (cr_x r) in
  let? y := tixi (cr_y r) in
  let? z := tixi (cr_z r) in
  let? area := tixi (cr_area r) in
  let? len := tixi (cr_length r) in
  let p := py_point (mkPt x y z) in
  Ok (dupdate new_refs
        [("gcenter", p); ("rcenter", p); ("area", PFlt (Some area)); ("span", PFlt (Some len)); ("chord", PFlt (Some len))]).

(** 446-450: everything before [aircraft.generate()]; the aircraft and the airfoil files. *)
Definition read_aircraft (d : cdoc) : res (acdef * dict (string * list (Q * Q))) :=
  let? uid := aircraft_name d in
  let? ws := aircraft_wings d in
  let files := airfoil_files [] 1 (cd_foils d) in
  let? refs := read_refs (cd_refs d) in
  Ok (mkAD uid refs ws, files).

(** [load] (424-454) *)
Variable parse_float : string -> res (option Q).
Variable derive : list pyval -> pyval -> pyval -> res (string -> option Q).
Variable import_airfoils : string -> string -> res unit.
Variable finish_wing : list segdef -> res unit.
Definition load_cpacs (d : cdoc) : res acdef :=
  let? r := read_aircraft d in
  generate none_ok int_ok parse_float derive import_airfoils finish_wing (fst r).
End Load.
