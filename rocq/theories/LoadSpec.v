(** When an aircraft is the one defined by a native aircraft file (C111), stated entry by entry. *)
From Coq Require Import List String ZArith QArith Bool.
From Verif Require Import PyBase PyVal ControlModel AircraftIOModel AircraftIOSpec.
Import ListNotations.
Open Scope string_scope.

(** Documents as [json.load] returns them: the names in an object are distinct. *)
Inductive json : pyval -> Prop :=
| json_atom v : (forall l, v <> PList l) -> (forall d, v <> PDict d) -> json v
| json_list l : (forall x, In x l -> json x) -> json (PList l)
| json_dict d : NoDup (map fst d) -> (forall k x, In (k, x) d -> json x) -> json (PDict d).

(** The entry [k] of an object; the object under [k], if any. *)
Definition field (v : pyval) (k : string) : option pyval := match v with PDict d => dget d k | _ => None end.
Definition sub (v : pyval) (k : string) : pyval := match field v k with Some x => x | None => PNone end.
Definition object (v : pyval) : Prop := exists d, v = PDict d.
(** The elements of a list; an empty object or string has none. *)
Definition elements (v : pyval) (l : list pyval) : Prop := v = PList l \/ (l = [] /\ (v = PDict [] \/ v = PStr "")).

(** The entry [k] of [v]; None for the entries [ks] that are not given. *)
Definition filled (ks : list string) (v : pyval) (k : string) : option pyval :=
  match field v k with
  | Some x => Some x
  | None => if existsb (String.eqb k) ks then Some PNone else None
  end.

(** The order of the entries: first [ks], then the others as in the file. *)
Definition listing (ks : list string) (v : pyval) : list string :=
  (ks ++ filter (fun k => negb (existsb (String.eqb k) ks)) (match v with PDict d => map fst d | _ => [] end))%list.

(** Numbers as floats. *)
Definition as_float (v : pyval) : option (option Q) :=
  match v with
  | PBool true => Some (Some 1%Q) | PBool false => Some (Some 0%Q)
  | PInt z => Some (Some (inject_Z z)) | PFlt x => Some x | _ => None
  end.
Definition between (lo hi : Q) (v : pyval) : Prop := exists q, as_float v = Some (Some q) /\ (lo <= q)%Q /\ (q <= hi)%Q.
Definition point (v w : pyval) : Prop :=
  exists x y z x' y' z', v = PList [x; y; z] /\ as_float x = Some x' /\ as_float y = Some y' /\ as_float z = Some z' /\ w = PList [PFlt x'; PFlt y'; PFlt z'].
Definition count (v : pyval) : Prop := v = PBool true \/ exists z, v = PInt z /\ (0 < z)%Z.
Definition text (v : pyval) : Prop := exists s, v = PStr s.
Definition is_float (v : pyval) : Prop := exists x, v = PFlt x.

Section Load.
Variable none_ok int_ok : bool.
Variable root : string.
Variable parse_float : string -> res (option Q).
Variable derive : list pyval -> pyval -> pyval -> res (string -> option Q).
Variable import_airfoils : string -> string -> res unit.
Variable finish_wing : list segdef -> res unit.

(** What passes the schema library: None if it is lenient, integers for floats likewise. *)
Definition pass (P : pyval -> Prop) (v : pyval) : Prop := v = PNone /\ none_ok = true \/ v <> PNone /\ P v.
Definition flt (P : pyval -> Prop) (v : pyval) : Prop := (is_float v \/ int_ok = true /\ as_float v <> None) /\ P v.
Definition entry_of (v : pyval) (ks : list string) (P : pyval -> Prop) : Prop := forall k x, In k ks -> filled ks v k = Some x -> pass P x.

(** Reference values: numbers or texts of numbers, positive; points. *)
Definition reference (v w : pyval) : Prop :=
  exists q, w = PFlt (Some q) /\ (0 < q)%Q /\ (as_float v = Some (Some q) \/ exists s, v = PStr s /\ parse_float s = Ok (Some q)).
Definition refs_loaded (v : pyval) (d : dict pyval) : Prop :=
  object v /\ map fst d = listing ["area"; "span"; "chord"; "gcenter"; "rcenter"; "comment"] v /\
  (forall k, In k ["area"; "chord"; "span"] -> exists x w, field v k = Some x /\ reference x w /\ dget d k = Some w) /\
  (forall k, In k ["gcenter"; "rcenter"] -> exists x w, field v k = Some x /\ point x w /\ dget d k = Some w) /\
  (forall k, ~ In k ["area"; "chord"; "span"; "gcenter"; "rcenter"] -> dget d k = filled ["comment"] v k) /\
  entry_of v ["comment"] text.

(** Four vertices as points, no other vertex. *)
Definition vertices_loaded (v : pyval) (d : dict pyval) : Prop :=
  object v /\ map fst d = listing ["a"; "b"; "c"; "d"] v /\
  (forall k, In k ["a"; "b"; "c"; "d"] -> exists x w, field v k = Some x /\ point x w /\ dget d k = Some w) /\
  (forall k, ~ In k ["a"; "b"; "c"; "d"] -> dget d k = field v k /\ (forall x, field v k = Some x -> x = PNone \/ k = "")).

(** Geometry: the axis positions are taken from the file (default: a quarter), the nine other
    values are computed; if given they must be in range all the same. *)
Definition COMPUTED : list string :=
  ["inner_chord"; "outer_chord"; "inner_alpha"; "outer_alpha"; "inner_beta"; "outer_beta"; "span"; "sweep"; "dihedral"].
Definition axis_loaded (v : pyval) (k : string) (w : pyval) : Prop :=
  (field v k = Some w /\ w <> PNone /\ flt (between 0 1) w) \/
  ((field v k = None \/ field v k = Some PNone) /\ w = PFlt (Some (1 # 4)) ).
Definition optional (e : pyval) (k : string) : Prop :=
  forall v, field e k = Some v -> truthy v = true -> object v.
Definition geometry_loaded (v : pyval) (vertices : list pyval) (d : dict pyval) : Prop :=
  map fst d = listing ["inner_chord"; "inner_alpha"; "inner_beta"; "inner_axis"; "outer_chord"; "outer_alpha"; "outer_beta"; "outer_axis"; "span"; "sweep"; "dihedral"] v /\
  exists ai ao f, axis_loaded v "inner_axis" ai /\ axis_loaded v "outer_axis" ao /\
    dget d "inner_axis" = Some ai /\ dget d "outer_axis" = Some ao /\
    derive vertices ai ao = Ok f /\
    (forall k, In k COMPUTED -> dget d k = Some (PFlt (f k))) /\
    (forall k, ~ In k ("inner_axis" :: "outer_axis" :: COMPUTED) -> dget d k = field v k) /\
    (forall k x, In k ["inner_chord"; "outer_chord"; "span"] -> filled COMPUTED v k = Some x -> pass (flt (fun _ => True)) x) /\
    (forall k x, In k ["inner_alpha"; "outer_alpha"; "inner_beta"; "outer_beta"; "sweep"] -> filled COMPUTED v k = Some x -> pass (flt (between (-90) 90)) x) /\
    (forall x, filled COMPUTED v "dihedral" = Some x -> pass (flt (between (-180) 180)) x).

(** Airfoils: names, those beginning with "airfoils" are below the project directory. *)
Definition located (n m : string) : Prop :=
  (begins "airfoils" n /\ m = root ++ "/" ++ n) \/ (~ begins "airfoils" n /\ m = n).
Definition airfoils_loaded (v : pyval) (d : dict pyval) : Prop :=
  object v /\ map fst d = listing ["inner"; "outer"] v /\
  (forall k, match field v k with
             | Some x => exists n m, x = PStr n /\ located n m /\ dget d k = Some (PStr m)
             | None => dget d k = filled ["inner"; "outer"] v k
             end) /\
  entry_of v ["inner"; "outer"] text /\
  exists i o, import_airfoils i o = Ok tt /\
    (forall k n, In (k, n) [("inner", i); ("outer", o)] -> dget d k = Some (PStr n) \/ dget d k = Some PNone /\ n = "None").

(** A dictionary copied from the file, with None for what is not given. *)
Definition copied (ks : list string) (v : pyval) (d : dict pyval) (P : pyval -> Prop) : Prop :=
  map fst d = listing ks v /\ (forall k, dget d k = filled ks v k) /\ entry_of v ks P.

Definition segment_loaded (e : pyval) (s : segdef) : Prop :=
  field e "uid" = Some (PStr (sd_uid s)) /\
  vertices_loaded (sub e "vertices") (sd_vertices s) /\
  optional e "geometry" /\
  (exists a b c d, map (dget (sd_vertices s)) ["a"; "b"; "c"; "d"] = [Some a; Some b; Some c; Some d] /\
     geometry_loaded (sub e "geometry") [a; b; c; d] (sd_geometry s)) /\
  airfoils_loaded (sub e "airfoils") (sd_airfoils s) /\
  optional e "panels" /\
  copied ["num_c"; "num_s"] (sub e "panels") (sd_panels s) count.

(** Controls of a wing with ([sym]) or without symmetry. *)
Definition angle (v w : pyval) : Prop := exists q, as_float v = Some (Some q) /\ (-90 <= q)%Q /\ (q <= 90)%Q /\ w = PFlt (Some q).
Definition control_loaded (sym : bool) (e : pyval) (c : ctldef) : Prop :=
  field e "uid" = Some (PStr (cd_uid c)) /\
  (exists t, (t = "slat" \/ t = "flap") /\ field e "device_type" = Some (PStr t) /\ cd_device c = Some t) /\
  (exists x, field e "deflection" = Some x /\ angle x (cd_deflection c)) /\
  (if sym then match sub e "deflection_mirror" with PNone => cd_mirror c = cd_deflection c | m => angle m (cd_mirror c) end
   else cd_mirror c = sub e "deflection_mirror") /\
  (object (sub e "segment_uid") /\ copied ["inner"; "outer"] (sub e "segment_uid") (cd_segment c) text) /\
  (object (sub e "rel_vertices") /\
   copied ["eta_inner"; "eta_outer"; "xsi_inner"; "xsi_outer"] (sub e "rel_vertices") (cd_rel c) (flt (between 0 1))) /\
  (object (sub e "rel_hinge_vertices") /\
   copied ["xsi_inner"; "xsi_outer"] (sub e "rel_hinge_vertices") (cd_hinge c) (flt (between 0 1))) /\
  (exists n, field (sub e "panels") "num_c" = Some n /\ pass count n /\ cd_panels c = [("num_c", n)]) /\
  (dget (cd_segment c) "inner" = dget (cd_segment c) "outer" ->
   exists x y p q, dget (cd_rel c) "eta_inner" = Some x /\ dget (cd_rel c) "eta_outer" = Some y /\
     as_float x = Some (Some p) /\ as_float y = Some (Some q) /\ (p < q)%Q).

(** Parts in the order of the file, kept under their own names. *)
Definition parts {V} (name : V -> string) (P : pyval -> V -> Prop) (l : list pyval) (d : dict V) : Prop :=
  Forall2 P l (map snd d) /\ map fst d = map name (map snd d) /\ NoDup (map fst d) /\ ~ In "" (map fst d).

Definition wing_loaded (e : pyval) (w : wingdef) : Prop :=
  field e "uid" = Some (PStr (wd_uid w)) /\
  field e "symmetry" = Some (wd_symmetry w) /\
  (exists n q, In n [0; 1; 2; 3]%Z /\ as_float (wd_symmetry w) = Some (Some q) /\ q == inject_Z n) /\
  (exists v l, field e "segments" = Some v /\ elements v l /\ parts sd_uid segment_loaded l (wd_segs w)) /\
  (exists l, match field e "controls" with None => l = [] | Some v => elements v l end /\
     parts cd_uid (control_loaded (truthy (wd_symmetry w))) l (wd_ctls w)) /\
  finish_wing (map snd (wd_segs w)) = Ok tt.

Definition loaded (doc : pyval) (a : acdef) : Prop :=
  field doc "uid" = Some (PStr (ad_uid a)) /\
  refs_loaded (sub doc "refs") (ad_refs a) /\
  exists v l, field doc "wings" = Some v /\ elements v l /\ parts wd_uid wing_loaded l (ad_wings a).
End Load.
