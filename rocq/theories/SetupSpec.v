(** Specification of the generation of a project (C48, C69). *)
From Coq Require Import List String Ascii ZArith QArith.
From Verif Require Import PyBase PyVal AircraftIOModel SetupModel.
From Verif Require SettingsModel StateModel.
From Verif Require Import SettingsSpec.
Import ListNotations.
Open Scope string_scope.

Definition within (dir p : path) : Prop := exists rest, p = (dir ++ rest)%list.
(** The file is "name.json", as found by the pattern "*.json" (which skips hidden files). *)
Definition named_json (p : path) (name : string) : Prop :=
  (exists c r, name = String c r /\ c <> "."%char) /\ exists d, p = (d ++ [(name ++ ".json")%string])%list.

(** The directories and files of a new project: [name] names the settings and the state. *)
Inductive project (name aircraft : string) (settings : pyval) (state : dict StateModel.entry) (model : pyval) : path -> node -> Prop :=
| p_root : project name aircraft settings state model [] NDir
| p_input d : In d ["aircraft"; "airfoils"; "deformation"; "settings"; "state"] -> project name aircraft settings state model [d] NDir
| p_output d : In d ["_plots"; "_results"] -> project name aircraft settings state model [d] NDir
| p_first d : In d ["_plots"; "_results"] -> project name aircraft settings state model [d; (name ++ "_000")%string] NDir
| p_settings : project name aircraft settings state model ["settings"; (name ++ ".json")%string] (NFile (CJson settings))
| p_state : project name aircraft settings state model ["state"; (name ++ ".json")%string] (NFile (CState state))
| p_aircraft : project name aircraft settings state model ["aircraft"; (aircraft ++ ".json")%string] (NFile (CJson model)).

(** [fs'] is [fs] with this project at [dir] and no other change. *)
Definition project_added (fs fs' : fsys) (dir : path) (name aircraft : string) (settings : pyval) (state : dict StateModel.entry) (model : pyval) : Prop :=
  (forall p n, project name aircraft settings state model p n -> fs' (dir ++ p)%list = Some n) /\
  (forall p, (forall q n, project name aircraft settings state model q n -> p <> (dir ++ q)%list) -> fs' p = fs p).

(** Settings that can be read and that name these files; nothing else differs from the defaults but
    the number of panels and the plot of the results. *)
Definition settings_for (name aircraft : string) (v : pyval) : Prop :=
  exists d s, v = PDict d /\ SettingsModel.load d = (s, Ok tt) /\
    dget s "aircraft" = Some (PStr (aircraft ++ ".json")) /\ dget s "state" = Some (PStr (name ++ ".json")) /\
    dget s "deformation" = Some PNone /\
    dget s "vlm_autopanels_s" = Some (PInt 20) /\ dget s "vlm_autopanels_c" = Some (PInt 5) /\
    (forall k, In k ["save_results"; "_do_normal_rotations"; "_deformation_check"; "_epsilon"] -> dget s k = dget SettingsModel.new_settings k) /\
    at_path (PDict s) ["plot"; "results"; "show"] (PBool true) /\ at_path (PDict s) ["plot"; "results"; "save"] (PBool false) /\
    at_path (PDict s) ["plot"; "results"; "opt"] (PList [PStr "cp"]) /\
    (forall k f, In k ["geometry"; "lattice"; "matrix_downwash"] -> In f ["show"; "save"] -> at_path (PDict s) ["plot"; k; f] (PBool false)).
(** The aircraft of the template: a rectangular wing with a symmetric NACA profile, reflected in the
    xz-plane, with matching reference values and a flap hinged at its front, which is deflected in opposite
    directions. *)
Definition corner (v : pyval) (x y z : Z) : Prop := v = PList [PInt x; PInt y; PInt z].
Definition template_file (m : pyval) : Prop :=
  exists x y refs w sg c u, (0 < x)%Z /\ (0 < y)%Z /\
    item m "uid" (PStr "template_aircraft") /\ item m "refs" refs /\ item m "wings" (PList [w]) /\
    item refs "chord" (PInt x) /\ item refs "span" (PInt y) /\ item refs "area" (PInt (x * y)) /\
    (forall k, In k ["gcenter"; "rcenter"] -> exists v, item refs k v /\ corner v 0 0 0) /\
    item w "symmetry" (PInt 2) /\ item w "segments" (PList [sg]) /\ item w "controls" (PList [c]) /\ item sg "uid" (PStr u) /\
    (exists vs a b v3 d, item sg "vertices" vs /\ item vs "a" a /\ item vs "b" b /\ item vs "c" v3 /\ item vs "d" d /\
       corner a 0 0 0 /\ corner b 0 y 0 /\ corner v3 x y 0 /\ corner d x 0 0) /\
    (forall k, In k ["inner"; "outer"] -> at_path sg ["airfoils"; k] (PStr "NACA0000") /\ at_path c ["segment_uid"; k] (PStr u)) /\
    item c "device_type" (PStr "flap") /\
    (exists delta, delta <> 0%Z /\ item c "deflection" (PInt delta) /\ item c "deflection_mirror" (PInt (- delta))) /\
    (exists e1 e2 f, (0 < e1)%Q /\ (e1 < e2)%Q /\ (e2 < 1)%Q /\ (0 < f)%Q /\ (f < 1)%Q /\
       at_path c ["rel_vertices"; "eta_inner"] (PFlt (Some e1)) /\ at_path c ["rel_vertices"; "eta_outer"] (PFlt (Some e2)) /\
       forall k l, In k ["rel_vertices"; "rel_hinge_vertices"] -> In l ["xsi_inner"; "xsi_outer"] -> at_path c [k; l] (PFlt (Some f))).
(** A file with one flight state, which can be read. *)
Definition one_state (d : dict StateModel.entry) : Prop :=
  forall parse atmosphere, exists st row, StateModel.load parse atmosphere d = (st, Ok tt) /\ StateModel.iter_states parse st = ([row], Ok tt) /\
    row = [("airspeed", Some (inject_Z 100)); ("alpha", Some (inject_Z 2)); ("beta", Some (inject_Z 0)); ("density", Some (1225 # 1000));
           ("rate_P", Some (inject_Z 0)); ("rate_Q", Some (inject_Z 0)); ("rate_R", Some (inject_Z 0))].
