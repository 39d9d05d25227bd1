(** Model of the component tree of an aircraft (objects/aircraft.py: [Aircraft], [Wing],
    [WingSegment], [WingControl]) and of the enumeration helpers in objects/objecttools.py.

    Simplifications:
    - only the attributes that panelling, bookkeeping and control placement look at are kept;
      geometry in space is in [GeomModel.v]/[PanelModel.v];
    - reference cycles (parent pointers) are dropped: the enumeration carries the parents;
    - a reference to a [WingControl] held by a strip is the pair (wing, uid), looked up in
      the wing's dictionary; uids are unique within a wing (add_control, 371-388). *)
From Coq Require Import List String ZArith QArith Bool.
From Verif Require Import PyBase StripModel.
Import ListNotations.

(** [WingControl] (aircraft.py:1371-1406).  [wc_ctl] is (uid, device type). *)
Record wcontrol := mkWC {
  wc_ctl : control;
  wc_num_c : option Z;                     (* panels['num_c'] *)
  wc_deflection : option Q;
  wc_deflection_mirror : option Q;
  wc_inner : option string;                (* segment_uid['inner'] *)
  wc_outer : option string;                (* segment_uid['outer'] *)
  wc_eta_inner : Q; wc_eta_outer : Q;      (* rel_vertices *)
  wc_xsi_inner : Q; wc_xsi_outer : Q;
  wc_h_inner : option Q; wc_h_outer : option Q   (* rel_hinge_vertices *) }.

(** [WingSegment] (aircraft.py:559-629). *)
Record wsegment := mkWS {
  ws_uid : string;
  ws_num_c : option Z; ws_num_s : option Z;   (* panels *)
  ws_span : Q;                                (* geometry['span'] *)
  ws_strips : segment                         (* subdivision *) }.

(** [Wing] (aircraft.py:274-303). *)
Record wing := mkWing {
  w_uid : string;
  w_symmetry : Z;
  w_segs : dict wsegment;
  w_ctls : dict wcontrol }.

(** [Aircraft] (aircraft.py:94-140); reference values are not needed here. *)
Record aircraft := mkAC { a_uid : string; a_wings : dict wing }.

(** [WingSegment.__init__]; the span is unset until generation, 0 stands for None. *)
Definition new_wsegment (uid : string) : wsegment := mkWS uid None None 0 new_segment.
Definition new_wcontrol (uid : string) : wcontrol :=
  mkWC (mkControl uid None) None None None None None 0 0 0 0 None None.
Definition new_wing (uid : string) : wing := mkWing uid 0 [] [].
Definition new_aircraft : aircraft := mkAC "aircraft" [].

(** [Aircraft.add_wing] (226-243): the wing dictionary after the call and the outcome. *)
Definition add_wing (a : aircraft) (uid : string) : aircraft * res unit :=
  if String.eqb uid EmptyString then (a, Err ComponentDefinitionError)
  else if dmem (a_wings a) uid then (a, Err ValueError)
  else (mkAC (a_uid a) (dset (a_wings a) uid (new_wing uid)), Ok tt).

(** [Wing.add_segment] (352-369). *)
Definition add_segment (w : wing) (uid : string) : wing * res unit :=
  if String.eqb uid EmptyString then (w, Err ComponentDefinitionError)
  else if dmem (w_segs w) uid then (w, Err ValueError)
  else (mkWing (w_uid w) (w_symmetry w) (dset (w_segs w) uid (new_wsegment uid)) (w_ctls w), Ok tt).

(** [Wing.add_control] (371-388). *)
Definition add_control (w : wing) (uid : string) : wing * res unit :=
  if String.eqb uid EmptyString then (w, Err ComponentDefinitionError)
  else if dmem (w_ctls w) uid then (w, Err ValueError)
  else (mkWing (w_uid w) (w_symmetry w) (w_segs w) (dset (w_ctls w) uid (new_wcontrol uid)), Ok tt).

(** [Wing.symmetry] setter (321-325). *)
Definition set_symmetry (w : wing) (s : Z) : wing * res unit :=
  if (Z.eqb s 0 || Z.eqb s 1 || Z.eqb s 2 || Z.eqb s 3)%bool
  then (mkWing (w_uid w) s (w_segs w) (w_ctls w), Ok tt)
  else (w, Err ValueError).

(** Building an aircraft through the API: a session of calls.  A call on a component that
    does not exist is a KeyError ([aircraft.wings[uid]]). *)
Inductive build :=
| BWing (uid : string)
| BSegment (wing_uid uid : string)
| BControl (wing_uid uid : string)
| BSymmetry (wing_uid : string) (s : Z).

Definition on_wing (a : aircraft) (wuid : string) (f : wing -> wing * res unit) : aircraft * res unit :=
  match dget (a_wings a) wuid with
  | None => (a, Err KeyError)
  | Some w => let '(w', r) := f w in (mkAC (a_uid a) (dset (a_wings a) wuid w'), r)
  end.

Definition build_step (a : aircraft) (b : build) : aircraft * res unit :=
  match b with
  | BWing u => add_wing a u
  | BSegment w u => on_wing a w (fun w => add_segment w u)
  | BControl w u => on_wing a w (fun w => add_control w u)
  | BSymmetry w s => on_wing a w (fun w => set_symmetry w s)
  end.

Definition built (bs : list build) : aircraft :=
  fold_left (fun a b => fst (build_step a b)) bs new_aircraft.

(** ** objecttools.py *)

(** Python's [enumerate], starting at [i]. *)
Fixpoint enum_from {A} (i : nat) (l : list A) : list (nat * A) :=
  match l with [] => [] | x :: l' => (i, x) :: enum_from (S i) l' end.
Definition enum {A} (l : list A) := enum_from 0 l.

(** The tuples (number, name, object) yielded by the generators. *)
Definition item (K V : Type) := (nat * K * V)%type.
Definition items {K V} (l : list (K * V)) : list (item K V) :=
  map (fun p => (fst p, fst (snd p), snd (snd p))) (enum l).
Definition obj {K V} (x : item K V) : V := snd x.

(** [all_wings] (30-43) *)
Definition all_wings (a : aircraft) : list (item string wing) := items (a_wings a).

(** [all_segments] (46-61) *)
Definition all_segments (a : aircraft) : list (item string wsegment * item string wing) :=
  flat_map (fun w => map (fun s => (s, w)) (items (w_segs (obj w)))) (all_wings a).

(** [all_controls] (64-79) *)
Definition all_controls (a : aircraft) : list (item string wcontrol * item string wing) :=
  flat_map (fun w => map (fun c => (c, w)) (items (w_ctls (obj w)))) (all_wings a).

(** [all_subdivisions] (82-98): the keys of [subdivision] are the integers 0, 1, ... *)
Definition strip_items (s : segment) : list (nat * strip) := enum s.
Definition all_subdivisions (a : aircraft)
  : list (item nat strip * item string wsegment * item string wing) :=
  flat_map (fun sw => map (fun d => (d, fst sw, snd sw)) (items (strip_items (ws_strips (obj (fst sw))))))
    (all_segments a).

(** [all_subareas] (101-118) *)
Definition subarea_visit := (item akind subarea * item nat strip * item string wsegment * item string wing)%type.
Definition all_subareas (a : aircraft) : list subarea_visit :=
  flat_map (fun dsw => map (fun v => (v, fst (fst dsw), snd (fst dsw), snd dsw))
                         (items (st_subs (obj (fst (fst dsw))))))
    (all_subdivisions a).

(** [all_subareas_of_control] (121-135): what iterating the generator to the end gives;
    [parent_control.uid] of a subarea without control is an AttributeError. *)
Fixpoint subareas_of_control (l : list subarea_visit) (uid : string) : res (list (item akind subarea)) :=
  match l with
  | [] => Ok []
  | (v, _, _, _) :: l' =>
    match sa_ctrl (obj v) with
    | None => Err AttributeError
    | Some c =>
      let? rest := subareas_of_control l' uid in
      Ok (if String.eqb (ct_uid c) uid then v :: rest else rest)
    end
  end.
Definition all_subareas_of_control (a : aircraft) (uid : string) :=
  subareas_of_control (all_subareas a) uid.

(** [count_all_*] (138-203): loops that count the yielded items. *)
Definition count {A} (l : list A) : nat := fold_left (fun n _ => S n) l O.
Definition count_all_wings (a : aircraft) : nat := count (all_wings a).
Definition count_all_segments (a : aircraft) : nat := count (all_segments a).
Definition count_all_controls (a : aircraft) : nat := count (all_controls a).
Definition count_all_subareas (a : aircraft) : nat := count (all_subareas a).
