(** What the compiled functions need of the Python objects they are given. *)
From Coq Require Import List ZArith String.
From Verif Require Import RefModel RefSpec.
Import ListNotations.
Open Scope string_scope.

(** An attribute of the object, of a given kind; or an entry of a dictionary that is an attribute, of a given
    kind or of any. *)
Inductive need :=
| Attribute (o : Z) (name : string) (k : kind)
| Entry (o : Z) (name key : string) (k : option kind).
Definition there (w : pyworld) (n : need) : Prop :=
  match n with
  | Attribute o a k => exists v, lookup (attrs w) o a = Some v /\ kind_of w v = k
  | Entry o a key k => exists d v, lookup (attrs w) o a = Some d /\ lookup (items w) d key = Some v /\
      match k with Some k => kind_of w v = k | None => True end
  end.
Definition of_lattice (x : Z) : list need :=
  map (fun n => Attribute x n KFloatArray) ["p"; "v"; "c"; "bound_leg_midpoints"; "n"; "a"] ++ [Attribute x "epsilon" KFloat] ++
  map (fun k => Entry x "info" k (Some KLong)) ["num_panels"; "num_segments"].
Definition of_state (x : Z) : list need :=
  map (fun k => Entry x "aero" k (Some KFloat)) ["airspeed"; "alpha"; "beta"; "rate_P"; "rate_Q"; "rate_R"; "density"].
Definition of_refs (x : Z) : list need :=
  map (fun k => Entry x "refs" k (Some KFloat)) ["area"; "span"; "chord"] ++ map (fun k => Entry x "refs" k (Some KFloatArray)) ["gcenter"; "rcenter"].
Definition of_info (x : Z) : list need :=
  map (fun k => Entry x "info" k None) ["area_min"; "area_max"; "area_avg"; "aspect_min"; "aspect_max"; "aspect_avg"].
Definition of_data (x : Z) : list need :=
  map (fun k => Entry x "panelwise" k (Some KFloatArray)) ["gamma"; "vx"; "vy"; "vz"; "vmag"; "fx"; "fy"; "fz"; "fmag"; "cp"] ++
  map (fun k => Entry x "forces" k None) ["x"; "y"; "z"; "D"; "C"; "L"; "l"; "m"; "n"] ++
  map (fun k => Entry x "coeffs" k None) ["x"; "y"; "z"; "D"; "C"; "L"; "l"; "m"; "n"].
Definition needs (lattice state data : Z) (c : call) : list need :=
  match c with
  | CLattice => of_lattice lattice ++ of_state state ++ of_info lattice
  | CDownwash => of_lattice lattice
  | CBoundary => of_lattice lattice ++ of_state state ++ of_refs state
  | CResults => of_lattice lattice ++ of_state state ++ of_refs state ++ of_data data
  end.

(** The attributes that are taken as dictionaries without a check are dictionaries. *)
Definition dictionaries (lattice state data : Z) (w : pyworld) : Prop :=
  forall x n d, In (x, n) [(lattice, "info"); (state, "aero"); (state, "refs"); (data, "panelwise"); (data, "forces"); (data, "coeffs")] ->
    lookup (attrs w) x n = Some d -> kind_of w d = KDict.
(** The entries of dictionaries that are there, whatever their values. *)
Definition entries (w : pyworld) : list (Z * string) := map fst (items w).
