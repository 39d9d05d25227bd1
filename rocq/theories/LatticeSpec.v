(** Specifications for the component tree, the panel numbering and the lattice arrays. *)
From Coq Require Import List String ZArith QArith Bool Permutation Sorted.
From Verif Require Import PyBase StripModel StripSpec AircraftModel LatticeModel.
Import ListNotations.
Open Scope Z_scope.

(** Lexicographic order of index tuples. *)
Fixpoint lexlt (a b : list nat) : Prop :=
  match a, b with
  | x :: a', y :: b' => (x < y)%nat \/ (x = y /\ lexlt a' b')
  | _, _ => False
  end.

(** Position of a visit: wing number, segment (or control) number, strip number, subarea number. *)
Definition idx {K V} (x : item K V) : nat := fst (fst x).
Definition key1 (w : item string wing) : list nat := [idx w].
Definition key2 {K V} (x : item K V * item string wing) : list nat := key1 (snd x) ++ [idx (fst x)].
Definition key3 (x : item nat strip * item string wsegment * item string wing) : list nat :=
  key2 (snd (fst x), snd x) ++ [idx (fst (fst x))].
Definition key4 (x : subarea_visit) : list nat :=
  key3 (snd (fst (fst x)), snd (fst x), snd x) ++ [idx (fst (fst (fst x)))].

(** Unique, non-empty names that agree with the uid stored in the component. *)
Definition names_ok {V} (uid_of : V -> string) (d : dict V) : Prop :=
  NoDup (map fst d) /\ forall k v, In (k, v) d -> k <> EmptyString /\ uid_of v = k.

(** The strips of every segment were made by some session of subdivisions and control
    insertions, and every control surface on a strip is a control of the same wing. *)
Definition panelled (a : aircraft) : Prop :=
  forall wn w sn s, In (wn, w) (a_wings a) -> In (sn, s) (w_segs w) ->
    (exists interp ops, sound_session interp ops /\ ws_strips s = run interp ops) /\
    (forall st k v c, In st (ws_strips s) -> In (k, v) (st_subs st) -> sa_ctrl v = Some c ->
       exists wc, dget (w_ctls w) (ct_uid c) = Some wc).

(** All chordwise panel counts are set and positive. *)
Definition counts_set (a : aircraft) : Prop :=
  forall wn w, In (wn, w) (a_wings a) ->
    (forall sn s, In (sn, s) (w_segs w) -> exists n, ws_num_c s = Some n /\ 1 <= n) /\
    (forall cn c, In (cn, c) (w_ctls w) -> exists n, wc_num_c c = Some n /\ 1 <= n).

(** The records number the panels from [from] (included) to [upto] (excluded) without gaps
    or overlaps. *)
Fixpoint consecutive (from : Z) (es : list entry) (upto : Z) : Prop :=
  match es with
  | [] => from = upto
  | e :: es' => e_lo e = from /\ e_lo e <= e_hi e /\ consecutive (e_hi e) es' upto
  end.

Definition has_symmetry (v : subarea_visit) : Prop := w_symmetry (v_wing v) <> 0.

(** Each subarea is recorded once, and once more as its mirror image right behind if its wing
    has a symmetry flag. *)
Inductive recorded : list subarea_visit -> list entry -> Prop :=
| rec_nil : recorded [] []
| rec_plain v vs e es : ~ has_symmetry v -> e_visit e = v -> e_mirror e = false ->
    recorded vs es -> recorded (v :: vs) (e :: es)
| rec_sym v vs e e' es : has_symmetry v -> e_visit e = v -> e_mirror e = false ->
    e_visit e' = v -> e_mirror e' = true -> e_num_c e' = e_num_c e ->
    recorded vs es -> recorded (v :: vs) (e :: e' :: es).

(** Number of chordwise panels a subarea must get: that of its control; on the main surface
    the segment's number reduced in proportion to the remaining chord, rounded up. *)
Definition right_count (v : subarea_visit) (n : Z) : Prop :=
  match sa_ctrl (v_sub v) with
  | Some c => exists wc, dget (w_ctls (v_wing v)) (ct_uid c) = Some wc /\ wc_num_c wc = Some n
  | None => exists m, ws_num_c (v_seg v) = Some m /\
      let share := ((1 # 2) * ((xsi_d (v_sub v) - xsi_a (v_sub v)) + (xsi_c (v_sub v) - xsi_b (v_sub v))) *
                    inject_Z m)%Q in
      (inject_Z (n - 1) < share)%Q /\ (share <= inject_Z n)%Q
  end.

Definition zsum (l : list Z) : Z := fold_right Z.add 0 l.

(** Entries of one wing and side, in order. *)
Definition entries_of (uid : string) (mirror : bool) (es : list entry) : list entry :=
  filter (fun e => Bool.eqb (e_mirror e) mirror && String.eqb (w_uid (v_wing (e_visit e))) uid)%bool es.

(** The records filed under a uid. *)
Definition lookup (d : dict (list entry)) (uid : string) : list entry :=
  match dget d uid with Some l => l | None => [] end.

(** ** Array accesses *)

Definition arr_eqb (a b : arr) : bool :=
  match a, b with
  | APts, APts | ASym, ASym | APan, APan | AP, AP | AV, AV | AC, AC
  | ABLM, ABLM | AN, AN | AA, AA => true
  | _, _ => false
  end.

(** Indices written to array [a], in program order. *)
Definition writes (a : arr) (l : list access) : list Z :=
  flat_map (fun x => match x with Wr b i => if arr_eqb a b then [i] else [] | _ => [] end) l.

Definition in_bounds (size : arr -> Z) (x : access) : Prop :=
  match x with Rd a i | Wr a i => 0 <= i < size a end.

Definition is_output (a : arr) : Prop := match a with APts | ASym | APan => False | _ => True end.

(** Doubles per panel in an output array. *)
Definition width (a : arr) : Z :=
  match a with AP | AV => 12 | AC | ABLM | AN => 3 | AA => 1 | _ => 0 end.

(** Every index 0 <= i < n occurs exactly once in [l], and nothing else does. *)
Definition each_once (n : Z) (l : list Z) : Prop :=
  NoDup l /\ forall i, In i l <-> 0 <= i < n.
