(** Specifications for flight states (C28-C31, C35, C59, C60). *)
From Coq Require Import List String ZArith QArith.
From Verif Require Import PyBase StateModel.
Import ListNotations.

Definition numeric (v : sval) : Prop := match v with VBool _ | VNum _ | VNan => True | _ => False end.
(** A scalar is a list with one element. *)
Definition as_list (e : entry) : list sval := match e with One v => [v] | Many l => l end.
(** The property [p] is given: there is an entry and all its values are numbers. *)
Definition given (d : dict entry) (p : string) : Prop :=
  exists e, In (p, e) d /\ Forall numeric (as_list e).

(** The three documented combinations. *)
Definition combination (d : dict entry) : Prop :=
  (given d AIRSPEED /\ given d DENSITY /\ ~ given d MACH /\ ~ given d ALTITUDE) \/
  (given d AIRSPEED /\ given d ALTITUDE /\ ~ given d MACH /\ ~ given d DENSITY) \/
  (given d MACH /\ given d ALTITUDE /\ ~ given d AIRSPEED /\ ~ given d DENSITY).

(** All lists have length [n]. *)
Definition uniform (d : dict entry) (n : nat) : Prop := forall p e, In (p, e) d -> List.length (as_list e) = n.

(** The float [x] that the value [v] stands for. *)
Definition reads (parse : string -> res num) (v : sval) (x : num) : Prop :=
  match v with
  | VNone | VNan => x = None
  | VBool true => x = Some 1%Q
  | VBool false => x = Some 0%Q
  | VNum q => x = Some q
  | VStr s => parse s = Ok x
  end.
(** The array [xs] holds the values given for [p]. *)
Definition holds (parse : string -> res num) (d : dict entry) (p : string) (xs : list num) : Prop :=
  exists e, In (p, e) d /\ Forall2 (reads parse) (as_list e) xs.

(** The state has the array [xs] for [p]. *)
Definition has (st : fstate) (p : string) (xs : list num) : Prop := dget (f_aero st) p = Some (SArr xs).

(** The atmosphere works altitude by altitude. *)
Definition pointwise (atmosphere : list num -> res (list num * list num)) (rho sos : num -> num) : Prop :=
  forall hs r c, atmosphere hs = Ok (r, c) -> r = map rho hs /\ c = map sos hs.

(** Product of two floats, NaN if one of them is. *)
Definition product (x y z : num) : Prop :=
  match x, y with Some a, Some b => z = Some (a * b)%Q | _, _ => z = None end.

(** [xs] is the i-th wise product of [ms] and the speed of sound at [hs]. *)
Definition speeds (sos : num -> num) (ms hs xs : list num) : Prop :=
  List.length xs = List.length ms /\
  forall i m h, nth_error ms i = Some m -> nth_error hs i = Some h ->
    exists x, nth_error xs i = Some x /\ product m (sos h) x.

(** What an accepted dictionary turns into. *)
Definition meaning (parse : string -> res num) (rho sos : num -> num) (d : dict entry) (n : nat) (st : fstate) : Prop :=
  f_num st = n /\
  (forall p, In p STATE_ALL_PARAMS -> p <> DENSITY -> p <> AIRSPEED ->
     (forall e, In (p, e) d -> exists xs, holds parse d p xs /\ has st p xs /\ List.length xs = n) /\
     ((forall e, ~ In (p, e) d) -> dget (f_aero st) p = Some (SRaw VNone))) /\
  (exists xs, has st DENSITY xs /\ List.length xs = n /\
     (given d DENSITY -> holds parse d DENSITY xs) /\
     (~ given d DENSITY -> exists hs, holds parse d ALTITUDE hs /\ xs = map rho hs)) /\
  (exists xs, has st AIRSPEED xs /\ List.length xs = n /\
     (given d AIRSPEED -> holds parse d AIRSPEED xs) /\
     (~ given d AIRSPEED -> exists ms hs, holds parse d MACH ms /\ holds parse d ALTITUDE hs /\ speeds sos ms hs xs)).

(** When a dictionary is accepted by a new state. *)
Definition acceptable (parse : string -> res num) (atmosphere : list num -> res (list num * list num)) (d : dict entry) : Prop :=
  d <> [] /\ (exists n, uniform d n) /\ combination d /\
  (forall p e v, In p STATE_ALL_PARAMS -> In (p, e) d -> In v (as_list e) -> exists x, reads parse v x) /\
  (exists e, In (ALPHA, e) d) /\ (exists e, In (BETA, e) d) /\
  (given d ALTITUDE -> exists hs r, holds parse d ALTITUDE hs /\ atmosphere hs = Ok r).
