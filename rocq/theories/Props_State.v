(** Property theorems: flight states (C28-C31, C35, C59, C60). *)
From Coq Require Import List String ZArith QArith.
From Verif Require Import PyBase StateModel StateSpec StateProofs.
Import ListNotations.
Open Scope Q_scope.

(** C28: exactly the documented dictionaries are accepted; every other combination of the four
    properties is a ValueError. *)
Theorem C28_combinations :
  forall parse atmosphere rho sos d, NoDup (dkeys d) -> pointwise atmosphere rho sos ->
  ((exists st, update parse atmosphere new_state d = (st, Ok tt)) <-> acceptable parse atmosphere d) /\
  (d <> [] -> (exists n, uniform d n) -> ~ combination d ->
   exists st, update parse atmosphere new_state d = (st, Err ValueError)).
Proof.
  intros parse atmosphere rho sos d N P.
  exact (conj (accepted_iff parse atmosphere d N rho sos P) (rejected_combination parse atmosphere d N)).
Qed.
Print Assumptions C28_combinations.

(** After acceptance every parameter holds the values that were given; missing density and airspeed
    come from the atmosphere. *)
Theorem C28_meaning :
  forall parse atmosphere rho sos d st, NoDup (dkeys d) -> pointwise atmosphere rho sos ->
  update parse atmosphere new_state d = (st, Ok tt) ->
  combination d /\ exists n, uniform d n /\ meaning parse rho sos d n st.
Proof. intros parse atmosphere rho sos d st N P. exact (accepted_meaning parse atmosphere d N rho sos st P). Qed.
Print Assumptions C28_meaning.

(** The other failures of readable values with an accepted combination: an error of the atmosphere
    is reported unchanged, a missing angle is a TypeError. *)
Theorem C28_failures :
  forall parse atmosphere rho sos d, NoDup (dkeys d) -> pointwise atmosphere rho sos ->
  d <> [] -> (exists n, uniform d n) -> combination d ->
  (forall p e v, In p STATE_ALL_PARAMS -> In (p, e) d -> In v (as_list e) -> exists x, reads parse v x) ->
  (forall hs e, given d ALTITUDE -> holds parse d ALTITUDE hs -> atmosphere hs = Err e ->
     exists st, update parse atmosphere new_state d = (st, Err e)) /\
  ((given d ALTITUDE -> exists hs r, holds parse d ALTITUDE hs /\ atmosphere hs = Ok r) ->
   (forall e, ~ In (ALPHA, e) d) \/ (forall e, ~ In (BETA, e) d) ->
   exists st, update parse atmosphere new_state d = (st, Err TypeError)).
Proof. intros parse atmosphere rho sos d N P. exact (failure_class parse atmosphere d N rho sos P). Qed.
Print Assumptions C28_failures.
(** An empty dictionary is an IndexError and leaves any state, new or used, as it was. *)
Theorem C28_nothing :
  forall parse atmosphere st, update parse atmosphere st [] = (st, Err IndexError).
Proof. exact update_nil. Qed.
Print Assumptions C28_nothing.

Definition ex_parse (s : string) : res num := Err ValueError.
(** A linear atmosphere that rejects altitudes above 80000. *)
Definition ex_rho (h : num) : num := match h with Some h => Some (1 - h * (1#100000)) | None => None end.
Definition ex_sos (h : num) : num := match h with Some h => Some (340 - h * (1#1000)) | None => None end.
Definition ex_atmosphere (hs : list num) : res (list num * list num) :=
  if existsb (fun h => match h with Some h => Qltb 80000 h | None => false end) hs then Err ValueError
  else Ok (map ex_rho hs, map ex_sos hs).
Lemma ex_pointwise : pointwise ex_atmosphere ex_rho ex_sos.
Proof. intros hs r c. unfold ex_atmosphere. match goal with |- context [if ?b then _ else _] => destruct b end; [discriminate|]. intros [= <- <-]. auto. Qed.

Definition ex_mach : dict entry :=
  [(MACH, Many [VNum (1#2); VNum (1#4)]); (ALTITUDE, Many [VNum 0; VNum 1000]); (ALPHA, Many [VNum 2; VNum 3]); (BETA, Many [VNum 0; VNum 0]);
   (RATE_P, Many [VNum 0; VNum 0]); (RATE_Q, Many [VNum 0; VNum (1#10)]); (RATE_R, Many [VNum 0; VNum 0])].
Example C28_example :
  NoDup (dkeys ex_mach) /\ pointwise ex_atmosphere ex_rho ex_sos /\ acceptable ex_parse ex_atmosphere ex_mach /\
  (exists st v w, update ex_parse ex_atmosphere new_state ex_mach = (st, Ok tt) /\ has st AIRSPEED [Some v; Some w] /\ v == 170 /\ w == (339#4)) /\
  snd (update ex_parse ex_atmosphere new_state ((DENSITY, Many [VNum 1; VNum 1]) :: ex_mach)) = Err ValueError.
Proof.
  assert (N : NoDup (dkeys ex_mach)) by (cbn; repeat constructor; cbn; intuition discriminate).
  split; [exact N|]. split; [exact ex_pointwise|]. split.
  - apply (C28_combinations ex_parse ex_atmosphere ex_rho ex_sos ex_mach N ex_pointwise). eexists. vm_compute. reflexivity.
  - split; [|vm_compute; reflexivity]. eexists. eexists. eexists. split; [vm_compute; reflexivity|]. split; [vm_compute; reflexivity|]. split; reflexivity.
Qed.

Example C28_failures_example :
  snd (update ex_parse ex_atmosphere new_state [(MACH, One (VNum (1#2))); (ALTITUDE, One (VNum 90000)); (ALPHA, One (VNum 2)); (BETA, One (VNum 0))]) = Err ValueError /\
  snd (update ex_parse ex_atmosphere new_state [(MACH, One (VNum (1#2))); (ALTITUDE, One (VNum 9000)); (ALPHA, One (VNum 2))]) = Err TypeError.
Proof. split; vm_compute; reflexivity. Qed.

(** C29: lists of different lengths are rejected, whatever happened before; one scalar stands for
    a list with one element; iterating yields as many states as the lists have elements, the
    i-th with the i-th values, provided that the rates are given. *)
Theorem C29_rows_partial :
  forall parse atmosphere d, NoDup (dkeys d) ->
  (forall st, (exists p q e f, In (p, e) d /\ In (q, f) d /\ List.length (as_list e) <> List.length (as_list f)) ->
     exists st', update parse atmosphere st d = (st', Err ValueError)) /\
  (forall st, update parse atmosphere st (map (fun kv => (fst kv, Many (as_list (snd kv)))) d) = update parse atmosphere st d) /\
  (forall rho sos st, pointwise atmosphere rho sos -> update parse atmosphere new_state d = (st, Ok tt) ->
     (forall p, In p [RATE_P; RATE_Q; RATE_R] -> exists e, In (p, e) d) ->
     exists n rows, uniform d n /\ iter_states parse st = (rows, Ok tt) /\ List.length rows = n /\
       forall j row, nth_error rows j = Some row -> dkeys row = STATE_PRIMARY_PARAMS /\
         forall p x, In (p, x) row -> exists xs, has st p xs /\ nth_error xs j = Some x).
Proof.
  intros parse atmosphere d N.
  exact (conj (rejected_lengths parse atmosphere d N) (conj (fun st => scalars_are_lists parse atmosphere st d)
        (fun rho sos st P => iteration parse atmosphere d N rho sos st P))).
Qed.
Print Assumptions C29_rows_partial.

(** Without a rate the dictionary is accepted, but there is nothing to iterate over. *)
Definition ex_no_rates : dict entry := [(AIRSPEED, One (VNum 10)); (DENSITY, One (VNum 1)); (ALPHA, One (VNum 2)); (BETA, One (VNum 0))].
Theorem C29_rows_refuted :
  exists d st, (forall parse atmosphere, update parse atmosphere new_state d = (st, Ok tt)) /\ uniform d 1 /\
    forall parse, iter_states parse st = ([], Err TypeError).
Proof.
  exists ex_no_rates. eexists. split; [intros; vm_compute; reflexivity|]. split; [|intro; vm_compute; reflexivity].
  intros p e I. cbn in I. repeat destruct I as [I|I]; [..|destruct I]; injection I as <- <-; reflexivity.
Qed.
Print Assumptions C29_rows_refuted.

Example C29_example :
  exists st r0 r1, update ex_parse ex_atmosphere new_state ex_mach = (st, Ok tt) /\
  (forall p, In p [RATE_P; RATE_Q; RATE_R] -> exists e, In (p, e) ex_mach) /\
  iter_states ex_parse st = ([r0; r1], Ok tt) /\ dget r1 RATE_Q = Some (Some (1#10)) /\ dget r0 ALPHA = Some (Some 2).
Proof.
  eexists. eexists. eexists. split; [vm_compute; reflexivity|]. split; [intros p [<-|[<-|[<-|[]]]]; eexists; cbn; tauto|].
  split; [vm_compute; reflexivity|]. split; reflexivity.
Qed.

(** C30: an angle of 100 degrees is accepted. *)
Theorem C30_angles_refuted :
  exists d st, In (ALPHA, One (VNum 100)) d /\ (forall parse atmosphere, update parse atmosphere new_state d = (st, Ok tt)) /\
    has st ALPHA [Some 100].
Proof.
  exists [(AIRSPEED, One (VNum 10)); (DENSITY, One (VNum 1)); (ALPHA, One (VNum 100)); (BETA, One (VNum 0))]. eexists.
  split; [cbn; tauto|]. split; [intros; vm_compute; reflexivity|reflexivity].
Qed.
Print Assumptions C30_angles_refuted.

(** In general the check of the angles never raises ValueError; it only notices angles that are
    missing altogether. *)
Theorem C30_angles_partial :
  forall a,
  check_values a <> Err ValueError /\
  (check_values a = Ok tt <-> (exists xs, dget a ALPHA = Some (SArr xs)) /\ (exists xs, dget a BETA = Some (SArr xs))).
Proof.
  intro a. split; [|exact (check_iff a)]. intro H. discriminate (check_errors a _ H).
Qed.
Print Assumptions C30_angles_partial.

(** C31: an update after an accepted mach/altitude update fails, although the same dictionary is
    accepted by a new object; and a rejected update has changed the object. *)
Theorem C31_update_refuted :
  (exists d d' st, update ex_parse ex_atmosphere new_state d = (st, Ok tt) /\
     snd (update ex_parse ex_atmosphere new_state d') = Ok tt /\
     snd (update ex_parse ex_atmosphere st d') = Err ValueError) /\
  (exists d st, update ex_parse ex_atmosphere new_state d = (st, Err ValueError) /\ f_aero st <> f_aero new_state /\ f_num st <> f_num new_state).
Proof.
  split.
  - exists ex_mach, ex_no_rates. eexists. split; [vm_compute; reflexivity|]. split; vm_compute; reflexivity.
  - exists [(AIRSPEED, One (VNum 10))]. eexists. split; [vm_compute; reflexivity|]. split; discriminate.
Qed.
Print Assumptions C31_update_refuted.

(** What holds: a dictionary that mentions all nine parameters (unused ones as null) has the same
    outcome and the same values for every object.  A leftover altitude makes every update with a
    density fail unless the dictionary mentions the altitude. *)
Theorem C31_update_partial :
  forall parse atmosphere d, NoDup (dkeys d) ->
  (forall st st', (forall p, In p STATE_ALL_PARAMS -> exists e, In (p, e) d) ->
     snd (update parse atmosphere st d) = snd (update parse atmosphere st' d) /\
     (forall p, In p STATE_ALL_PARAMS ->
        dget (f_aero (fst (update parse atmosphere st d))) p = dget (f_aero (fst (update parse atmosphere st' d))) p) /\
     (snd (update parse atmosphere st d) = Ok tt ->
        f_num (fst (update parse atmosphere st d)) = f_num (fst (update parse atmosphere st' d)))) /\
  (forall st, (exists n, uniform d n) -> given d DENSITY -> (forall e, ~ In (ALTITUDE, e) d) -> (exists hs, has st ALTITUDE hs) ->
     exists st', update parse atmosphere st d = (st', Err ValueError)).
Proof.
  intros parse atmosphere d N. split; [|exact (fun st => update_leftover parse atmosphere st d N)].
  intros st st' K. destruct (update_again parse atmosphere st st' d N K) as (A & B & C).
  destruct (update_again parse atmosphere st' st d N K) as (_ & B' & _).
  split; [exact A|]. split; [exact C|]. intro O. rewrite B, B'. destruct (common_length d) eqn:E; [reflexivity|].
  exfalso. destruct d as [|x d']; [discriminate|]. unfold update in O. rewrite E in O. discriminate.
Qed.
Print Assumptions C31_update_partial.

Definition ex_full : dict entry :=
  [(AIRSPEED, One (VNum 10)); (DENSITY, One (VNum 1)); (ALPHA, One (VNum 2)); (BETA, One (VNum 0)); (MACH, One VNone); (ALTITUDE, One VNone);
   (RATE_P, One (VNum 0)); (RATE_Q, One (VNum 0)); (RATE_R, One (VNum 0))].
Example C31_example :
  exists st, update ex_parse ex_atmosphere new_state ex_mach = (st, Ok tt) /\ NoDup (dkeys ex_full) /\
  (forall p, In p STATE_ALL_PARAMS -> exists e, In (p, e) ex_full) /\ snd (update ex_parse ex_atmosphere st ex_full) = Ok tt /\
  has st ALTITUDE [Some 0; Some 1000] /\ given ex_no_rates DENSITY.
Proof.
  eexists. split; [vm_compute; reflexivity|]. split; [cbn; repeat constructor; cbn; intuition discriminate|].
  split; [intros p I; cbn in I; repeat destruct I as [<-|I]; [..|destruct I]; eexists; cbn; tauto|].
  split; [vm_compute; reflexivity|]. split; [reflexivity|]. eexists. split; [cbn; tauto|]. repeat constructor.
Qed.

(** C35: states defined with an altitude are saved but cannot be loaded again. *)
Theorem C35_reload_refuted :
  exists d st, update ex_parse ex_atmosphere new_state d = (st, Ok tt) /\
    snd (load ex_parse ex_atmosphere (save st)) = Err ValueError.
Proof. exists ex_mach. eexists. split; [vm_compute; reflexivity|]. vm_compute. reflexivity. Qed.
Print Assumptions C35_reload_refuted.

(** An accepted state can be loaded again exactly if it is a single state that mentions neither
    mach nor altitude; all its values are then preserved. *)
Theorem C35_reload_partial :
  forall parse atmosphere rho sos d st, NoDup (dkeys d) -> pointwise atmosphere rho sos ->
  update parse atmosphere new_state d = (st, Ok tt) ->
  ((exists st', load parse atmosphere (save st) = (st', Ok tt)) <->
   uniform d 1 /\ (forall e, ~ In (MACH, e) d) /\ (forall e, ~ In (ALTITUDE, e) d)) /\
  (forall st', load parse atmosphere (save st) = (st', Ok tt) ->
    f_num st' = f_num st /\ forall p xs, In p STATE_ALL_PARAMS -> has st p xs -> has st' p xs).
Proof. intros parse atmosphere rho sos d st N P. exact (reload parse atmosphere d N rho sos st P). Qed.
Print Assumptions C35_reload_partial.

Definition ex_single : dict entry :=
  [(AIRSPEED, One (VNum 10)); (DENSITY, One (VNum (6#5))); (ALPHA, One (VNum 2)); (BETA, One (VNum 0));
   (RATE_P, One (VNum 0)); (RATE_Q, One (VNum 0)); (RATE_R, One (VNum 0))].
Example C35_example :
  exists st st', update ex_parse ex_atmosphere new_state ex_single = (st, Ok tt) /\ NoDup (dkeys ex_single) /\
  load ex_parse ex_atmosphere (save st) = (st', Ok tt) /\ has st DENSITY [Some (6#5)] /\ has st' DENSITY [Some (6#5)].
Proof.
  eexists. eexists. split; [vm_compute; reflexivity|]. split; [cbn; repeat constructor; cbn; intuition discriminate|].
  split; [vm_compute; reflexivity|]. split; reflexivity.
Qed.

(** C59: an accepted state can have angles that are not numbers. *)
Theorem C59_numbers_refuted :
  exists d st row, (forall parse atmosphere, update parse atmosphere new_state d = (st, Ok tt)) /\
    (forall parse, iter_states parse st = ([row], Ok tt)) /\ In (ALPHA, None) row.
Proof.
  exists [(AIRSPEED, One (VNum 10)); (DENSITY, One (VNum 1)); (ALPHA, One VNone); (BETA, One (VNum 0));
          (RATE_P, One (VNum 0)); (RATE_Q, One (VNum 0)); (RATE_R, One (VNum 0))]. eexists. eexists.
  split; [intros; vm_compute; reflexivity|]. split; [intro; vm_compute; reflexivity|]. cbn. tauto.
Qed.
Print Assumptions C59_numbers_refuted.

(** If all values of the dictionary are proper numbers and the atmosphere gives numbers, then all
    values of the states are numbers. *)
Theorem C59_numbers_partial :
  forall parse atmosphere rho sos d st, NoDup (dkeys d) -> pointwise atmosphere rho sos ->
  (forall h, rho (Some h) <> None /\ sos (Some h) <> None) ->
  (forall p e v, In (p, e) d -> In v (as_list e) -> exists q, v = VNum q) ->
  update parse atmosphere new_state d = (st, Ok tt) ->
  forall p xs x, In p STATE_ALL_PARAMS -> has st p xs -> In x xs -> exists q, x = Some q.
Proof. intros parse atmosphere rho sos d st N P. exact (all_numbers parse atmosphere d N rho sos st P). Qed.
Print Assumptions C59_numbers_partial.
Example C59_example :
  NoDup (dkeys ex_mach) /\ (forall h, ex_rho (Some h) <> None /\ ex_sos (Some h) <> None) /\
  (forall p e v, In (p, e) ex_mach -> In v (as_list e) -> exists q, v = VNum q) /\
  snd (update ex_parse ex_atmosphere new_state ex_mach) = Ok tt.
Proof.
  split; [cbn; repeat constructor; cbn; intuition discriminate|]. split; [intro; split; discriminate|]. split; [|vm_compute; reflexivity].
  intros p e v I. cbn in I. repeat destruct I as [I|I]; [..|destruct I]; injection I as <- <-; intros [<-|[<-|[]]]; eexists; reflexivity.
Qed.

(** C60: the states of a CPACS aeroperformance map are its rows: one state per entry of the four
    vectors, with zero rates. *)
Theorem C60_aeroperformance_map :
  forall parse atmosphere rho sos h m al be, pointwise atmosphere rho sos ->
  (~ (List.length m = List.length h /\ List.length al = List.length h /\ List.length be = List.length h) ->
   load_apm parse atmosphere h m al be = (new_state, Err ValueError)) /\
  (List.length m = List.length h -> List.length al = List.length h -> List.length be = List.length h -> forall r, atmosphere h = Ok r ->
   exists st xs rows, load_apm parse atmosphere h m al be = (st, Ok tt) /\ f_num st = List.length h /\
    has st ALPHA al /\ has st BETA be /\ has st DENSITY (map rho h) /\ has st AIRSPEED xs /\ speeds sos m h xs /\
    (forall p, In p [RATE_P; RATE_Q; RATE_R] -> has st p (repeat (Some 0) (List.length h))) /\
    iter_states parse st = (rows, Ok tt) /\ List.length rows = List.length h /\
    forall j row, nth_error rows j = Some row -> dkeys row = STATE_PRIMARY_PARAMS /\
      forall p x, In (p, x) row -> exists xs, has st p xs /\ nth_error xs j = Some x).
Proof.
  intros parse atmosphere rho sos h m al be P.
  exact (conj (apm_lengths parse atmosphere h m al be) (apm_ok parse atmosphere rho sos h m al be P)).
Qed.
Print Assumptions C60_aeroperformance_map.
Example C60_example :
  exists st rows, load_apm ex_parse ex_atmosphere [Some 0; Some 5000; Some 0] [Some (1#2); Some (1#4); Some (1#3)] [Some 0; Some 1; Some 2] [Some 0; Some 0; Some 5] = (st, Ok tt) /\
  iter_states ex_parse st = (rows, Ok tt) /\ List.length rows = 3%nat /\
  exists r, ex_atmosphere [Some 0; Some 5000; Some 0] = Ok r.
Proof. eexists. eexists. split; [vm_compute; reflexivity|]. split; [vm_compute; reflexivity|]. split; [reflexivity|]. eexists. vm_compute. reflexivity. Qed.
