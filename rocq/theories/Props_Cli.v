(** Property theorems: command line and database (C47, C68). *)
From Coq Require Import List String Bool.
From Verif Require Import PyBase StrFacts CliModel CliSpec CliProofs.
Import ListNotations.
Open Scope string_scope.

(** C47: the documented actions are performed in their order until one fails; cleaning without a
    settings file is refused before anything is done. *)
Theorem C47_actions :
  (forall perform db a t r ts, parsed a -> named a -> documented db a ts -> main perform db a = (t, r) ->
     (exists rest, ts = t ++ rest)%list /\ ((forall x, In x ts -> perform x = Ok tt) -> t = ts /\ r = Ok tt) /\
     ((t = ts /\ r = Ok tt) \/ exists x e, In x t /\ perform x = Err e /\ r = Err e)) /\
  (forall perform db a, a_clean a = true \/ a_clean_only a = true -> a_run a = None -> main perform db a = ([], Err RuntimeError)).
Proof. exact (conj actions clean_needs_run). Qed.
Print Assumptions C47_actions.

(** An empty file name is treated as if there were no option at all. *)
Theorem C47_empty_refuted :
  exists a, parsed a /\ a_run a = Some "" /\ forall db, main (fun _ => Ok tt) db a = ([AHelp], Ok tt).
Proof.
  exists (mkArgs (Some "") None false false None false false). split; [split; repeat constructor|]. split; reflexivity.
Qed.
Print Assumptions C47_empty_refuted.
Example C47_example :
  let a := mkArgs (Some "settings/x.json") None false false None true false in
  parsed a /\ named a /\ documented [] a [AClean "settings/x.json"; ARun "settings/x.json"] /\
  main (fun x => match x with AClean _ => Err IOError | _ => Ok tt end) [] a = ([AClean "settings/x.json"], Err IOError).
Proof.
  split; [split; repeat constructor|]. split; [split; discriminate|]. split; [|reflexivity]. apply d_clean_run; reflexivity.
Qed.

(** C68: the database lists exactly the aircraft that it contains; an aircraft without a dot in its
    name can be asked for by name or by file name, and an unknown one is reported after the list
    has been printed. *)
Theorem C68_database_partial :
  forall db, (forall p, In p db -> exists n, json_file p n) ->
  (forall n, In n (list_aircraft_names db) <-> exists p, In p db /\ json_file p n) /\
  (forall perform a arg t r, parsed a -> a_from_db a = Some arg -> a_clean a = false -> a_clean_only a = false ->
   main perform db a = (t, r) -> forall name, asks_for arg name -> dotless name ->
   (exists p, In p db /\ json_file p name /\ follows perform [AExample (Some p)] (Ok tt) t r) \/
   ((forall p, In p db -> ~ json_file p name) /\ follows perform [AList] (Err SystemExit) t r)).
Proof.
  intros db DB. split; [intro n; exact (listed db n DB)|]. intros perform a arg t r P F C1 C2 M. exact (from_db perform db a arg t r P F C1 C2 M DB).
Qed.
Print Assumptions C68_database_partial.

(** A listed aircraft with a dot in its name cannot be asked for by its name. *)
Theorem C68_dot_refuted :
  exists db n, (forall p, In p db -> exists m, json_file p m) /\ In n (list_aircraft_names db) /\
  main (fun _ => Ok tt) db (mkArgs None None false false (Some n) false false) = ([AList], Err SystemExit).
Proof.
  exists ["aircraft/glider1.5.json"], "glider1.5". split.
  - intros p [<-|[]]. exists "glider1.5". split; [|right; exists "aircraft"; reflexivity]. split; [discriminate|].
    intro H. apply has_slash_iff in H. discriminate.
  - split; [left; reflexivity|reflexivity].
Qed.
Print Assumptions C68_dot_refuted.
Example C68_example :
  let db := ["aircraft/bwb.json"; "aircraft/d150.json"] in
  let a := mkArgs None None false false (Some "dir/d150.json") false false in
  parsed a /\ asks_for "dir/d150.json" "d150" /\ list_aircraft_names db = ["bwb"; "d150"] /\
  main (fun _ => Ok tt) db a = ([AExample (Some "aircraft/d150.json")], Ok tt).
Proof.
  split; [split; repeat constructor|]. split; [|split; reflexivity]. split; [|right; right; exists "dir"; reflexivity].
  split; [discriminate|]. intro H. apply has_slash_iff in H. discriminate.
Qed.
