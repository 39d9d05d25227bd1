(** Specification of the command line (C47, C68). *)
From Coq Require Import List String Bool.
From Verif Require Import PyBase CliModel.
Import ListNotations.
Open Scope string_scope.

(** What argparse guarantees: at most one of the five actions, at most one of the clean flags. *)
Definition one {A} (o : option A) : nat := match o with Some _ => 1 | None => 0 end.
Definition oneb (b : bool) : nat := if b then 1 else 0.
Definition parsed (a : args) : Prop :=
  one (a_run a) + one (a_cpacs2json a) + oneb (a_make_example a) + oneb (a_list a) + one (a_from_db a) <= 1 /\
  oneb (a_clean a) + oneb (a_clean_only a) <= 1.
Definition named (a : args) : Prop := a_run a <> Some "" /\ a_cpacs2json a <> Some "".

(** [n] is a plain file name; the path denotes the file with this name. *)
Definition file_name (n : string) : Prop := n <> "" /\ ~ exists a b, n = a ++ "/" ++ b.
Definition file_at (path n : string) : Prop := path = n \/ exists dir, path = dir ++ "/" ++ n.
(** The path is that of the aircraft [name]. *)
Definition json_file (path name : string) : Prop := file_name name /\ file_at path (name ++ ".json").
Definition dotless (name : string) : Prop := ~ exists a b, name = a ++ "." ++ b.
(** The user asks for [name]: by its name, or with the extension, perhaps with a directory. *)
Definition asks_for (arg name : string) : Prop := file_name name /\ (file_at arg name \/ file_at arg (name ++ ".json")).

(** The documented behaviour: the actions in their order. *)
Inductive documented (db : list string) (a : args) : list action -> Prop :=
| d_run f : a_run a = Some f -> a_clean a = false -> a_clean_only a = false -> documented db a [ARun f]
| d_clean_run f : a_run a = Some f -> a_clean a = true -> documented db a [AClean f; ARun f]
| d_clean_only f : a_run a = Some f -> a_clean_only a = true -> documented db a [AClean f]
| d_convert f : a_cpacs2json a = Some f -> a_clean a = false -> a_clean_only a = false -> documented db a [AConvert f]
| d_example : a_make_example a = true -> a_clean a = false -> a_clean_only a = false -> documented db a [AExample None]
| d_list : a_list a = true -> a_clean a = false -> a_clean_only a = false -> documented db a [AList]
| d_help : a_run a = None -> a_cpacs2json a = None -> a_make_example a = false -> a_list a = false -> a_from_db a = None ->
    a_clean a = false -> a_clean_only a = false -> documented db a [AHelp].
