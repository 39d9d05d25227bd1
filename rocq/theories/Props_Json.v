(** C123: the JSON files. *)
From Coq Require Import List String Ascii ZArith QArith.
From Verif Require Import PyBase PyVal JsonModel JsonSpec JsonProofs.
Import ListNotations.
Open Scope string_scope.

(** [repr] is Python's text of a float and [nearest] its rounding; what is assumed of them is that the text of
    a float is read as this float.  Values without NaN are read back by any JSON reader. *)
Theorem C123_standard repr nearest (double : Q -> Prop) v :
  (forall q, double q -> number nearest (repr q) = Some (PFlt (Some q))) -> writable double false v ->
  exists t, dump_pretty_json repr v = Ok t /\ read_json false nearest t = Some v.
Proof. exact (written_read repr nearest double false v). Qed.
Print Assumptions C123_standard.

(** NaN, too, is read back by Python ... *)
Theorem C123_python repr nearest (double : Q -> Prop) v :
  (forall q, double q -> number nearest (repr q) = Some (PFlt (Some q))) -> writable double true v ->
  exists t, dump_pretty_json repr v = Ok t /\ read_json true nearest t = Some v.
Proof. exact (written_read repr nearest double true v). Qed.
Print Assumptions C123_python.

(** ... but not by a reader that keeps to the standard. *)
Theorem C123_nan_refuted : exists v, forall repr nearest, exists t, dump_pretty_json repr v = Ok t /\ read_json false nearest t = None.
Proof. exists (PDict [("CL", PFlt None)]). intros repr nearest.
  exists ("{" ++ newline 1 ++ """CL"": NaN" ++ newline 0 ++ "}"). split; [reflexivity|vm_compute; reflexivity].
Qed.
Print Assumptions C123_nan_refuted.

(** Exactly the values without NaN are read by standard readers. *)
Theorem C123_nan repr nearest (double : Q -> Prop) v :
  (forall q, double q -> number nearest (repr q) = Some (PFlt (Some q))) -> writable double true v ->
  exists t, dump_pretty_json repr v = Ok t /\ (has_nan v -> read_json false nearest t = None) /\ (~ has_nan v -> read_json false nearest t = Some v).
Proof. exact (nan_exact repr nearest double v). Qed.
Print Assumptions C123_nan.

(** Values with a path anywhere are refused, and no others. *)
Theorem C123_paths repr v :
  (dump_pretty_json repr v = Err TypeError <-> has_path v) /\ (~ has_path v -> exists t, dump_pretty_json repr v = Ok t).
Proof. exact (conj (path_refused repr v) (pathless_written repr v)). Qed.
Print Assumptions C123_paths.

(** The text is plain ASCII, whatever characters the strings have. *)
Theorem C123_ascii repr v t : (forall q, plain (repr q)) -> dump_pretty_json repr v = Ok t -> plain t.
Proof. intros R. exact (text_plain repr v R 0 t). Qed.
Print Assumptions C123_ascii.

(** So the models that treat dumping and loading as one step are right. *)
Theorem C123_dump repr v : (exists t, dump_pretty_json repr v = Ok t) <-> dump v = Ok v.
Proof. exact (dump_same repr v). Qed.
Print Assumptions C123_dump.

(** The global results: each quantity is found under its section and name. *)
Theorem C123_global repr nearest (double : Q -> Prop) aero refs forces coeffs :
  (forall q, double q -> number nearest (repr q) = Some (PFlt (Some q))) ->
  (forall d k v, In d [aero; refs; forces; coeffs] -> In (k, v) d -> writable double false v) ->
  exists t d, save_glob_results repr aero refs forces coeffs = Ok t /\ read_json false nearest t = Some (PDict d) /\
    entry d "aero" = Some (PDict aero) /\ entry d "refs" = Some (PDict refs) /\
    entry d "global_forces" = Some (PDict forces) /\ entry d "global_coeffs" = Some (PDict coeffs).
Proof. exact (global_read repr nearest double false aero refs forces coeffs). Qed.
Print Assumptions C123_global.

(** The performance map: one list per flight parameter and result. *)
Theorem C123_map repr nearest (double : Q -> Prop) aero results :
  (forall q, double q -> number nearest (repr q) = Some (PFlt (Some q))) ->
  (forall d, In d [aero; results] -> NoDup (map fst d)) ->
  (forall d k v, In d [aero; results] -> In (k, v) d -> writable double false v /\ column v <> None) ->
  exists t d, save_aeroperformance_map repr aero results = Ok t /\ read_json false nearest t = Some (PDict d) /\
    forall k, entry d k = match entry results k, entry aero k with
      | Some v, _ => column v
      | None, Some v => column v
      | None, None => None
      end.
Proof. exact (map_read repr nearest double false aero results). Qed.
Print Assumptions C123_map.

(** Two floats, their texts, and a rounding that keeps them. *)
Definition ex_double (q : Q) : Prop := q = (1 # 2)%Q \/ q = (-5 # 4)%Q.
Definition ex_repr (q : Q) : string := if Qeq_bool q (1 # 2) then "0.5" else "-1.25e+00".
Example C123_example : (forall q, ex_double q -> number Qred (ex_repr q) = Some (PFlt (Some q))) /\
  writable ex_double false (PDict [("a""b", PList [PFlt (Some (1 # 2)); PInt (-10); PNone]); ("x", PDict []); ("y", PBool true)]) /\
  dump_pretty_json ex_repr (PDict [("a""b", PList [PFlt (Some (1 # 2)); PInt (-10); PNone]); ("x", PDict []); ("y", PBool true)]) = Ok
"{
    ""a\""b"": [
        0.5,
        -10,
        null
    ],
    ""x"": {},
    ""y"": true
}".
Proof.
  split; [intros q [->| ->]; vm_compute; reflexivity|]. split; [|vm_compute; reflexivity].
  constructor. intros k x I. cbn in I. decompose [or] I; try tauto; match goal with E : (_, _) = (k, x) |- _ => injection E as <- <- end; constructor.
  - intros y J. cbn in J. decompose [or] J; subst; try tauto; constructor. left. reflexivity.
  - intros ? ? [].
Qed.
Example C123_nan_example : writable ex_double true (PDict [("CL", PList [PFlt (Some (1 # 2)); PFlt None])]) /\ has_nan (PDict [("CL", PList [PFlt (Some (1 # 2)); PFlt None])]).
Proof.
  split.
  - constructor. intros k x [E|[]]. injection E as <- <-. constructor. intros y [<-|[<-|[]]]; constructor; [left|]; reflexivity.
  - apply (n_dict _ "CL" (PList [PFlt (Some (1 # 2)); PFlt None])); [left; reflexivity|]. apply (n_list _ (PFlt None)); [right; left; reflexivity|constructor].
Qed.
Example C123_global_example : save_glob_results ex_repr [("airspeed", PFlt (Some (1 # 2)))] [("gcenter", PList [PFlt (Some (1 # 2))])] [("x", PFlt (Some (-5 # 4)))] [] = Ok
"{
    ""aero"": {
        ""airspeed"": 0.5
    },
    ""refs"": {
        ""gcenter"": [
            0.5
        ]
    },
    ""global_forces"": {
        ""x"": -1.25e+00
    },
    ""global_coeffs"": {}
}".
Proof. vm_compute. reflexivity. Qed.
Example C123_map_example : save_aeroperformance_map ex_repr [("alpha", PList [PFlt (Some (1 # 2))]); ("mach", PNone)] [("CL", PList [PFlt (Some (-5 # 4))])] = Ok
"{
    ""alpha"": [
        0.5
    ],
    ""mach"": [],
    ""CL"": [
        -1.25e+00
    ]
}".
Proof. vm_compute. reflexivity. Qed.
(** Exponents, leading zeros and control characters. *)
Example C123_reader_example : number Qred "-1.25e-07" = Some (PFlt (Some (-1 # 8000000)%Q)) /\ number Qred "012" = None /\ number Qred "1." = None /\
  read_json false Qred "[1, 2,]" = None /\ read_json false Qred " { ""k"" : [ true ] } " = Some (PDict [("k", PList [PBool true])]) /\
  dump_pretty_json ex_repr (PStr (String (ascii_of_nat 9) (String (ascii_of_nat 233) ""))) = Ok """\t\u00e9""".
Proof. vm_compute. repeat split. Qed.
