(** Property theorems: reading aircraft files (C111). *)
From Coq Require Import List String Ascii ZArith QArith Bool.
From Verif Require Import PyBase PyVal ControlModel AircraftIOModel AircraftIOSpec LoadSpec LoadProofs.
Import ListNotations.
Open Scope string_scope.

(** C111: a file is accepted with the aircraft [a] as result exactly if [a] is the aircraft that the
    file defines, entry by entry, and all its values are in range. *)
Theorem C111_load : forall none_ok int_ok root parse_float derive import_airfoils finish_wing,
  directory root -> forall doc a, json doc ->
  (load none_ok int_ok root parse_float derive import_airfoils finish_wing doc = Ok a <->
   loaded none_ok int_ok root parse_float derive import_airfoils finish_wing doc a).
Proof. intros n i root p d ia fw D. exact (load_iff n i root p d ia fw D). Qed.
Print Assumptions C111_load.
(** A file defines at most one aircraft. *)
Theorem C111_one : forall none_ok int_ok root parse_float derive import_airfoils finish_wing,
  directory root -> forall doc a b, json doc ->
  loaded none_ok int_ok root parse_float derive import_airfoils finish_wing doc a ->
  loaded none_ok int_ok root parse_float derive import_airfoils finish_wing doc b -> a = b.
Proof.
  intros n i root p d ia fw D doc a b J A B. apply (load_iff n i root p d ia fw D) in A; [|exact J].
  apply (load_iff n i root p d ia fw D) in B; [|exact J]. congruence.
Qed.
Print Assumptions C111_one.

Definition num (q : Q) : pyval := PFlt (Some q).
Definition vec (x y z : Q) : pyval := PList [num x; num y; num z].
Definition ex_doc (d : list (string * pyval)) : pyval :=
  PDict [("uid", PStr "Tornado");
    ("refs", PDict [("area", PStr "12"); ("span", num 6); ("note", PStr "x"); ("chord", PInt 2); ("gcenter", vec 1 0 0); ("rcenter", PList [PInt 1; PInt 0; PInt 0])]);
    ("wings", PList [PDict [("uid", PStr "wing"); ("symmetry", PInt 2);
       ("segments", PList [PDict [("uid", PStr "seg");
          ("vertices", PDict (("a", vec 0 0 0) :: ("b", vec 0 6 0) :: ("c", vec 2 6 0) :: d));
          ("geometry", PDict [("inner_axis", num (1 # 2)); ("remark", PStr "y")]); ("airfoils", PDict [("inner", PStr "airfoils/blade.root"); ("outer", PStr "NACA0012")]);
          ("panels", PDict [("num_c", PInt 4)])]]);
       ("controls", PList [PDict [("uid", PStr "flap"); ("device_type", PStr "flap"); ("deflection", PInt 5);
          ("segment_uid", PDict [("inner", PStr "seg"); ("outer", PStr "seg")]);
          ("rel_vertices", PDict [("eta_inner", num (2#10)); ("eta_outer", num (8#10)); ("xsi_inner", num (7#10)); ("xsi_outer", num (7#10))]);
          ("rel_hinge_vertices", PDict [("xsi_inner", num (7#10)); ("xsi_outer", num (7#10))]);
          ("panels", PDict [("num_c", PInt 2)])]])]])].
Definition ex_load : pyval -> res acdef :=
  load true true "/home/u/project" (fun s => if String.eqb s "12" then Ok (Some 12%Q) else Err ValueError) (fun _ _ _ => Ok (fun _ => Some 0%Q)) (fun _ _ => Ok tt) (fun _ => Ok tt).
Lemma ex_directory : directory "/home/u/project".
Proof. exists "/home/u/projec", "t"%char. split; [reflexivity|discriminate]. Qed.
(** A complete file; one without a vertex is refused. *)
Example C111_example :
  (json (ex_doc [("d", vec 2 0 0)]) /\
   exists a w s c, ex_load (ex_doc [("d", vec 2 0 0)]) = Ok a /\ ad_wings a = [("wing", w)] /\ wd_segs w = [("seg", s)] /\ wd_ctls w = [("flap", c)] /\
     dget (sd_airfoils s) "inner" = Some (PStr "/home/u/project/airfoils/blade.root") /\ dget (sd_geometry s) "inner_axis" = Some (num (1 # 2)) /\
     dget (sd_geometry s) "outer_axis" = Some (num (1 # 4)) /\ cd_deflection c = num 5 /\ cd_mirror c = num 5) /\
  json (ex_doc []) /\ ex_load (ex_doc []) = Err IndexError.
Proof.
  split; [|split; [unfold ex_doc, vec, num; json_check|vm_compute; reflexivity]].
  split; [unfold ex_doc, vec, num; json_check|]. do 4 eexists. split; [vm_compute; reflexivity|]. cbn [ad_wings]. split; [reflexivity|]. cbn [wd_segs wd_ctls].
  split; [reflexivity|]. split; [reflexivity|]. vm_compute. repeat split.
Qed.
