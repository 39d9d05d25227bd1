(** Property theorems: aircraft files (C34). *)
From Coq Require Import List String Ascii ZArith QArith.
From Verif Require Import PyBase PyVal ControlModel AircraftIOModel AircraftIOSpec AircraftIOProofs.
Import ListNotations.
Open Scope string_scope.

(** C34: an aircraft read from a file is written and read back unchanged (uid, reference values,
    wings, segments, controls in the same order, with all their values) exactly if its airfoil
    names survive and the angles computed from the vertices are in the ranges accepted for angles
    given in a file.  [none_ok], [int_ok] are the open points of the schema library; [derive] and
    so on are the functions that are external to this model. *)
Theorem C34_roundtrip : forall none_ok int_ok root parse_float derive import_airfoils finish_wing,
  let load := load none_ok int_ok root parse_float derive import_airfoils finish_wing in
  directory root -> forall doc a, load doc = Ok a ->
  ((exists j, save a = Ok j /\ load j = Ok a) <->
   each_segment (airfoils_kept root) a /\ each_segment angles_kept a).
Proof. intros n i root p d ia fw load D. exact (load_save_load n i root p d ia fw D). Qed.
Print Assumptions C34_roundtrip.

(** Without the generation of the geometry, only the airfoil names matter. *)
Theorem C34_definition : forall none_ok int_ok root, directory root -> forall doc a,
  parse none_ok int_ok root doc = Ok a ->
  ((exists j, save a = Ok j /\ parse none_ok int_ok root j = Ok a) <-> each_segment (airfoils_kept root) a).
Proof.
  intros n i root D. exact (parse_save_parse n i root (fun _ => Ok None) (fun _ _ _ => Ok (fun _ => None)) (fun _ _ => Ok tt) (fun _ => Ok tt) D).
Qed.
Print Assumptions C34_definition.

Definition num (q : Q) : pyval := PFlt (Some q).
Definition vec (x y z : Q) : pyval := PList [num x; num y; num z].
Definition ex_doc (airfoil : string) : pyval :=
  PDict [("uid", PStr "Tornado");
    ("refs", PDict [("area", num 12); ("span", num 6); ("chord", PInt 2); ("gcenter", vec 1 0 0); ("rcenter", vec 1 0 0)]);
    ("wings", PList [PDict [("uid", PStr "wing"); ("symmetry", PInt 2);
       ("segments", PList [PDict [("uid", PStr "seg");
          ("vertices", PDict [("a", vec 0 0 0); ("b", vec 0 6 0); ("c", vec 2 6 0); ("d", vec 2 0 0)]);
          ("geometry", PNone); ("airfoils", PDict [("inner", PStr airfoil); ("outer", PStr "NACA0012")]);
          ("panels", PDict [("num_c", PInt 4)])]]);
       ("controls", PList [PDict [("uid", PStr "flap"); ("device_type", PStr "flap"); ("deflection", PInt 5);
          ("segment_uid", PDict [("inner", PStr "seg"); ("outer", PStr "seg")]);
          ("rel_vertices", PDict [("eta_inner", num (2#10)); ("eta_outer", num (8#10)); ("xsi_inner", num (7#10)); ("xsi_outer", num (7#10))]);
          ("rel_hinge_vertices", PDict [("xsi_inner", num (7#10)); ("xsi_outer", num (7#10))]);
          ("panels", PDict [("num_c", PInt 2)])]])]])].
Definition ex_load : pyval -> res acdef :=
  load true true "/home/u/project" (fun _ => Err ValueError) (fun _ _ _ => Ok (fun _ => Some 0%Q)) (fun _ _ => Ok tt) (fun _ => Ok tt).

(** A coordinate file in a subfolder of "airfoils" is looked for in the folder itself afterwards. *)
Theorem C34_subfolder_refuted : exists doc a j b, ex_load doc = Ok a /\ save a = Ok j /\ ex_load j = Ok b /\
  (exists s s' f, sd_airfoils s = [("inner", PStr "/home/u/project/airfoils/old/blade.root"); f] /\
                  sd_airfoils s' = [("inner", PStr "/home/u/project/airfoils/blade.root"); f] /\
   exists ku ks w w', In (ku, w) (ad_wings a) /\ In (ks, s) (wd_segs w) /\ In (ku, w') (ad_wings b) /\ In (ks, s') (wd_segs w')).
Proof.
  exists (ex_doc "airfoils/old/blade.root"). do 3 eexists. split; [vm_compute; reflexivity|].
  split; [vm_compute; reflexivity|]. split; [vm_compute; reflexivity|].
  do 3 eexists. split; [|split].
  3: { do 4 eexists. cbn [ad_wings]. split; [left; reflexivity|]. cbn [wd_segs]. split; [left; reflexivity|].
       split; [left; reflexivity|]. cbn [wd_segs]. left; reflexivity. }
  all: reflexivity.
Qed.
Print Assumptions C34_subfolder_refuted.

Lemma ex_directory : directory "/home/u/project".
Proof. exists "/home/u/projec", "t"%char. split; [reflexivity|discriminate]. Qed.
Example C34_example : exists a, ex_load (ex_doc "airfoils/blade.root") = Ok a /\
  each_segment (airfoils_kept "/home/u/project") a /\ each_segment angles_kept a.
Proof.
  eexists. split; [vm_compute; reflexivity|].
  apply (C34_roundtrip true true "/home/u/project" (fun _ => Err ValueError) (fun _ _ _ => Ok (fun _ => Some 0%Q)) (fun _ _ => Ok tt) (fun _ => Ok tt)
    ex_directory (ex_doc "airfoils/blade.root")); [vm_compute; reflexivity|].
  eexists. split; vm_compute; reflexivity.
Qed.
