(** Property theorems: aircraft read from CPACS documents (C77-C84). *)
From Coq Require Import List String Ascii ZArith QArith.
From Verif Require Import PyBase PyVal ControlModel AircraftIOModel AircraftIOSpec CpacsAircraftModel CpacsAircraftSpec CpacsAircraftProofs.
Import ListNotations.
Open Scope nat_scope.
Open Scope string_scope.

(** ** Documents for the examples *)

(** A segment with the given corners: flat section profiles. *)
Definition flat (a b c d : point) (uid : option string) (i o : nat) : cseg :=
  let f (eta xsi : Q) := if Qeq_bool eta 0 then (if Qeq_bool xsi 0 then a else d) else (if Qeq_bool xsi 0 then b else c) in
  mkSeg uid f f i o.
Definition pt := mkPt.
Definition rect (uid : option string) : cseg := flat (pt 0 0 0) (pt 0 5 0) (pt 1 5 0) (pt 1 0 0) uid 0 1.
(** The left half of a wing, from the tip. *)
Definition from_tip (uid : option string) : cseg := flat (pt 0 5 0) (pt 0 0 0) (pt 1 0 0) (pt 1 5 0) uid 0 1.
Definition winglet (uid : option string) : cseg :=
  flat (pt 0 5 0) (pt (1#2) 5 1) (pt 1 (499#100) 1) (pt 1 5 0) uid 0 1.
Definition device (uid : string) : cdev :=
  mkDev (Some uid) (Some (mkDP (2#10) (2#10) (7#10) (8#10) (8#10) (7#10) (7#10) (7#10))).
Definition wing (uid : string) (segs : list cseg) (lead trail : list cdev) : cwing :=
  mkWing (Some uid) 2 (Some segs) [mkComp (uid ++ "_comp") lead trail].
Definition foils := [mkFoil (Some "NACA 0012") [(1, 0); (0, 0)]%Q; mkFoil (Some "tip") [(1, 0); (5#10, 1#10)]%Q].
Definition document (ws : list cwing) (tools : list ctool) : cdoc :=
  mkDoc (Some (Some "My Aircraft")) (Some ws) tools foils (mkRefs (Some 1%Q) (Some 0%Q) (Some 0%Q) (Some 10%Q) (Some 2%Q)).
Definition tool (uid : string) (q : Q) : ctool := mkTool (Some uid) (Some q) None.
Definition ex_locate (seg : string) : string -> Q -> Q -> res (string * Q * Q) := fun _ e x => Ok (seg, e, x).
Definition ex_read (seg : string) : cdoc -> res (acdef * dict (string * list (Q * Q))) := read_aircraft true true "/home/u/project" (ex_locate seg).
Lemma ex_directory : directory "/home/u/project".
Proof. exists "/home/u/projec", "t"%char. split; [reflexivity|discriminate]. Qed.

(** ** C77 *)

(** C77: the vertices of a segment lie halfway between the lower and upper corners; they are
    re-ordered such that a and d lie at the root, b and c at the tip, a and b in front, exactly
    if both edges point in the same direction of the span and both sides in the same direction of
    x.  a is never behind d, b never behind c.  Missing: other quadrilaterals. *)
Theorem C77_vertices_partial : forall none_ok int_ok root locate, directory root -> forall d ac files i w w' k s s',
  read_aircraft none_ok int_ok root locate d = Ok (ac, files) -> wing_at d ac i w w' -> segment_at w w' k s s' ->
  exists raw v, corners s raw /\ has_vertices s' v /\ (same_sense raw <-> proper v /\ same_quad raw v) /\
    (px (qa v) <= px (qd v))%Q /\ (px (qb v) <= px (qc v))%Q.
Proof. intros n i r l D. exact (vertices_thm n i r l D). Qed.
Print Assumptions C77_vertices_partial.

(** A winglet whose rear edge leans inwards slightly: the vertices c and d are exchanged, but a and b
    are not; the result is a quadrilateral whose edges cross. *)
Theorem C77_winglet_refuted : exists d ac files w' s', ex_read "s" d = Ok (ac, files) /\
  ad_wings ac = [("w", w')] /\ wd_segs w' = [("s", s')] /\
  (forall v, corners (winglet (Some "s")) v -> forall x, has_vertices s' x ->
     (py (qc x) == py (qd v) /\ pz (qc x) == pz (qd v) /\ py (qd x) == py (qc v) /\ pz (qd x) == pz (qc v))%Q /\
     (px (qa x) == px (qa v) /\ pz (qa x) == pz (qa v) /\ px (qb x) == px (qb v) /\ pz (qb x) == pz (qb v))%Q).
Proof.
  exists (document [wing "w" [winglet (Some "s")] [] []] []). do 4 eexists. split; [vm_compute; reflexivity|].
  split; [reflexivity|]. split; [reflexivity|]. intros v C x (a & b & c & e & V & A & B & C' & E).
  assert (U := corners_unique _ _ _ C (corners_raw (winglet (Some "s")))).
  cbn [sd_vertices] in V. injection V as <- <- <- <-. unfold at_point in *.
  injection A as A1 A2 A3. injection B as B1 B2 B3. injection C' as C1 C2 C3. injection E as E1 E2 E3.
  rewrite <- A1, <- A3, <- B1, <- B3, <- C2, <- C3, <- E2, <- E3.
  destruct (U qa) as (X1 & X2 & X3); [left; reflexivity|]. destruct (U qb) as (Y1 & Y2 & Y3); [right; left; reflexivity|].
  destruct (U qc) as (Z1 & Z2 & Z3); [right; right; left; reflexivity|]. destruct (U qd) as (W1 & W2 & W3); [right; right; right; left; reflexivity|].
  rewrite X1, X3, Y1, Y3, Z2, Z3, W2, W3. vm_compute. repeat split; reflexivity.
Qed.
Print Assumptions C77_winglet_refuted.

Example C77_example : exists ac files w' s', ex_read "s" (document [wing "w" [from_tip (Some "s")] [] []] []) = Ok (ac, files) /\
  wing_at (document [wing "w" [from_tip (Some "s")] [] []] []) ac 0 (wing "w" [from_tip (Some "s")] [] []) w' /\
  segment_at (wing "w" [from_tip (Some "s")] [] []) w' 0 (from_tip (Some "s")) s' /\
  exists raw, corners (from_tip (Some "s")) raw /\ same_sense raw.
Proof.
  do 4 eexists. split; [vm_compute; reflexivity|]. split; [eapply wing_at_intro; reflexivity|]. split; [eapply segment_at_intro; reflexivity|].
  exists (mkQuad (pt 0 5 0) (pt 0 0 0) (pt 1 0 0) (pt 1 5 0)). split; [vm_compute; repeat split; reflexivity|].
  split; [right; split; left; vm_compute; reflexivity|left; split; vm_compute; reflexivity].
Qed.

(** ** C78 *)

(** C78: the airfoils of the inner and outer section of a segment are its inner and outer airfoil.  For
    a segment that runs from root to tip, the root side a, d is the side of the inner section.
    Missing: segments that run from tip to root. *)
Theorem C78_airfoils_partial : forall none_ok int_ok root locate, directory root -> forall d ac files i w w' k s s',
  read_aircraft none_ok int_ok root locate d = Ok (ac, files) -> wing_at d ac i w w' -> segment_at w w' k s s' ->
  exists raw v, corners s raw /\ has_vertices s' v /\
    has_airfoil root d s' "inner" (cs_inner s) /\ has_airfoil root d s' "outer" (cs_outer s) /\
    (forward raw -> (qa v = qa raw /\ qd v = qd raw) \/ (qa v = qd raw /\ qd v = qa raw)) /\
    (backward raw -> (qa v = qb raw /\ qd v = qc raw) \/ (qa v = qc raw /\ qd v = qb raw)).
Proof. intros n i r l D. exact (airfoil_side_thm n i r l D). Qed.
Print Assumptions C78_airfoils_partial.

(** For a segment that runs from tip to root the sides are exchanged, the airfoils are not: the
    airfoil of the tip is the inner airfoil, at the root side. *)
Theorem C78_reversed_refuted : exists d ac files w w' s s' n, ex_read "s" d = Ok (ac, files) /\ wing_at d ac 0 w w' /\ segment_at w w' 0 s s' /\
  (exists raw v, corners s raw /\ has_vertices s' v /\ (py (qa v) == 0 /\ py (qd v) == 0 /\ py (qa raw) == 5 /\ py (qd raw) == 5)%Q) /\
  profile d (cs_inner s) n (cf_points (nth 0 (cd_foils d) (mkFoil None []))) /\ 
  dget (sd_airfoils s') "inner" = Some (PStr "/home/u/project/airfoils/blade.NACA0012") /\ n = "NACA 0012".
Proof.
  exists (document [wing "w" [from_tip (Some "s")] [] []] []). do 3 eexists. eexists. exists (from_tip (Some "s")). do 2 eexists.
  split; [vm_compute; reflexivity|]. split; [eapply wing_at_intro; reflexivity|]. split; [eapply segment_at_intro; reflexivity|].
  split; [|split; [eexists; split; [reflexivity|split; reflexivity]|split; reflexivity]].
  exists (raw_quad (from_tip (Some "s"))), (reorder (raw_quad (from_tip (Some "s")))).
  split; [apply corners_raw|]. split; [do 4 eexists; repeat split; reflexivity|]. vm_compute. repeat split; reflexivity.
Qed.
Print Assumptions C78_reversed_refuted.

Example C78_example : exists raw, corners (rect (Some "s")) raw /\ forward raw.
Proof.
  exists (mkQuad (pt 0 0 0) (pt 0 5 0) (pt 1 5 0) (pt 1 0 0)). split; [vm_compute; repeat split; reflexivity|].
  split; left; vm_compute; reflexivity.
Qed.

(** ** C79 *)

(** C79: the trailing edge devices of a wing become its controls, in their order, as flaps with the
    positions of the front edge and of the hinge of the device; provided there are no leading edge
    devices.  Missing: leading edge devices. *)
Theorem C79_controls_partial : forall none_ok int_ok root locate, directory root -> forall d ac files i w w',
  read_aircraft none_ok int_ok root locate d = Ok (ac, files) -> wing_at d ac i w w' ->
  (forall name u p, ~ leading_device w name u p) ->
  dkeys (wd_ctls w') = trailing_uids w /\ NoDup (trailing_uids w) /\
  forall name u p, trailing_device w name u p -> exists c, dget (wd_ctls w') u = Some c /\ flap_at locate name u p c.
Proof. intros n i r l D. exact (controls_thm n i r l). Qed.
Print Assumptions C79_controls_partial.

(** With leading edge devices: if the trailing edge devices are complete, no slat is ever read. *)
Theorem C79_no_slats : forall none_ok int_ok root locate d ac files i w w',
  read_aircraft none_ok int_ok root locate d = Ok (ac, files) -> wing_at d ac i w w' ->
  (forall c t, In c (cw_comps w) -> In t (cc_trailing c) -> dv_pos t <> None) ->
  dkeys (wd_ctls w') = trailing_uids w /\ forall u c, dget (wd_ctls w') u = Some c -> cd_device c = Some "flap".
Proof. exact no_slats_thm. Qed.
Print Assumptions C79_no_slats.

(** A wing with a slat only is read without any control; a slat beside a flap is an exception. *)
Theorem C79_slat_refuted : exists w1 w2 p,
  leading_device w1 "w_comp" (Some "slat") p /\ leading_device w2 "w_comp" (Some "slat") p /\ trailing_device w2 "w_comp" "flap" p /\
  (exists ac files w', ex_read "s" (document [w1] []) = Ok (ac, files) /\ ad_wings ac = [("w", w')] /\ wd_ctls w' = []) /\
  ex_read "s" (document [w2] []) = Err UnboundLocalError.
Proof.
  exists (wing "w" [rect (Some "s")] [device "slat"] []), (wing "w" [rect (Some "s")] [device "slat"] [device "flap"]). eexists.
  split; [do 2 eexists; repeat split; try (left; reflexivity); reflexivity|].
  split; [do 2 eexists; repeat split; try (left; reflexivity); reflexivity|].
  split; [do 2 eexists; repeat split; try (left; reflexivity); reflexivity|].
  split; [do 3 eexists; split; [vm_compute; reflexivity|]; split; reflexivity|vm_compute; reflexivity].
Qed.
Print Assumptions C79_slat_refuted.

Example C79_example : exists ac files w', 
  let w := wing "w" [rect (Some "s")] [] [device "flap"; device "aileron"] in
  ex_read "s" (document [w] []) = Ok (ac, files) /\ wing_at (document [w] []) ac 0 w w' /\ (forall name u p, ~ leading_device w name u p) /\
  (forall c t, In c (cw_comps w) -> In t (cc_trailing c) -> dv_pos t <> None) /\ dkeys (wd_ctls w') = ["flap"; "aileron"].
Proof.
  do 3 eexists. cbv zeta. split; [vm_compute; reflexivity|]. split; [eapply wing_at_intro; reflexivity|].
  split; [intros name u p (c & t & [<-|[]] & [] & _)|]. split; [|reflexivity].
  intros c t [<-|[]] [<-|[<-|[]]]; discriminate.
Qed.

(** ** C80 *)

(** C80: after reading, all control devices of the list belong to the first wing and have the
    deflections of the list (the last entry for a uid counts); all other controls have the
    deflection zero.  Without mirrored deflection, the deflection is used for both sides if the wing
    has a symmetry.  Missing: devices of other wings, see below. *)
Theorem C80_deflections_partial : forall none_ok int_ok root locate, directory root -> forall d ac files,
  read_aircraft none_ok int_ok root locate d = Ok (ac, files) ->
  forall k w r, ad_wings ac = (k, w) :: r ->
  (forall t, In t (cd_tools d) -> exists u c, ct_uid t = Some u /\ dget (wd_ctls w) u = Some c) /\
  (forall u c, dget (wd_ctls w) u = Some c ->
     deflected (entry (cd_tools d) u) (negb (match wd_symmetry w with PInt 0 => true | _ => false end)) c) /\
  (forall k' w' u c, In (k', w') r -> dget (wd_ctls w') u = Some c ->
     deflected None (negb (match wd_symmetry w' with PInt 0 => true | _ => false end)) c).
Proof. intros n i r l D. exact (deflections_spec n i r l). Qed.
Print Assumptions C80_deflections_partial.

(** The deflection of a control of the second wing cannot be given: reading the first wing ends with
    an exception.  Without the deflection the same document is read. *)
Theorem C80_second_wing_refuted : exists w1 w2 p, trailing_device w2 "tail_comp" "elevator" p /\
  ex_read "s" (document [w1; w2] [tool "elevator" 5]) = Err ComponentDefinitionError /\
  exists ac files w1' w2' c, ex_read "s" (document [w1; w2] []) = Ok (ac, files) /\
    ad_wings ac = [("main", w1'); ("tail", w2')] /\ wd_ctls w2' = [("elevator", c)].
Proof.
  exists (wing "main" [rect (Some "s")] [] []), (wing "tail" [rect (Some "s")] [] [device "elevator"]). eexists.
  split; [do 2 eexists; repeat split; try (left; reflexivity); reflexivity|]. split; [vm_compute; reflexivity|].
  do 5 eexists. split; [vm_compute; reflexivity|]. split; reflexivity.
Qed.
Print Assumptions C80_second_wing_refuted.

Example C80_example : exists ac files w c, 
  ex_read "s" (document [wing "w" [rect (Some "s")] [] [device "flap"; device "aileron"]] [tool "flap" 5; tool "flap" 7]) = Ok (ac, files) /\
  ad_wings ac = [("w", w)] /\ dget (wd_ctls w) "flap" = Some c /\ cd_deflection c = PFlt (Some 7%Q) /\ cd_mirror c = PFlt (Some 7%Q).
Proof. do 4 eexists. split; [vm_compute; reflexivity|]. repeat split; reflexivity. Qed.

(** ** C81 *)

(** C81: for each airfoil of the document one file is written, with its name and points; and there are
    no other files; the files of a segment hold the points of the profiles at its inner and outer
    section.  Provided no two airfoils have the same name apart from characters that are removed. *)
Theorem C81_files : forall none_ok int_ok root locate, directory root -> forall d ac files,
  read_aircraft none_ok int_ok root locate d = Ok (ac, files) -> airfoils_distinct d ->
  (forall i f, nth_error (cd_foils d) i = Some f -> exists name path, foil_file f i name /\ blade root name path /\
     dget files path = Some (name, cf_points f)) /\
  (forall path e, dget files path = Some e -> exists i f name, nth_error (cd_foils d) i = Some f /\ foil_file f i name /\ blade root name path /\
     e = (name, cf_points f)).
Proof. intros n i r l D. exact (files_thm n i r l D). Qed.
Print Assumptions C81_files.

Theorem C81_segment : forall none_ok int_ok root locate, directory root -> forall d ac files i w w' k s s',
  read_aircraft none_ok int_ok root locate d = Ok (ac, files) -> wing_at d ac i w w' -> segment_at w w' k s s' ->
  airfoils_distinct d -> forall pos idx, In (pos, idx) [("inner", cs_inner s); ("outer", cs_outer s)] ->
  exists path f name, dget (sd_airfoils s') pos = Some (PStr path) /\ nth_error (cd_foils d) idx = Some f /\ dget files path = Some (name, cf_points f).
Proof. intros n i r l D. exact (segment_file_thm n i r l D). Qed.
Print Assumptions C81_segment.

(** Without the proviso: the names "a b" and "ab" share a file; the first airfoil is lost. *)
Definition clash : cdoc :=
  mkDoc None (Some [wing "w" [rect (Some "s")] [] []]) []
    [mkFoil (Some "a b") [(1, 0)]%Q; mkFoil (Some "ab") [(2, 0)]%Q] (mkRefs (Some 1%Q) (Some 0%Q) (Some 0%Q) (Some 10%Q) (Some 2%Q)).
Theorem C81_clash_refuted : exists d ac files w' s' path, ex_read "s" d = Ok (ac, files) /\ ad_wings ac = [("w", w')] /\ wd_segs w' = [("s", s')] /\
  dget (sd_airfoils s') "inner" = Some (PStr path) /\ nth_error (cd_foils d) 0 = Some (mkFoil (Some "a b") [(1, 0)]%Q) /\
  cs_inner (rect (Some "s")) = 0 /\ dget files path = Some ("ab", [(2, 0)]%Q).
Proof. exists clash. do 5 eexists. split; [vm_compute; reflexivity|]. repeat split; reflexivity. Qed.
Print Assumptions C81_clash_refuted.

Example C81_example : exists ac files, ex_read "s" (document [wing "w" [rect (Some "s")] [] []] []) = Ok (ac, files) /\
  airfoils_distinct (document [wing "w" [rect (Some "s")] [] []] []) /\
  dget files "/home/u/project/airfoils/blade.NACA0012" = Some ("NACA0012", [(1, 0); (0, 0)]%Q).
Proof.
  do 2 eexists. split; [vm_compute; reflexivity|]. split; [|reflexivity].
  assert (N : forall i f, nth_error foils i = Some f -> i = 0 /\ f = mkFoil (Some "NACA 0012") [(1, 0); (0, 0)]%Q \/ i = 1 /\ f = mkFoil (Some "tip") [(1, 0); (5#10, 1#10)]%Q).
  { intros [|[|[|i]]] f E; cbn in E; try discriminate; injection E as <-; auto. }
  intros i j f g n I J F G. cbn [cd_foils document] in I, J. unfold foil_file, component_name in *.
  destruct (N _ _ I) as [[-> ->]|[-> ->]], (N _ _ J) as [[-> ->]|[-> ->]]; try reflexivity; cbn [cf_name] in *;
    apply stripped_iff in F; apply stripped_iff in G; subst n; discriminate.
Qed.

(** ** C82 *)

(** C82: the aircraft has the wings and segments of the document, in the same order, with the names
    of the document without special characters (or a numbered name if there is none), different from
    each other; with the symmetry of the wings; with the reference point (as centre of gravity and
    of rotation), area, and length (as span and chord) of the document. *)
Theorem C82_structure : forall none_ok int_ok root locate, directory root -> forall d ac files,
  read_aircraft none_ok int_ok root locate d = Ok (ac, files) ->
  exists l, cd_wings d = Some l /\ List.length (ad_wings ac) = List.length l /\ NoDup (dkeys (ad_wings ac)) /\
  match cd_model d with None => ad_uid ac = "NAME_NOT_FOUND" | Some None => False | Some (Some u) => stripped u (ad_uid ac) end /\
  (forall i w, nth_error l i = Some w -> exists w' sl, wing_at d ac i w w' /\
     component_name (cw_uid w) "WING" (S i) (wd_uid w') /\ wd_symmetry w' = PInt (cw_symmetry w) /\ In (cw_symmetry w) [0; 1; 2; 3]%Z /\
     cw_segments w = Some sl /\ List.length (wd_segs w') = List.length sl /\ NoDup (dkeys (wd_segs w')) /\
     forall k s, nth_error sl k = Some s -> exists s', segment_at w w' k s s' /\
       component_name (cs_uid s) (wd_uid w' ++ "_SEGMENT") (S k) (sd_uid s') /\
       has_airfoil root d s' "inner" (cs_inner s) /\ has_airfoil root d s' "outer" (cs_outer s)) /\
  exists x y z area len p, cr_x (cd_refs d) = Some x /\ cr_y (cd_refs d) = Some y /\ cr_z (cd_refs d) = Some z /\
    cr_area (cd_refs d) = Some area /\ cr_length (cd_refs d) = Some len /\ at_point p (mkPt x y z) /\
    dget (ad_refs ac) "gcenter" = Some p /\ dget (ad_refs ac) "rcenter" = Some p /\
    dget (ad_refs ac) "area" = Some (PFlt (Some area)) /\ dget (ad_refs ac) "span" = Some (PFlt (Some len)) /\
    dget (ad_refs ac) "chord" = Some (PFlt (Some len)).
Proof. intros n i r l D. exact (structure_thm n i r l D). Qed.
Print Assumptions C82_structure.

Example C82_example : exists ac files, 
  ex_read "s" (document [wing "main wing" [rect (Some "in"); rect None] [] []; mkWing None 0 (Some [rect (Some "x")]) []] []) = Ok (ac, files) /\
  ad_uid ac = "MyAircraft" /\ dkeys (ad_wings ac) = ["mainwing"; "WING02"] /\
  exists w, dget (ad_wings ac) "mainwing" = Some w /\ dkeys (wd_segs w) = ["in"; "mainwing_SEGMENT02"].
Proof. do 2 eexists. split; [vm_compute; reflexivity|]. split; [reflexivity|]. split; [reflexivity|]. eexists. split; reflexivity. Qed.

(** ** C83 *)

(** C83: an aircraft read from a CPACS document can be saved as a native aircraft file, which is read as the
    same aircraft, exactly if the angles computed from the vertices are in the ranges accepted for
    angles given in a file. *)
Theorem C83_convert : forall none_ok int_ok root locate, directory root -> forall parse_float derive import_airfoils finish_wing d ac,
  load_cpacs none_ok int_ok root locate parse_float derive import_airfoils finish_wing d = Ok ac ->
  ((exists j, save ac = Ok j /\ load none_ok int_ok root parse_float derive import_airfoils finish_wing j = Ok ac) <-> each_segment angles_kept ac).
Proof. intros n i r l D p de im fi. exact (convert_thm n i r l D p de im fi). Qed.
Print Assumptions C83_convert.

Definition ex_load_cpacs : cdoc -> res acdef :=
  load_cpacs true true "/home/u/project" (ex_locate "s") (fun _ => Err ValueError) (fun _ _ _ => Ok (fun _ => Some 0%Q)) (fun _ _ => Ok tt) (fun _ => Ok tt).
Example C83_example : exists ac, ex_load_cpacs (document [wing "w" [rect (Some "s")] [] [device "flap"]] [tool "flap" 5]) = Ok ac /\
  each_segment angles_kept ac.
Proof.
  eexists. split; [vm_compute; reflexivity|]. intros ku w ks s [E|[]] I. injection E as <- <-. cbn [wd_segs] in I. destruct I as [I|[]]. injection I as <- <-.
  split.
  - repeat (apply Forall_cons; [exists 0%Q; split; [reflexivity|split; vm_compute; discriminate]|]). constructor.
  - exists 0%Q. split; [reflexivity|]. split; vm_compute; discriminate.
Qed.

(** ** C84 *)

(** C84: a control refers to segments of its wing by their uid in the document; the aircraft has these
    segments, provided the uid has no special characters.  [locate] finds segments of the wing of the
    component segment.  Missing: uids with special characters. *)
Theorem C84_segments_partial : forall none_ok int_ok root locate, directory root -> forall d ac files i w w',
  read_aircraft none_ok int_ok root locate d = Ok (ac, files) -> wing_at d ac i w w' ->
  (forall name e x u a b, locate name e x = Ok (u, a, b) -> (exists c, In c (cw_comps w) /\ cc_uid c = name) ->
     exists sl s, cw_segments w = Some sl /\ In s sl /\ cs_uid s = Some u) ->
  (forall name u p, ~ leading_device w name u p) ->
  forall u c pos, dget (wd_ctls w') u = Some c -> In pos ["inner"; "outer"] ->
  exists su sl s, dget (cd_segment c) pos = Some (PStr su) /\ cw_segments w = Some sl /\ In s sl /\ cs_uid s = Some su /\
    (plain su -> exists s', dget (wd_segs w') su = Some s' /\ sd_uid s' = su).
Proof. intros n i r l D. exact (control_segments_thm n i r l). Qed.
Print Assumptions C84_segments_partial.

(** The uid of a segment is read without its space; the control still refers to it with the space. *)
Theorem C84_special_refuted : exists d ac files w w' c, ex_read "seg 1" d = Ok (ac, files) /\ wing_at d ac 0 w w' /\
  (exists sl s, cw_segments w = Some sl /\ In s sl /\ cs_uid s = Some "seg 1") /\
  dget (wd_ctls w') "flap" = Some c /\ dget (cd_segment c) "inner" = Some (PStr "seg 1") /\ dkeys (wd_segs w') = ["seg1"].
Proof.
  exists (document [wing "w" [rect (Some "seg 1")] [] [device "flap"]] []). do 5 eexists. split; [vm_compute; reflexivity|].
  split; [eapply wing_at_intro; reflexivity|]. split; [do 2 eexists; split; [reflexivity|]; split; [left; reflexivity|reflexivity]|].
  repeat split; reflexivity.
Qed.
Print Assumptions C84_special_refuted.

Example C84_example : let w := wing "w" [rect (Some "s")] [] [device "flap"] in exists ac files w' c,
  ex_read "s" (document [w] []) = Ok (ac, files) /\ wing_at (document [w] []) ac 0 w w' /\
  (forall name e x u a b, ex_locate "s" name e x = Ok (u, a, b) -> (exists c, In c (cw_comps w) /\ cc_uid c = name) ->
     exists sl s, cw_segments w = Some sl /\ In s sl /\ cs_uid s = Some u) /\
  (forall name u p, ~ leading_device w name u p) /\ dget (wd_ctls w') "flap" = Some c /\ plain "s".
Proof.
  do 4 eexists. split; [vm_compute; reflexivity|]. split; [eapply wing_at_intro; reflexivity|].
  split; [intros n e x u a b L _; injection L as <- _ _; do 2 eexists; split; [reflexivity|]; split; [left; reflexivity|reflexivity]|].
  split; [intros name u p (c & t & [<-|[]] & [] & _)|]. split; [reflexivity|]. apply plain_parse. reflexivity.
Qed.
