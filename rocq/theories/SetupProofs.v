(** Proofs about the generation of a project. *)
From Coq Require Import List String Ascii ZArith QArith Bool Lia.
From Verif Require Import PyBase PyVal PyFacts StrFacts AircraftIOModel AircraftIOSpec AircraftIOProofs CliModel CliProofs SetupModel SetupSpec.
From Verif Require SettingsModel StateModel.
Import ListNotations.
Open Scope string_scope.

Lemma put_same fs p n : put fs p n p = Some n.
Proof. unfold put, path_eqb. destruct (list_eq_dec string_dec p p); congruence. Qed.
Lemma put_other fs p n q : q <> p -> put fs p n q = fs q.
Proof. unfold put, path_eqb. destruct (list_eq_dec string_dec q p); congruence. Qed.

(** Names. *)
Lemma stem_json c r : c <> "."%char -> stem_of_name (String c r ++ ".json") = String c r.
Proof.
  intro N. assert (J : forall s, has_dot (s ++ ".json") = true) by (induction s as [|x s IH]; cbn; [reflexivity|rewrite IH; apply orb_true_r]).
  assert (B : forall s, before_dot (s ++ ".json") = s).
  { induction s as [|x s IH]; [reflexivity|]. cbn [append before_dot]. rewrite J, andb_false_r, IH. reflexivity. }
  assert (E : forall s, ends_dot (s ++ ".json") = false).
  { induction s as [|x s IH]; [reflexivity|]. cbn [append ends_dot]. rewrite IH. destruct (s ++ ".json") eqn:Q; [destruct s; discriminate|reflexivity]. }
  unfold stem_of_name. rewrite J, E, B. reflexivity.
Qed.
Lemma splitext_json c r : c <> "."%char -> splitext (String c r ++ ".json") = String c r.
Proof.
  intro N. assert (J : forall s, has_dot (s ++ ".json") = true) by (induction s as [|x s IH]; cbn; [reflexivity|rewrite IH; apply orb_true_r]).
  assert (B : forall s, before_dot (s ++ ".json") = s).
  { induction s as [|x s IH]; [reflexivity|]. cbn [append before_dot]. rewrite J, andb_false_r, IH. reflexivity. }
  cbn [append splitext]. replace (is_dot c) with false by (unfold is_dot; symmetry; apply Ascii.eqb_neq; exact N).
  change (String c (r ++ ".json")) with (String c r ++ ".json"). rewrite J, B. reflexivity.
Qed.
Lemma named_name p name : named_json p name -> name_of p = name ++ ".json" /\ stem_of_name (name_of p) = name /\ splitext (name_of p) = name.
Proof.
  intros ((c & r & -> & N) & d & ->). unfold name_of. rewrite last_last. split; [reflexivity|]. split; [apply stem_json|apply splitext_json]; exact N.
Qed.

(** Everything happens below the directory. *)
Lemma put_within dir fs p n q : ~ within dir q -> put fs (dir ++ p)%list n q = fs q.
Proof. intro W. apply put_other. intros ->. apply W. exists p. reflexivity. Qed.
Lemma dirs_within dir b fs q : ~ within dir q -> make_dirs dir b fs q = fs q.
Proof.
  intro W. unfold make_dirs. generalize (project_dirs b) as l. intro l. revert fs. induction l as [|p l IH]; intro fs; [reflexivity|]. cbn [fold_left].
  rewrite IH. apply put_within, W.
Qed.
Lemma save_within fs dir b s a t ac q : ~ within dir q -> fst (save_all fs dir b s a t ac) q = fs q.
Proof.
  intro W. unfold save_all. destruct (snd (SettingsModel.save _)); [|reflexivity]. destruct (AircraftIOModel.save ac); cbn [fst]; rewrite !put_within by exact W; reflexivity.
Qed.

Definition template_parsed : acdef :=
  match parse true true "" (match AircraftIOModel.save template_aircraft with Ok j => j | Err _ => PNone end) with Ok a => a | Err _ => template_aircraft end.
Definition template_vertices := match check_vertices true (sd_vertices template_segment) with Ok v => v | Err _ => [] end.
Definition template_geometry := match check_geometry true true (sd_geometry template_segment) with Ok v => v | Err _ => [] end.
(** The template can be loaded if the calculations on its geometry succeed. *)
Lemma template_loads int_ok root parse_float derive import_airfoils finish_wing :
  (forall vs ai ao, exists f, derive vs ai ao = Ok f) -> (forall i o, import_airfoils i o = Ok tt) -> (forall l, finish_wing l = Ok tt) ->
  exists a, AircraftIOModel.load true int_ok root parse_float derive import_airfoils finish_wing
    (match AircraftIOModel.save template_aircraft with Ok j => j | Err _ => PNone end) = Ok a.
Proof.
  intros HD HI HF. set (doc := match _ with Ok j => j | Err _ => PNone end). unfold AircraftIOModel.load.
  assert (P : exists a, parse true int_ok root doc = Ok a /\ a = template_parsed).
  { eexists. split; [destruct int_ok; vm_compute; reflexivity|reflexivity]. }
  destruct P as (a & -> & ->). cbn [bind]. unfold generate.
  assert (R : exists r, generate_refs true int_ok parse_float (ad_refs template_parsed) = Ok r) by (eexists; destruct int_ok; vm_compute; reflexivity).
  destruct R as [r ->]. cbn [bind]. 
  assert (G : exists s, generate_segment true int_ok derive import_airfoils template_segment = Ok s).
  { unfold generate_segment.
    assert (V : exists vs, check_vertices true (sd_vertices template_segment) = Ok vs /\ vs = template_vertices) by (eexists; split; [vm_compute; reflexivity|reflexivity]).
    destruct V as (vs & -> & ->). cbn [bind].
    assert (V : exists g, check_geometry true int_ok (sd_geometry template_segment) = Ok g /\ g = template_geometry) by (eexists; split; [destruct int_ok; vm_compute; reflexivity|reflexivity]).
    destruct V as (g & -> & ->). cbn [bind].
    replace (SchemaModel.validate true ["inner"; "outer"] airfoil_schema (sd_airfoils template_segment)) with (Ok tt : res unit) by (vm_compute; reflexivity).
    cbn [bind]. replace (SchemaModel.validate true [] seg_panel_schema (sd_panels template_segment)) with (Ok tt : res unit) by (vm_compute; reflexivity).
    cbn [bind]. change (existsb _ template_vertices) with false. cbv iota.
    change (getitem (PDict template_vertices) "a") with (Ok (PList [PFlt (Some 0%Q); PFlt (Some 0%Q); PFlt (Some 0%Q)])).
    change (getitem (PDict template_vertices) "b") with (Ok (PList [PFlt (Some 0%Q); PFlt (Some (inject_Z 5)); PFlt (Some 0%Q)])).
    change (getitem (PDict template_vertices) "c") with (Ok (PList [PFlt (Some (inject_Z 2)); PFlt (Some (inject_Z 5)); PFlt (Some 0%Q)])).
    change (getitem (PDict template_vertices) "d") with (Ok (PList [PFlt (Some (inject_Z 2)); PFlt (Some 0%Q); PFlt (Some 0%Q)])).
    cbn [bind existsb is_missing orb].
    change (getitem (PDict template_geometry) "inner_axis") with (Ok (PFlt (Some (1 # 4)))).
    change (getitem (PDict template_geometry) "outer_axis") with (Ok (PFlt (Some (1 # 4)))). cbn [bind].
    match goal with |- context[derive ?x ?y ?z] => destruct (HD x y z) as [f ->] end. cbn [bind].
    change (getitem (PDict (sd_airfoils template_segment)) "inner") with (Ok (PStr "NACA0000")).
    change (getitem (PDict (sd_airfoils template_segment)) "outer") with (Ok (PStr "NACA0000")). cbn [bind]. rewrite HI. eexists. reflexivity. }
  assert (WS : exists cs, ad_wings template_parsed = [("template_wing", mkWD "template_wing" (PInt 2) [("template_segment", template_segment)] cs)])
    by (eexists; vm_compute; reflexivity).
  destruct WS as [cs ->].
  destruct G as [sg G]. cbn [generate_list]. unfold generate_wing. cbn [wd_segs wd_uid wd_symmetry wd_ctls generate_list]. rewrite G. cbn [bind].
  rewrite HF. cbn [bind]. eexists. reflexivity.
Qed.

Section S.
Variable load_aircraft : pyval -> res acdef.

Lemma outside fs cwd arg q : ~ within (cwd ++ [TEMPLATE_ROOT])%list q -> fst (setup_wkdir load_aircraft fs cwd arg) q = fs q.
Proof.
  intro W. unfold setup_wkdir. destruct (fs (cwd ++ [TEMPLATE_ROOT])%list); [reflexivity|].
  assert (D : forall n, put fs (cwd ++ [TEMPLATE_ROOT])%list n q = fs q).
  { intro n. apply put_other. intros ->. apply W. exists []. rewrite app_nil_r. reflexivity. }
  destruct arg as [p|]; [|rewrite save_within, dirs_within by exact W; apply D].
  destruct (make_dirs _ _ _ p) as [[|c]|]; [cbn [fst]; rewrite dirs_within by exact W; apply D| |cbn [fst]; rewrite dirs_within by exact W; apply D].
  destruct (read_aircraft _ _ _); [rewrite save_within by exact W|cbn [fst]]; rewrite put_within, dirs_within by exact W; apply D.
Qed.
Lemma refuses fs cwd arg : fs (cwd ++ [TEMPLATE_ROOT])%list <> None -> setup_wkdir load_aircraft fs cwd arg = (fs, Err SystemExit).
Proof. intro H. unfold setup_wkdir. destruct (fs (cwd ++ [TEMPLATE_ROOT])%list) eqn:F; [reflexivity|contradiction H; reflexivity]. Qed.
Lemma occupied fs cwd arg fs' r : setup_wkdir load_aircraft fs cwd arg = (fs', r) -> fs' (cwd ++ [TEMPLATE_ROOT])%list <> None.
Proof.
  assert (P : forall f p n, f (cwd ++ [TEMPLATE_ROOT])%list <> None -> put f p n (cwd ++ [TEMPLATE_ROOT])%list <> None).
  { intros f p n H. unfold put. destruct (path_eqb _ p); [discriminate|exact H]. }
  assert (M : forall b f, f (cwd ++ [TEMPLATE_ROOT])%list <> None -> make_dirs (cwd ++ [TEMPLATE_ROOT])%list b f (cwd ++ [TEMPLATE_ROOT])%list <> None).
  { intros b f. unfold make_dirs. generalize (project_dirs b) as l. intro l. revert f. induction l as [|x l IH]; intros f H; [exact H|]. cbn [fold_left]. apply IH, P, H. }
  assert (S : forall f b s a t ac, f (cwd ++ [TEMPLATE_ROOT])%list <> None -> fst (save_all f (cwd ++ [TEMPLATE_ROOT])%list b s a t ac) (cwd ++ [TEMPLATE_ROOT])%list <> None).
  { intros f b s a t ac H. unfold save_all. destruct (snd (SettingsModel.save _)); [|exact H]. destruct (AircraftIOModel.save ac); cbn [fst]; auto. }
  intro E. replace fs' with (fst (setup_wkdir load_aircraft fs cwd arg)) by (rewrite E; reflexivity). clear E. unfold setup_wkdir.
  destruct (fs (cwd ++ [TEMPLATE_ROOT])%list) eqn:F; [cbn [fst]; congruence|].
  assert (D : put fs (cwd ++ [TEMPLATE_ROOT])%list NDir (cwd ++ [TEMPLATE_ROOT])%list <> None) by (rewrite put_same; discriminate).
  destruct arg as [p|]; [|apply S, M, D].
  destruct (make_dirs _ _ _ p) as [[|c]|]; [apply M, D| |apply M, D].
  destruct (read_aircraft _ _ _); [apply S, P, M, D|cbn [fst]; apply P, M, D].
Qed.

(** The finished tree.  All paths are [dir ++ q]; it is enough to look at [q]. *)
Lemma app_inj_l (d p q : path) : (d ++ p)%list = (d ++ q)%list -> p = q.
Proof. apply app_inv_head. Qed.
Lemma put_below dir fs p n q : put fs (dir ++ p)%list n (dir ++ q)%list = if path_eqb q p then Some n else fs (dir ++ q)%list.
Proof.
  unfold put, path_eqb. destruct (list_eq_dec string_dec q p) as [->|N].
  - destruct (list_eq_dec string_dec _ _); congruence.
  - destruct (list_eq_dec string_dec _ _) as [H|_]; [apply app_inj_l in H; contradiction|reflexivity].
Qed.

Definition settings_value (name aircraft : string) : pyval :=
  PDict (fst (SettingsModel.save (template_settings (aircraft ++ ".json") (name ++ ".json")))).
Lemma settings_saved a b : SettingsModel.save (template_settings a b) = (fst (SettingsModel.save (template_settings a b)), Ok (PDict (fst (SettingsModel.save (template_settings a b))))).
Proof. reflexivity. Qed.
Lemma settings_read name aircraft : settings_for name aircraft (settings_value name aircraft).
Proof.
  unfold settings_for, settings_value. eexists. eexists. split; [reflexivity|]. split; [reflexivity|].
  do 5 (split; [reflexivity|]). split; [intros k [<-|[<-|[<-|[<-|[]]]]]; reflexivity|].
  do 3 (split; [repeat (eexists; split; [eexists; split; [reflexivity|reflexivity]|]); reflexivity|]).
  intros k f [<-|[<-|[<-|[]]]] [<-|[<-|[]]]; repeat (eexists; split; [eexists; split; [reflexivity|reflexivity]|]); reflexivity.
Qed.
Lemma state_read : one_state (StateModel.save template_state).
Proof. intros parse atmosphere. eexists. eexists. split; [reflexivity|]. split; [reflexivity|]. reflexivity. Qed.

Lemma name_json_neq a : a ++ ".json" <> a.
Proof. intro H. apply (f_equal String.length) in H. rewrite length_app_s in H. cbn in H. lia. Qed.

Lemma path_eqb_eq p q : path_eqb p q = true <-> p = q.
Proof. unfold path_eqb. destruct (list_eq_dec string_dec p q); split; congruence. Qed.
Lemma path_eqb_refl p : path_eqb p p = true.
Proof. apply path_eqb_eq. reflexivity. Qed.
Lemma path_eqb_neq p q : p <> q -> path_eqb p q = false.
Proof. unfold path_eqb. destruct (list_eq_dec string_dec p q); congruence. Qed.

(** The same as a list of single changes. *)
Definition entries (name aircraft : string) (sv : pyval) (sd : dict StateModel.entry) (m : pyval) : list (path * node) :=
  (([], NDir) :: map (fun p => (p, NDir)) (project_dirs name) ++
  [(["settings"; (name ++ ".json")%string], NFile (CJson sv)); (["state"; (name ++ ".json")%string], NFile (CState sd));
   (["aircraft"; (aircraft ++ ".json")%string], NFile (CJson m))])%list.
Lemma entries_project name aircraft sv sd m p n : In (p, n) (entries name aircraft sv sd m) <-> project name aircraft sv sd m p n.
Proof.
  split.
  - unfold entries, project_dirs. cbn [map app In]. intro H. repeat (destruct H as [H|H]; [injection H as <- <-|]); try contradiction.
    all: first [apply p_root | apply p_settings | apply p_state | apply p_aircraft | apply p_input; cbn; tauto | apply p_output; cbn; tauto | apply p_first; cbn; tauto].
  - unfold entries, project_dirs. cbn [map app In]. intros [| d [<-|[<-|[<-|[<-|[<-|[]]]]]] | d [<-|[<-|[]]] | d [<-|[<-|[]]] | | |]; cbn; tauto.
Qed.
Definition puts (dir : path) (l : list (path * node)) (fs : fsys) : fsys := fold_left (fun f pn => put f (dir ++ fst pn)%list (snd pn)) l fs.
Lemma puts_out dir l fs q : (forall p n, In (p, n) l -> q <> (dir ++ p)%list) -> puts dir l fs q = fs q.
Proof.
  revert fs. induction l as [|[p n] l IH]; intros fs H; [reflexivity|]. unfold puts in *. cbn [fold_left fst snd]. rewrite IH.
  - apply put_other. apply (H p n). left; reflexivity.
  - intros p' n' I. apply (H p' n'). right; exact I.
Qed.
Lemma puts_in dir l fs p n : NoDup (map fst l) -> In (p, n) l -> puts dir l fs (dir ++ p)%list = Some n.
Proof.
  revert fs. induction l as [|[p' n'] l IH]; intros fs N I; [contradiction|]. cbn in N. inversion N as [|? ? N1 N2]; subst.
  destruct I as [[= -> ->]|I].
  - unfold puts. cbn [fold_left fst snd]. fold (puts dir l (put fs (dir ++ p)%list n)). rewrite puts_out; [apply put_same|].
    intros p2 n2 I2 E. apply app_inj_l in E. subst p2. apply N1. apply in_map_iff. exists (p, n2). auto.
  - unfold puts. cbn [fold_left fst snd]. apply IH; auto.
Qed.
Lemma entries_nodup name aircraft sv sd m : NoDup (map fst (entries name aircraft sv sd m)).
Proof.
  unfold entries, project_dirs. cbn [map app fst].
  repeat (apply NoDup_cons; [cbn [In]; let H := fresh in intro H; repeat (destruct H as [H|H]; [discriminate H|]); contradiction|]). apply NoDup_nil.
Qed.
Lemma added dir name aircraft sv sd m fs : project_added fs (puts dir (entries name aircraft sv sd m) fs) dir name aircraft sv sd m.
Proof.
  split.
  - intros p n P. apply puts_in; [apply entries_nodup|]. apply entries_project, P.
  - intros p H. apply puts_out. intros q n I. apply (H q n). apply entries_project, I.
Qed.
Lemma added_ext fs f g dir name aircraft sv sd m : (forall q, f q = g q) -> project_added fs g dir name aircraft sv sd m -> project_added fs f dir name aircraft sv sd m.
Proof. intros E [A B]. split; intros; rewrite E; auto. Qed.

(** The template. *)
Definition model_value (a : acdef) : pyval := match AircraftIOModel.save a with Ok j => j | Err _ => PNone end.
Lemma template_ok fs cwd : fs (cwd ++ [TEMPLATE_ROOT])%list = None ->
  exists fs', setup_wkdir load_aircraft fs cwd None = (fs', Ok tt) /\
  project_added fs fs' (cwd ++ [TEMPLATE_ROOT])%list "template" "template_aircraft" (settings_value "template" "template_aircraft")
    (StateModel.save template_state) (model_value template_aircraft).
Proof.
  intro F. unfold setup_wkdir. rewrite F. eexists. split; [reflexivity|].
  eapply added_ext; [|apply added]. intro q. unfold puts, entries, project_dirs. cbn [fold_left map app fst snd]. rewrite app_nil_r. reflexivity.
Qed.

(** A given file. *)
Lemma put_twice fs p n n' q : put (put fs p n) p n' q = put fs p n' q.
Proof. unfold put. destruct (path_eqb q p); reflexivity. Qed.
Lemma put_comm fs p n p' n' q : p <> p' -> put (put fs p n) p' n' q = put (put fs p' n') p n q.
Proof. intro N. unfold put. destruct (path_eqb q p') eqn:E, (path_eqb q p) eqn:E'; try reflexivity. apply path_eqb_eq in E, E'. congruence. Qed.
Lemma put_ext f g p n : (forall q, f q = g q) -> forall q, put f p n q = put g p n q.
Proof. intros E q. unfold put. rewrite E. reflexivity. Qed.

Lemma given_ok fs cwd p name : fs (cwd ++ [TEMPLATE_ROOT])%list = None -> named_json p name -> ~ within (cwd ++ [TEMPLATE_ROOT])%list p ->
  forall fs' r, setup_wkdir load_aircraft fs cwd (Some p) = (fs', r) ->
  (r = Ok tt <-> exists doc a j, fs p = Some (NFile (CJson doc)) /\ load_aircraft doc = Ok a /\ AircraftIOModel.save a = Ok j) /\
  (forall doc a j, fs p = Some (NFile (CJson doc)) -> load_aircraft doc = Ok a -> AircraftIOModel.save a = Ok j ->
     project_added fs fs' (cwd ++ [TEMPLATE_ROOT])%list name name (settings_value name name) (StateModel.save template_state) j).
Proof.
  intros F NJ W fs' r. unfold setup_wkdir. rewrite F. destruct (named_name p name NJ) as (E1 & E2 & E3). rewrite E2, E3, E1.
  assert (FP : make_dirs (cwd ++ [TEMPLATE_ROOT])%list name (put fs (cwd ++ [TEMPLATE_ROOT])%list NDir) p = fs p).
  { rewrite dirs_within by exact W. apply put_other. intros ->. apply W. exists []. rewrite app_nil_r. reflexivity. }
  rewrite FP. destruct (fs p) as [[|c]|] eqn:FS.
  1, 3: intros [= <- <-]; split; [split; [discriminate|intros (? & ? & ? & ? & _); discriminate]|intros; discriminate].
  unfold read_aircraft. rewrite put_same. destruct c as [doc|d|].
  2, 3: intros [= <- <-]; split; [split; [discriminate|intros (? & ? & ? & ? & _); discriminate]|intros; discriminate].
  destruct (load_aircraft doc) as [a|e] eqn:LA.
  2: { intros [= <- <-]. split; [split; [discriminate|]|]; [intros (doc' & a' & j & [= <-] & H & _); congruence|]. intros doc' a' j [= <-] H. congruence. }
  unfold save_all. rewrite settings_saved. cbn [snd]. destruct (AircraftIOModel.save a) as [j|e] eqn:SA.
  2: { intros [= <- <-]. split; [split; [discriminate|]|]; [intros (doc' & a' & j & [= <-] & H & H2); congruence|]. intros doc' a' j [= <-] H H2. congruence. }
  intros [= <- <-]. split; [split; [|reflexivity]; intros _; eauto 6|]. intros doc' a' j' [= <-] LA' SA'. assert (a' = a) by congruence. assert (j' = j) by congruence. subst a' j'.
  eapply added_ext; [|apply added]. intro q. unfold puts, entries, make_dirs.
  unfold project_dirs. cbn [fold_left map app fst snd]. rewrite app_nil_r. fold (settings_value name name).
  set (pa := (_ ++ ["aircraft"; _])%list). set (ps := (_ ++ ["settings"; _])%list). set (pt := (_ ++ ["state"; _])%list).
  assert (A1 : pa <> ps) by (intro H; apply app_inj_l in H; discriminate). assert (A2 : pa <> pt) by (intro H; apply app_inj_l in H; discriminate).
  unfold put. destruct (path_eqb q pa); [reflexivity|]. reflexivity.
Qed.
End S.

Lemma template_written : template_file (model_value template_aircraft).
Proof.
  Local Ltac get := eexists; split; [reflexivity|reflexivity].
  Local Ltac get2 := eexists; split; [get|eexists; split; [get|reflexivity]].
  exists 2%Z, 5%Z. do 4 eexists. exists "template_segment". split; [reflexivity|]. split; [reflexivity|].
  do 6 (split; [get|]). split; [intros k [<-|[<-|[]]]; eexists; (split; [get|reflexivity])|].
  do 4 (split; [get|]). split; [do 5 eexists; do 5 (split; [get|]); repeat split; reflexivity|].
  split; [intros k [<-|[<-|[]]]; split; get2|]. split; [get|].
  split; [exists 5%Z; split; [discriminate|]; split; get|].
  exists (2 # 10)%Q, (8 # 10)%Q, (7 # 10)%Q. do 5 (split; [reflexivity|]). do 2 (split; [get2|]).
  intros k l [<-|[<-|[]]] [<-|[<-|[]]]; get2.
Qed.

(** Why a given file is refused. *)
Lemma refused load fs cwd p name : let dir := (cwd ++ ["pytornado"])%list in fs dir = None -> named_json p name -> ~ within dir p ->
  (fs p = None -> snd (setup_wkdir load fs cwd (Some p)) = Err FileNotFoundError) /\
  (fs p = Some NDir -> snd (setup_wkdir load fs cwd (Some p)) = Err IOError) /\
  (fs p = Some (NFile COther) -> snd (setup_wkdir load fs cwd (Some p)) = Err ValueError) /\
  (forall doc e, fs p = Some (NFile (CJson doc)) -> load doc = Err e -> snd (setup_wkdir load fs cwd (Some p)) = Err e).
Proof.
  change "pytornado" with TEMPLATE_ROOT. cbv zeta. intros F NJ W. unfold setup_wkdir. rewrite F. destruct (named_name p name NJ) as (E1 & E2 & E3). rewrite E2, E3, E1.
  assert (FP : make_dirs (cwd ++ [TEMPLATE_ROOT])%list name (put fs (cwd ++ [TEMPLATE_ROOT])%list NDir) p = fs p).
  { rewrite dirs_within by exact W. apply put_other. intros ->. apply W. exists []. rewrite app_nil_r. reflexivity. }
  rewrite FP. unfold read_aircraft.
  split; [intros ->; reflexivity|]. split; [intros ->; reflexivity|]. split; [intros ->; rewrite put_same; reflexivity|].
  intros doc e -> L. rewrite put_same, L. reflexivity.
Qed.

Lemma usable : forall int_ok root parse_float derive import_airfoils finish_wing,
  let load := AircraftIOModel.load true int_ok root parse_float derive import_airfoils finish_wing in
  directory root -> forall fs cwd arg fs', setup_wkdir load fs cwd arg = (fs', Ok tt) ->
  let dir := (cwd ++ ["pytornado"])%list in
  (arg = None -> exists s d m, settings_for "template" "template_aircraft" s /\ one_state d /\
     fs' (dir ++ ["settings"; "template.json"])%list = Some (NFile (CJson s)) /\
     fs' (dir ++ ["state"; "template.json"])%list = Some (NFile (CState d)) /\
     fs' (dir ++ ["aircraft"; "template_aircraft.json"])%list = Some (NFile (CJson m)) /\ template_file m /\
     ((forall vs ai ao, exists f, derive vs ai ao = Ok f) -> (forall i o, import_airfoils i o = Ok tt) -> (forall l, finish_wing l = Ok tt) ->
      exists a, load m = Ok a)) /\
  (forall p name, arg = Some p -> named_json p name -> ~ within dir p ->
     exists s d m doc a, settings_for name name s /\ one_state d /\
     fs' (dir ++ ["settings"; (name ++ ".json")%string])%list = Some (NFile (CJson s)) /\
     fs' (dir ++ ["state"; (name ++ ".json")%string])%list = Some (NFile (CState d)) /\
     fs' (dir ++ ["aircraft"; (name ++ ".json")%string])%list = Some (NFile (CJson m)) /\
     fs p = Some (NFile (CJson doc)) /\ load doc = Ok a /\
     (each_segment (airfoils_kept root) a -> each_segment angles_kept a -> load m = Ok a)).
Proof.
  intros int_ok root parse_float derive import_airfoils finish_wing load D fs cwd arg fs' H dir.
  assert (N : fs dir = None).
  { destruct (fs dir) eqn:F; [|reflexivity]. unfold dir in F. change "pytornado" with TEMPLATE_ROOT in F. unfold setup_wkdir in H. rewrite F in H. discriminate. }
  split.
  - intros ->. destruct (template_ok load fs cwd N) as (f & E & P & _). rewrite E in H. injection H as <-.
    exists (settings_value "template" "template_aircraft"), (StateModel.save template_state), (model_value template_aircraft).
    split; [apply settings_read|]. split; [apply state_read|].
    split; [apply (P ["settings"; ("template" ++ ".json")%string]), p_settings|]. split; [apply (P ["state"; ("template" ++ ".json")%string]), p_state|].
    split; [apply (P ["aircraft"; ("template_aircraft" ++ ".json")%string]), p_aircraft|]. split; [exact template_written|].
    intros HD HI HF. unfold load. apply template_loads; assumption.
  - intros p name -> J W. destruct (given_ok load fs cwd p name N J W fs' (Ok tt) H) as [A B].
    destruct (proj1 A eq_refl) as (doc & a & j & X & Y & Z). destruct (B doc a j X Y Z) as [P _].
    exists (settings_value name name), (StateModel.save template_state), j, doc, a.
    split; [apply settings_read|]. split; [apply state_read|]. split; [apply P, p_settings|]. split; [apply P, p_state|]. split; [apply P, p_aircraft|].
    split; [exact X|]. split; [exact Y|]. intros K1 K2.
    destruct (proj2 (load_save_load true int_ok root parse_float derive import_airfoils finish_wing D doc a Y) (conj K1 K2)) as (j' & S & L).
    assert (j' = j) by congruence. subst j'. exact L.
Qed.
