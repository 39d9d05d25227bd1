(** Proofs about [StartModel]: what a run reads and writes. *)
From Coq Require Import List String Ascii ZArith QArith Bool Lia.
From Verif Require Import PyBase PyVal PyFacts AircraftIOModel AircraftIOSpec StrFacts CliModel CpacsAircraftModel RunSpec StartModel StartSpec StartPaths.
From Verif Require SetupModel SetupProofs SettingsModel SettingsSpec SettingsProofs StateModel RunModel RunProofs CpacsAircraftProofs.
Import List ListNotations.
Open Scope string_scope.

Section Facts.
Variable E : env.
Notation fsys := (fsys E).
Notation put := (put E).
Notation make_path := (make_path E).
Notation make_paths := (make_paths E).

Lemma put_same (fs : fsys) p n : put fs p n p = Some n.
Proof. unfold StartModel.put. rewrite SetupProofs.path_eqb_refl. reflexivity. Qed.
Lemma put_other (fs : fsys) p n q : q <> p -> put fs p n q = fs q.
Proof. intro N. unfold StartModel.put. rewrite (SetupProofs.path_eqb_neq _ _ N). reflexivity. Qed.

(** ** Directories *)

Definition above (done todo q : path) : Prop := exists a b, todo = (a ++ b)%list /\ a <> [] /\ q = (done ++ a)%list.
Lemma above_step (done : path) c (todo q : path) : above (done ++ [c])%list todo q -> above done (c :: todo) q.
Proof. intros (a & b & -> & N & ->). exists (c :: a), b. split; [reflexivity|]. split; [discriminate|]. rewrite <- app_assoc. reflexivity. Qed.
Lemma above_cases (done : path) c (todo q : path) : above done (c :: todo) q -> q = (done ++ [c])%list \/ above (done ++ [c])%list todo q.
Proof.
  intros (a & b & H & N & ->). destruct a as [|x a]; [congruence|]. injection H as <- ->. destruct a as [|y a]; [left; reflexivity|].
  right. exists (y :: a), b. split; [reflexivity|]. split; [discriminate|]. rewrite <- app_assoc. reflexivity.
Qed.

Lemma make_path_any todo : forall fs done fs' r, make_path fs done todo = (fs', r) ->
  forall q, fs' q = fs q \/ (fs q = None /\ fs' q = Some NDir /\ above done todo q).
Proof.
  induction todo as [|c todo IH]; intros fs done fs' r H q; cbn [StartModel.make_path] in H; [injection H as <- _; auto|].
  set (q0 := (done ++ [c])%list) in *. destruct (fs q0) as [[|x]|] eqn:F.
  - destruct (IH _ _ _ _ H q) as [A|(A & B & D)]; [auto|right]. repeat split; auto. exact (above_step _ _ _ _ D).
  - injection H as <- _. auto.
  - destruct (IH _ _ _ _ H q) as [A|(A & B & D)].
    + destruct (list_eq_dec string_dec q q0) as [->|N].
      * right. rewrite A, put_same. repeat split; auto. exists [c], todo. repeat split; discriminate.
      * left. rewrite A. exact (put_other _ _ _ _ N).
    + destruct (list_eq_dec string_dec q q0) as [->|N]; [rewrite put_same in A; discriminate|].
      rewrite (put_other _ _ _ _ N) in A. right. repeat split; auto. exact (above_step _ _ _ _ D).
Qed.
Lemma make_paths_any l : forall fs fs' r, make_paths fs l = (fs', r) ->
  forall q, fs' q = fs q \/ (fs q = None /\ fs' q = Some NDir /\ exists p, In p l /\ above [] p q).
Proof.
  induction l as [|p l IH]; intros fs fs' r H q; cbn [StartModel.make_paths] in H; [injection H as <- _; auto|].
  destruct (make_path fs [] p) as [fs1 [u|e]] eqn:M.
  - destruct (IH _ _ _ H q) as [A|(A & B & p' & I & D)]; destruct (make_path_any _ _ _ _ _ M q) as [X|(X & Y & Z)].
    + left. congruence.
    + right. repeat split; auto; [congruence|]. exists p. split; [left; reflexivity|exact Z].
    + right. repeat split; auto; [congruence|]. exists p'. split; [right; exact I|exact D].
    + congruence.
  - injection H as <- _. destruct (make_path_any _ _ _ _ _ M q) as [X|(X & Y & Z)]; [auto|]. right. repeat split; auto. exists p. split; [left; reflexivity|exact Z].
Qed.

(** Without files in the way all directories are made. *)
Lemma make_path_clear todo : forall fs done, (forall q c, above done todo q -> fs q <> Some (NFile c)) ->
  exists fs', make_path fs done todo = (fs', Ok tt) /\ forall q, (above done todo q -> fs' q = Some NDir) /\ (~ above done todo q -> fs' q = fs q).
Proof.
  induction todo as [|c todo IH]; intros fs done H; cbn [StartModel.make_path].
  - exists fs. split; [reflexivity|]. intro q. split; [|reflexivity]. intros (a & b & X & N & _). destruct a; [congruence|discriminate].
  - set (q0 := (done ++ [c])%list). assert (A0 : above done (c :: todo) q0) by (exists [c], todo; repeat split; discriminate).
    assert (S : forall q, above q0 todo q -> q <> q0).
    { intros q (a & b & _ & N & ->) X. apply N. apply (SetupProofs.app_inj_l q0). rewrite app_nil_r. exact X. }
    destruct (fs q0) as [[|x]|] eqn:F.
    + destruct (IH fs q0) as (fs' & M & K); [intros q d D; exact (H q d (above_step _ _ _ _ D))|].
      exists fs'. split; [exact M|]. intro q. split.
      * intro D. apply above_cases in D as [->|D]; [|exact (proj1 (K q) D)].
        fold q0. destruct (K q0) as [_ K2]. rewrite K2; [exact F|]. intro D. exact (S _ D eq_refl).
      * intro D. apply K. intro D'. apply D. exact (above_step _ _ _ _ D').
    + exfalso. exact (H q0 x A0 F).
    + destruct (IH (put fs q0 NDir) q0) as (fs' & M & K).
      { intros q d D. rewrite (put_other _ _ _ _ (S q D)). exact (H q d (above_step _ _ _ _ D)). }
      exists fs'. split; [exact M|]. intro q. split.
      * intro D. apply above_cases in D as [->|D]; [|exact (proj1 (K q) D)].
        fold q0. destruct (K q0) as [_ K2]. rewrite K2; [apply put_same|]. intro D. exact (S _ D eq_refl).
      * intro D. destruct (K q) as [_ K2]. rewrite K2; [|intro D'; apply D; exact (above_step _ _ _ _ D')].
        apply put_other. intros ->. exact (D A0).
Qed.
Lemma above_dec done todo q : above done todo q \/ ~ above done todo q.
Proof.
  revert done. induction todo as [|c todo IH]; intro done.
  - right. intros (a & b & X & N & _). destruct a; [congruence|discriminate].
  - destruct (list_eq_dec string_dec q (done ++ [c])%list) as [->|N]; [left; exists [c], todo; repeat split; discriminate|].
    destruct (IH (done ++ [c])%list) as [A|A]; [left; exact (above_step _ _ _ _ A)|]. right. intro H. apply above_cases in H as [H|H]; contradiction.
Qed.
Lemma make_paths_clear l : forall fs, (forall p q c, In p l -> above [] p q -> fs q <> Some (NFile c)) ->
  exists fs', make_paths fs l = (fs', Ok tt) /\
    forall q, ((exists p, In p l /\ above [] p q) -> fs' q = Some NDir) /\ (~ (exists p, In p l /\ above [] p q) -> fs' q = fs q).
Proof.
  induction l as [|p l IH]; intros fs H; cbn [StartModel.make_paths].
  - exists fs. split; [reflexivity|]. intro q. split; [intros (p & [] & _)|reflexivity].
  - destruct (make_path_clear p fs []) as (fs1 & M & K); [intros q c D; exact (H p q c (or_introl eq_refl) D)|]. rewrite M.
    destruct (IH fs1) as (fs' & M' & K').
    { intros p' q c I D. destruct (above_dec [] p q) as [A|A]; [rewrite (proj1 (K q) A); discriminate|]. rewrite (proj2 (K q) A). exact (H p' q c (or_intror I) D). }
    exists fs'. split; [exact M'|]. intro q. assert (DEC : (exists p0, In p0 l /\ above [] p0 q) \/ ~ (exists p0, In p0 l /\ above [] p0 q)).
    { clear. induction l as [|x l IH]; [right; intros (? & [] & _)|]. destruct (above_dec [] x q) as [A|A]; [left; exists x; split; [left; reflexivity|exact A]|].
      destruct IH as [(y & I & B)|B]; [left; exists y; split; [right; exact I|exact B]|]. right. intros (y & [<-|I] & D); [contradiction|]. apply B. eauto. }
    split.
    + intros (p0 & [<-|I] & D); [|apply K'; eauto]. destruct DEC as [X|X]; [apply K'; exact X|]. rewrite (proj2 (K' q) X). apply K. exact D.
    + intro N. rewrite (proj2 (K' q)); [apply K; intro D; apply N; exists p; split; [left; reflexivity|exact D]|].
      intros (p0 & I & D). apply N. exists p0. split; [right; exact I|exact D].
Qed.

(** ** Changes of the file system *)

Definition frame (D O : path -> Prop) (fs fs' : fsys) : Prop :=
  forall q, fs' q = fs q \/ (fs q = None /\ fs' q = Some NDir /\ D q) \/ O q.
Lemma frame_refl D O fs : frame D O fs fs.
Proof. intro q. auto. Qed.
Lemma frame_trans D O fs1 fs2 fs3 : frame D O fs1 fs2 -> frame D O fs2 fs3 -> frame D O fs1 fs3.
Proof.
  intros A B q. destruct (A q) as [X|[(X & Y & Z)|X]]; destruct (B q) as [X'|[(X' & Y' & Z')|X']];
    solve [tauto|left; congruence|right; left; repeat split; congruence || assumption|congruence].
Qed.
Lemma frame_mono (D D' O O' : path -> Prop) fs fs' : (forall q, D q -> D' q) -> (forall q, O q -> O' q) -> frame D O fs fs' -> frame D' O' fs fs'.
Proof. intros A B F q. destruct (F q) as [X|[(X & Y & Z)|X]]; auto 6. Qed.
Lemma frame_put (D O : path -> Prop) fs p n : O p -> frame D O fs (put fs p n).
Proof.
  intros H q. destruct (list_eq_dec string_dec q p) as [->|N]; [auto|]. left. exact (put_other _ _ _ _ N).
Qed.
Lemma frame_write (D O : path -> Prop) fs p c : O p -> (forall q, above [] (removelast p) q -> D q) -> frame D O fs (write_file E fs p c).
Proof.
  intros H K. unfold write_file. apply (frame_trans D O _ (fst (make_path fs [] (removelast p)))); [|exact (frame_put D O _ _ _ H)].
  destruct (make_path fs [] (removelast p)) as [fs' r] eqn:M. cbn [fst]. intro q.
  destruct (make_path_any _ _ _ _ _ M q) as [X|(X & Y & Z)]; auto 6.
Qed.
Lemma above_within (p q : path) : above [] p q -> q <> [] /\ within q p.
Proof. intros (a & b & -> & N & ->). split; [exact N|]. exists b. reflexivity. Qed.
Lemma within_above (p q : path) : q <> [] -> within q p -> above [] p q.
Proof. intros N (r & ->). exists q, r. auto. Qed.
Lemma within_trans a b c : within a b -> within b c -> within a c.
Proof. intros (r & ->) (s & ->). exists (r ++ s)%list. apply eq_sym, app_assoc. Qed.
Lemma within_refl a : within a a.
Proof. exists []. apply eq_sym, app_nil_r. Qed.
Lemma within_removelast p : within (removelast p) p.
Proof. destruct p as [|x p _] using rev_ind; [exists []; reflexivity|]. rewrite removelast_last. exists [x]. reflexivity. Qed.

(** ** Settings *)

Lemma update_ok s d s' d' : SettingsModel.update s d = (s', d', Ok tt) -> SettingsSpec.settings_ok s'.
Proof.
  unfold SettingsModel.update. intro H. apply SettingsProofs.check_settings_iff.
  destruct (let? plot := getitem (PDict (dupdate s d)) "plot" in let? results := getitem plot "results" in let? opt := getitem results "opt" in Ok (plot, results, opt))
    as [[[plot results] opt]|e]; [|discriminate].
  destruct (truthy opt); injection H; intros; subst; assumption.
Qed.
Lemma read_settings_ok fs p so root name base : project_of p root name -> base_of name base -> read_settings E fs p = Ok so ->
  so_root so = root /\ so_base so = base /\ SettingsSpec.settings_ok (so_dict so) /\ file_type (f_aircraft E so) = Ok (so_cpacs so).
Proof.
  intros P B H. unfold read_settings in H. destruct (fs p) as [[|c]|]; try discriminate.
  destruct (json E c) as [v|]; [|discriminate]. cbn [bind] in H. destruct (items v) as [d|]; [|discriminate]. cbn [bind] in H.
  unfold new_settings in H. destruct (SettingsModel.update SettingsModel.new_settings d) as [[s d'] r] eqn:U. destruct r as [[]|]; [|discriminate]. cbn [bind] in H.
  destruct (file_type (f_aircraft_of E (working_dir p) s)) as [b|] eqn:T; [|discriminate]. cbn [bind] in H. injection H as <-.
  destruct (project_dir _ _ _ P) as [W N]. rewrite N, W in *. cbn. rewrite (base_split _ _ B). exact (conj eq_refl (conj eq_refl (conj (update_ok _ _ _ _ U) T))).
Qed.
Lemma start_dirs so q : start_dir (so_root so) (so_base so) q <-> exists p, In p (project_dirs so) /\ above [] p q.
Proof.
  unfold start_dir, project_dirs. split.
  - intros (N & d & rest & H & I). exists (so_root so ++ d)%list. split; [|apply within_above; [exact N|exists rest; exact H]].
    apply in_map_iff. exists d. split; [reflexivity|]. unfold SetupModel.project_dirs, SetupModel.counted. cbn in I |- *. intuition.
  - intros (p & I & A). apply in_map_iff in I as (d & <- & I). apply above_within in A as (N & rest & H). split; [exact N|].
    unfold SetupModel.project_dirs, SetupModel.counted in I. cbn [In] in I.
    assert (X : forall y, (so_root so ++ [y])%list = (q ++ rest)%list -> (so_root so ++ [y; (so_base so ++ "_000")%string])%list = (q ++ rest ++ [(so_base so ++ "_000")%string])%list).
    { intros y Hy. rewrite app_assoc, <- Hy, <- app_assoc. reflexivity. }
    destruct I as [<-|[<-|[<-|[<-|[<-|[<-|[<-|[<-|[<-|[]]]]]]]]]];
      solve [exists ["aircraft"], rest; split; [exact H|cbn; tauto]|exists ["airfoils"], rest; split; [exact H|cbn; tauto]
            |exists ["deformation"], rest; split; [exact H|cbn; tauto]|exists ["settings"], rest; split; [exact H|cbn; tauto]
            |exists ["state"], rest; split; [exact H|cbn; tauto]
            |exists ["_plots"; (so_base so ++ "_000")%string], rest; split; [exact H|cbn; tauto]
            |exists ["_results"; (so_base so ++ "_000")%string], rest; split; [exact H|cbn; tauto]
            |eexists; eexists; split; [exact (X _ H)|cbn; tauto]].
Qed.

(** Making the directories. *)
Lemma load_settings_cases fs p fs' r : load_settings E fs p = (fs', r) ->
  (exists e, read_settings E fs p = Err e /\ r = Err e /\ fs' = fs) \/
  exists so, read_settings E fs p = Ok so /\ (r = Ok so \/ exists e, r = Err e) /\
    forall q, fs' q = fs q \/ (fs q = None /\ fs' q = Some NDir /\ start_dir (so_root so) (so_base so) q).
Proof.
  unfold load_settings. destruct (read_settings E fs p) as [so|e]; [|intro H; injection H as <- <-; left; eauto].
  destruct (make_paths fs (project_dirs so)) as [fs1 r1] eqn:M. intro H. right. exists so. split; [reflexivity|].
  assert (X : fs' = fs1 /\ (r = Ok so \/ exists e, r = Err e)) by (destruct r1; injection H as <- <-; eauto).
  destruct X as [-> X]. split; [exact X|]. intro q. destruct (make_paths_any _ _ _ _ M q) as [A|(A & B & D)]; [auto|]. right.
  repeat split; auto; apply start_dirs in D; apply D.
Qed.
Lemma load_settings_clear fs p so : read_settings E fs p = Ok so -> clear E fs (so_root so) (so_base so) ->
  exists fs', load_settings E fs p = (fs', Ok so) /\
    forall q, (start_dir (so_root so) (so_base so) q -> fs' q = Some NDir) /\ (~ start_dir (so_root so) (so_base so) q -> fs' q = fs q).
Proof.
  intros R K. unfold load_settings. rewrite R. destruct (make_paths_clear (project_dirs so) fs) as (fs' & M & D).
  { intros p' q c I A. apply K. apply start_dirs. eauto. }
  rewrite M. exists fs'. split; [reflexivity|]. intro q. rewrite start_dirs. exact (D q).
Qed.

(** ** Airfoil files *)

Lemma two_digits_slash i : has_slash (two_digits i) = false.
Proof.
  assert (X : forall u, has_slash (DecimalString.NilEmpty.string_of_uint u) = false) by (induction u; cbn; auto).
  unfold two_digits. cbv zeta. destruct (Nat.ltb i 10); cbn; apply X.
Qed.
Lemma foil_name_slash i f : has_slash (foil_name i f) = false.
Proof.
  unfold foil_name. destruct (cf_name f); [apply CpacsAircraftProofs.kept_no_slash|]. cbn. apply two_digits_slash.
Qed.
Lemma plain_blade n : has_slash n = false -> plain ("blade." ++ n).
Proof. intro N. repeat split; try discriminate. rewrite <- has_slash_iff. cbn. congruence. Qed.
Lemma resolve_airfoil root d n : real root -> has_slash n = false ->
  resolve d (path_join (render root) (path_join AIRFOILS n)) = fold_left step [n] (root ++ ["airfoils"])%list.
Proof.
  intros R N. rewrite (join_airfoils n N). destruct (join_render root ("airfoils/" ++ n) R) as (pre & A & B); [reflexivity|discriminate|].
  rewrite (resolve_abs d _ (root ++ components ("airfoils/" ++ n))%list); [|exact B|rewrite A; discriminate].
  change ("airfoils/" ++ n) with ("airfoils" ++ "/" ++ n). rewrite components_app, (components_plain n N).
  rewrite fold_left_app, (fold_plain root R). reflexivity.
Qed.
Lemma resolve_blade root d n : real root -> has_slash n = false -> resolve d (airfoil_file (render root) n) = (root ++ ["airfoils"; ("blade." ++ n)%string])%list.
Proof.
  intros R N. unfold airfoil_file. rewrite resolve_airfoil; [|exact R|exact N]. cbn [fold_left].
  rewrite (step_plain _ _ (plain_blade n N)), <- app_assoc. reflexivity.
Qed.
Lemma foil_keys root l : forall files i k e, In (k, e) (airfoil_files root files i l) ->
  In (k, e) files \/ exists n, has_slash n = false /\ k = airfoil_file root n.
Proof.
  induction l as [|f l IH]; intros files i k e H; cbn [airfoil_files] in H; [auto|].
  destruct (IH _ _ _ _ H) as [X|X]; [|auto].
  assert (Y : forall d, In (k, e) (dset d (airfoil_file root (foil_name i f)) (foil_name i f, cf_points f)) -> In (k, e) d \/ k = airfoil_file root (foil_name i f)).
  { induction d as [|[k' e'] d IHd]; cbn [dset]; [intros [Z|[]]; injection Z as <- _; auto|].
    destruct (String.eqb_spec (airfoil_file root (foil_name i f)) k') as [<-|NE]; intros [Z|Z].
    - injection Z as <- _; auto.
    - left. right. exact Z.
    - left. left. exact Z.
    - destruct (IHd Z) as [W|W]; [left; right; exact W|auto]. }
  destruct (Y _ X) as [Z| ->]; [auto|]. right. exists (foil_name i f). split; [apply foil_name_slash|reflexivity].
Qed.
Lemma profiles_frame root D (O : path -> Prop) files : real root -> (forall q, airfoil_place root q -> O q) ->
  (forall k e, In (k, e) files -> exists n, has_slash n = false /\ k = airfoil_file (render root) n) ->
  forall fs, frame D O fs (write_profiles E fs files).
Proof.
  intros R K. unfold write_profiles. induction files as [|[k e] files IH]; intros F fs; cbn [fold_left]; [apply frame_refl|].
  eapply frame_trans; [|apply IH; intros k' e' I; exact (F k' e' (or_intror I))].
  apply frame_put. destruct (F k e (or_introl eq_refl)) as (n & N & ->). apply K. cbn [fst]. rewrite (resolve_blade _ _ _ R N). eexists. reflexivity.
Qed.
Lemma load_aircraft_frame D (O : path -> Prop) fs so fs' r : real (so_root so) -> (so_cpacs so = true -> forall q, airfoil_place (so_root so) q -> O q) ->
  load_aircraft E fs so = (fs', r) -> frame D O fs fs'.
Proof.
  intros R K H. unfold load_aircraft in H. destruct (so_cpacs so); [|injection H as <- _; apply frame_refl]. specialize (K eq_refl).
  unfold load_cpacs in H. cbv zeta in H. destruct (fs (f_aircraft E so)) as [[|c]|]; try (injection H as <- _; apply frame_refl).
  destruct (cpacs_doc E c) as [d|]; [|injection H as <- _; apply frame_refl].
  destruct (let? u := aircraft_name d in let? ws := aircraft_wings (none_ok E) (int_ok E) (render (so_root so)) (locate E) d in Ok (u, ws)) as [[u ws]|];
    [|injection H as <- _; apply frame_refl].
  injection H as <- _. apply (profiles_frame (so_root so) D O _ R K). intros k e I.
  destruct (foil_keys _ _ _ _ _ _ I) as [[]|X]. exact X.
Qed.

(** ** Result files *)

Lemma digit_slash c : digit c <> None -> is_slash c = false.
Proof. intro H. apply digit_code in H. unfold is_slash. apply Ascii.eqb_neq. intros ->. cbv in H. lia. Qed.
Lemma three_slash d i : three_digits d i -> has_slash d = false.
Proof.
  intros [R _]. apply RunProofs.reading_digits in R. induction d as [|c d IH]; [reflexivity|].
  cbn [RunProofs.digits] in R. destruct R as [A B]. cbn. rewrite (IH B), orb_false_r. apply digit_slash. exact A.
Qed.
Lemma resolve_result root base d i name : ~ has_part "/" base -> three_digits d i -> plain name ->
  resolve root ("_results/" ++ base ++ "_" ++ d ++ "/" ++ name) = (root ++ ["_results"; (base ++ "_" ++ d)%string; name])%list.
Proof.
  intros B D N. assert (X : ~ has_part "/" d) by (rewrite <- has_slash_iff, (three_slash _ _ D); discriminate).
  assert (P := plain_us base d B X). apply resolve_rel.
  - change ("_results/" ++ base ++ "_" ++ d ++ "/" ++ name) with ("_results" ++ "/" ++ (base ++ "_" ++ d ++ "/" ++ name)).
    replace (base ++ "_" ++ d ++ "/" ++ name) with ((base ++ "_" ++ d) ++ "/" ++ name) by (cbn [append]; rewrite !app_assoc_s; cbn [append]; reflexivity).
    rewrite !components_app, (components_plain _ (plain_slash _ P)), (components_plain _ (plain_slash _ N)). reflexivity.
  - constructor; [repeat split; try discriminate; rewrite <- has_slash_iff; discriminate|]. constructor; [exact P|]. constructor; [exact N|constructor].
Qed.
Lemma resolve_map root base : ~ has_part "/" base ->
  resolve root ("_results/" ++ base ++ "_aeroperformance.json") = (root ++ ["_results"; (base ++ "_aeroperformance.json")%string])%list.
Proof.
  intro B. assert (P : plain (base ++ "_aeroperformance.json")) by (apply (plain_us base "aeroperformance.json" B); rewrite <- has_slash_iff; discriminate).
  apply resolve_rel.
  - change ("_results/" ++ base ++ "_aeroperformance.json") with ("_results" ++ "/" ++ (base ++ "_aeroperformance.json")).
    rewrite !components_app, (components_plain _ (plain_slash _ P)). reflexivity.
  - constructor; [repeat split; try discriminate; rewrite <- has_slash_iff; discriminate|]. constructor; [exact P|constructor].
Qed.
Lemma state_file_plain V T aero o key name c : state_file V T aero o key name c -> plain name.
Proof. intros []; repeat split; try discriminate; rewrite <- has_slash_iff; discriminate. Qed.

(** ** What the settings file gives *)

Lemma update_get s0 d s d' k : NoDup (dkeys d) -> k <> "plot" -> SettingsModel.update s0 d = (s, d', Ok tt) ->
  dget s k = match dget d k with Some v => Some v | None => dget s0 k end.
Proof.
  intros N K H. rewrite <- (dget_dupdate d s0 k N). unfold SettingsModel.update in H.
  destruct (let? plot := getitem (PDict (dupdate s0 d)) "plot" in let? results := getitem plot "results" in let? opt := getitem results "opt" in Ok (plot, results, opt))
    as [[[plot results] opt]|e]; [|discriminate].
  destruct (truthy opt); injection H as <- _ _; [reflexivity|]. apply dget_dset_other. exact K.
Qed.
Lemma read_gives fs p so k : decodes E -> read_settings E fs p = Ok so -> k <> "plot" -> 
  (exists v, gives E fs p k v /\ setting (so_dict so) k = v) \/
  (~ (exists v, gives E fs p k v) /\ setting (so_dict so) k = setting SettingsModel.new_settings k).
Proof.
  intros J H K. unfold read_settings in H. destruct (fs p) as [[|c]|] eqn:F; try discriminate.
  destruct (json E c) as [v|] eqn:V; [|discriminate]. cbn [bind] in H. destruct (items v) as [d|] eqn:I; [|discriminate]. cbn [bind] in H.
  destruct v; try discriminate. injection I as ->.
  unfold new_settings in H. destruct (SettingsModel.update SettingsModel.new_settings d) as [[s d'] r] eqn:U. destruct r as [[]|]; [|discriminate]. cbn [bind] in H.
  destruct (file_type (f_aircraft_of E (working_dir p) s)) as [b|] eqn:T; [|discriminate]. cbn [bind] in H. injection H as <-. cbn [so_dict].
  assert (G := update_get _ _ _ _ k (J _ _ V) K U). destruct (dget d k) as [v|] eqn:D.
  - left. exists v. split; [exists c, d; auto|]. unfold setting. rewrite G. reflexivity.
  - right. split; [|unfold setting; rewrite G; reflexivity]. intros (v & c' & d1 & A & B & X). rewrite F in A. injection A as <-. rewrite V in B. injection B as <-. congruence.
Qed.
Lemma gives_unique fs p k v v' : gives E fs p k v -> gives E fs p k v' -> v = v'.
Proof. intros (c & d & A & B & X) (c' & d' & A' & B' & X'). congruence. Qed.
Lemma typed_str s k : SettingsSpec.typed s k SettingsModel.TyStr -> exists x, setting s k = PStr x.
Proof. intros (v & A & B). inversion B; subst. unfold setting. rewrite A. eauto. Qed.

(** The format of the aircraft file. *)
Lemma lower_xml e : lower ("." ++ e) = ".xml" <-> same_text e "xml".
Proof.
  rewrite text_lower. change (lower ("." ++ e)) with ("." ++ lower e). change (lower "xml") with "xml".
  split; [intro H; injection H as H; exact H|intros ->; reflexivity].
Qed.
Lemma lower_json e : lower ("." ++ e) = ".json" <-> same_text e "json".
Proof.
  rewrite text_lower. change (lower ("." ++ e)) with ("." ++ lower e). change (lower "json") with "json".
  split; [intro H; injection H as H; exact H|intros ->; reflexivity].
Qed.
Lemma suffix_case name : (exists e, extension name e /\ suffix name = "." ++ e) \/ ((forall e, ~ extension name e) /\ suffix name = "").
Proof. destruct (extension_dec name) as [(e & X)|X]; [left; exists e; split; [exact X|exact (suffix_ext _ _ X)]|right; split; [exact X|exact (suffix_none _ X)]]. Qed.
Lemma xml_iff q : is_xml q <-> lower (suffix (name_of q)) = ".xml".
Proof.
  destruct q as [|x q _] using rev_ind.
  - split; [intros (d & n & e & A & _); destruct d; discriminate|discriminate].
  - rewrite name_last. split.
    + intros (d & n & e & A & X & S). apply app_inj_tail in A as [-> ->]. rewrite (suffix_ext _ _ X). apply lower_xml. exact S.
    + intro H. destruct (suffix_case x) as [(e & X & S)|[_ S]]; rewrite S in H; [|discriminate]. exists q, x, e. repeat split; auto. apply lower_xml. exact H.
Qed.
Lemma json_iff q : is_json q <-> lower (suffix (name_of q)) = ".json".
Proof.
  destruct q as [|x q _] using rev_ind.
  - split; [intros (d & n & e & A & _); destruct d; discriminate|discriminate].
  - rewrite name_last. split.
    + intros (d & n & e & A & X & S). apply app_inj_tail in A as [-> ->]. rewrite (suffix_ext _ _ X). apply lower_json. exact S.
    + intro H. destruct (suffix_case x) as [(e & X & S)|[_ S]]; rewrite S in H; [|discriminate]. exists q, x, e. repeat split; auto. apply lower_json. exact H.
Qed.
Lemma file_type_cases q :
  (is_xml q /\ ~ is_json q /\ file_type q = Ok true) \/ (is_json q /\ ~ is_xml q /\ file_type q = Ok false) \/ (~ is_xml q /\ ~ is_json q /\ file_type q = Err ValueError).
Proof.
  rewrite xml_iff, json_iff. unfold file_type. cbv zeta. set (e := lower (suffix (name_of q))). cbn [existsb].
  destruct (String.eqb_spec e ".xml") as [->|A]; [left; repeat split; discriminate|].
  destruct (String.eqb_spec e ".json") as [->|B]; [right; left; repeat split; discriminate|]. right; right; auto.
Qed.
Lemma aircraft_named fs p so root name base : decodes E -> project_of p root name -> base_of name base -> read_settings E fs p = Ok so ->
  aircraft_file E fs p root (f_aircraft E so) /\ (so_cpacs so = true <-> is_xml (f_aircraft E so)) /\ (so_cpacs so = false <-> is_json (f_aircraft E so)).
Proof.
  intros J P B H. destruct (read_settings_ok _ _ _ _ _ _ P B H) as (RT & BS & OK & FT). split.
  - destruct (read_gives fs p so "aircraft" J H) as [(v & G & X)|[_ X]]; [discriminate| |].
    + destruct (typed_str _ _ (proj1 OK)) as [x Y]. exists x. split; [rewrite <- Y, X; exact G|]. unfold f_aircraft, f_aircraft_of. rewrite Y, RT. reflexivity.
    + exfalso. destruct (typed_str _ _ (proj1 OK)) as [x Y]. rewrite X in Y. discriminate.
  - destruct (file_type_cases (f_aircraft E so)) as [(A & N & X)|[(A & N & X)|(N & N' & X)]]; rewrite FT in X; try discriminate; injection X as ->; intuition congruence.
Qed.

(** ** A whole run *)

Lemma event_frame so (O : path -> Prop) e fs : ~ has_part "/" (so_base so) -> (forall q, output (so_root so) (so_base so) q -> O q) ->
  (forall p c, e = RunModel.EFile p c ->
    p = "_results/" ++ so_base so ++ "_aeroperformance.json" \/
    exists d i name, three_digits d i /\ plain name /\ p = "_results/" ++ so_base so ++ "_" ++ d ++ "/" ++ name) ->
  frame (made (so_root so) (so_base so)) O fs (apply_event E so fs e).
Proof.
  intros B K F.
  assert (X : forall q c, output (so_root so) (so_base so) q -> frame (made (so_root so) (so_base so)) O fs (write_file E fs q c)).
  { intros q c Q. apply frame_write; [exact (K _ Q)|]. intros q' A. apply above_within in A as [N A]. right. split; [exact N|]. exists q. split; [exact Q|].
    exact (within_trans _ _ _ A (within_removelast q)). }
  destruct e as [p c|i n|i]; cbn [apply_event].
  - apply X. destruct (F p c eq_refl) as [->|(d & i & name & D & N & ->)].
    + rewrite (resolve_map _ _ B). apply out_map.
    + rewrite (resolve_result _ _ _ _ _ B D N). apply (out_state _ _ "_results" d i); [cbn; auto|exact D].
  - apply X. apply (out_state _ _ "_plots" (RunModel.dec3 i) i); [cbn; auto|apply RunProofs.dec3_ok].
  - apply frame_refl.
Qed.
Lemma written_in V T (t : list (RunModel.event V T)) p c : In (p, c) (written V T t) <-> In (RunModel.EFile p c) t.
Proof.
  unfold written. rewrite in_flat_map. split.
  - intros (e & I & H). destruct e; cbn in H; try tauto. destruct H as [H|[]]. injection H as <- <-. exact I.
  - intro I. exists (RunModel.EFile p c). split; [exact I|left; reflexivity].
Qed.
Lemma events_frame so (O : path -> Prop) t : ~ has_part "/" (so_base so) -> (forall q, output (so_root so) (so_base so) q -> O q) ->
  (forall p c, In (p, c) (written _ _ t) ->
    p = "_results/" ++ so_base so ++ "_aeroperformance.json" \/
    exists d i name, three_digits d i /\ plain name /\ p = "_results/" ++ so_base so ++ "_" ++ d ++ "/" ++ name) ->
  forall fs, frame (made (so_root so) (so_base so)) O fs (fold_left (apply_event E so) t fs).
Proof.
  intros B K. induction t as [|e t IH]; intros F fs; cbn [fold_left]; [apply frame_refl|].
  eapply frame_trans; [apply (event_frame so O e fs B K)|apply IH].
  - intros p c ->. apply (F p c). apply written_in. left. reflexivity.
  - intros p c I. apply (F p c). apply written_in. right. apply written_in. exact I.
Qed.
Lemma run_paths base dr st_of comp sc pr b s st w t r : SettingsSpec.settings_ok s -> RunModel.run (V E) (T E) (W E) base dr st_of comp sc pr b s st w = (t, r) ->
  forall p c, In (p, c) (written _ _ t) -> p = "_results/" ++ base ++ "_aeroperformance.json" \/
    exists d i name, three_digits d i /\ plain name /\ p = "_results/" ++ base ++ "_" ++ d ++ "/" ++ name.
Proof.
  intros S H p c I. destruct (RunProofs.run_any _ _ _ _ _ _ _ _ _ _ _ _ _ _ _ S H) as (r1 & r2 & outs & w1 & _ & _ & _ & _ & F & _).
  destruct (F p c I) as [(i & aero & o & key & name & d & _ & _ & SF & _ & D & ->)|(_ & _ & -> & _)]; [|auto].
  right. exists d, i, name. split; [exact D|]. split; [exact (state_file_plain _ _ _ _ _ _ _ SF)|reflexivity].
Qed.
Definition written_place (so : sobj) (q : path) : Prop :=
  output (so_root so) (so_base so) q \/ (so_cpacs so = true /\ (airfoil_place (so_root so) q \/ (q = f_aircraft E so /\ both_cpacs so = true))).
Lemma run_project_frame fs so st w fs' tr : SettingsSpec.settings_ok (so_dict so) -> ~ has_part "/" (so_base so) ->
  run_project E fs so st w = (fs', tr) -> frame (made (so_root so) (so_base so)) (written_place so) fs fs'.
Proof.
  intros S B H. unfold run_project in H. cbv zeta in H.
  destruct (RunModel.run _ _ _ _ _ _ _ _ _ _ _ _ _) as [t r] eqn:RUN. destruct (StateModel.iter_states (parse E) st) as [rows last].
  injection H as <- <-.
  assert (F : frame (made (so_root so) (so_base so)) (written_place so) fs (fold_left (apply_event E so) t fs)).
  { apply events_frame; [exact B|intros q Q; left; exact Q|]. exact (run_paths _ _ _ _ _ _ _ _ _ _ _ _ S RUN). }
  destruct (snd _) as [[? results]|]; [|exact F]. destruct (fs (f_aircraft E so)) as [[|c]|]; try exact F.
  destruct (both_cpacs so) eqn:BC; [|exact F]. eapply frame_trans; [exact F|]. apply frame_put. right. split; [|auto].
  clear - BC. unfold both_cpacs in BC. destruct (state_is_cpacs so); [|discriminate]. apply andb_prop in BC. apply BC.
Qed.
Lemma load_project_frame fs so fs' r : real (so_root so) -> load_project E fs so = (fs', r) -> frame (made (so_root so) (so_base so)) (written_place so) fs fs'.
Proof.
  intros R H. unfold load_project in H. cbv zeta in H. destruct (load_aircraft E (put fs (f_log so) (NFile (log_text E))) so) as [fs2 ra] eqn:L. injection H as <- _.
  eapply frame_trans; [apply frame_put; left; apply out_log|]. eapply load_aircraft_frame; [exact R| |exact L]. intros C q Q. right. auto.
Qed.
Lemma project_real p root name : project_of p root name -> real p -> real root /\ plain name.
Proof.
  intros [root' name'|root' name' _] H; apply Forall_app in H as [A B]; split; auto.
  - inversion B as [|? ? _ X]; subst. inversion X; assumption.
  - inversion B; assumption.
Qed.
Lemma both_state fs p so : decodes E -> read_settings E fs p = Ok so -> SettingsSpec.settings_ok (so_dict so) -> both_cpacs so = true ->
  exists s, gives E fs p "state" (PStr s) /\ same_text s "__CPACS".
Proof.
  intros J RS OK H. destruct (typed_str _ _ (proj1 (proj2 OK))) as [x T].
  destruct (read_gives fs p so "state" J RS) as [(v & G & X)|[_ X]]; [discriminate| |rewrite T in X; discriminate].
  rewrite T in X. subst v. exists x. split; [exact G|]. unfold both_cpacs, state_is_cpacs in H. rewrite T in H.
  destruct (String.eqb_spec (upper x) "__CPACS") as [U|U]; [apply text_upper; exact U|]. rewrite andb_false_r in H. discriminate.
Qed.
Theorem run_frame fs p root name base fs' t r : decodes E -> real p -> project_of p root name -> base_of name base -> standard_run E fs p = (fs', (t, r)) ->
  forall q, fs' q = fs q \/
    (fs q = None /\ fs' q = Some NDir /\ made root base q) \/
    output root base q \/
    exists a, aircraft_file E fs p root a /\ is_xml a /\
      (airfoil_place root q \/ (q = a /\ exists s, gives E fs p "state" (PStr s) /\ same_text s "__CPACS")).
Proof.
  intros J RP P B H. unfold standard_run in H. destruct (load_settings E fs p) as [fs1 rs] eqn:L.
  destruct (project_real _ _ _ P RP) as [RR RN].
  destruct (load_settings_cases _ _ _ _ L) as [(e & RS & -> & ->)|(so & RS & C & D)]; [injection H as <- _; auto|].
  destruct (read_settings_ok _ _ _ _ _ _ P B RS) as (RT & BS & OK & FT). subst root base.
  assert (F1 : frame (made (so_root so) (so_base so)) (written_place so) fs fs1).
  { intro q. destruct (D q) as [X|(X & Y & Z)]; [auto|]. right. left. split; [exact X|]. split; [exact Y|]. left. exact Z. }
  assert (F : frame (made (so_root so) (so_base so)) (written_place so) fs fs').
  { destruct C as [->|(e & ->)]; [|injection H as <- _ _; exact F1].
    destruct (load_project E fs1 so) as [fs2 rl] eqn:LP. assert (F2 := load_project_frame _ _ _ _ RR LP).
    destruct rl as [[st w]|e]; [|injection H as <- _ _; exact (frame_trans _ _ _ _ _ F1 F2)].
    assert (NB : ~ has_part "/" (so_base so)) by (eapply base_no_slash; [exact B|]; apply RN).
    exact (frame_trans _ _ _ _ _ (frame_trans _ _ _ _ _ F1 F2) (run_project_frame _ _ _ _ _ _ OK NB H)). }
  intro q. destruct (F q) as [X|[X|[X|(X & Y)]]]; auto. right. right. right.
  destruct (aircraft_named _ _ _ _ _ _ J P B RS) as (A1 & A2 & _). exists (f_aircraft E so). split; [exact A1|]. split; [apply A2; exact X|].
  destruct Y as [Y|[Y Z]]; [auto|]. right. split; [exact Y|]. exact (both_state _ _ _ J RS OK Z).
Qed.

(** ** Contents of the result files *)

Lemma write_same fs p c : write_file E fs p c p = Some (NFile c).
Proof. unfold write_file. apply put_same. Qed.
Lemma write_other fs p c q n : q <> p -> fs q = Some n -> write_file E fs p c q = Some n.
Proof.
  intros N F. unfold write_file. rewrite (put_other _ _ _ _ N). destruct (make_path fs [] (removelast p)) as [fs' r] eqn:M. cbn [fst].
  destruct (make_path_any _ _ _ _ _ M q) as [X|(X & _)]; congruence.
Qed.
Definition file_place (so : sobj) (e : RunModel.event (V E) (T E)) : option path :=
  match e with
  | RunModel.EFile p _ => Some (resolve (so_root so) p)
  | RunModel.EPlot i n => Some (so_root so ++ ["_plots"; (so_base so ++ "_" ++ RunModel.dec3 i)%string; figure_file E n])%list
  | RunModel.EShow _ => None
  end.
Lemma event_other so fs e q n : file_place so e <> Some q -> fs q = Some n -> apply_event E so fs e q = Some n.
Proof.
  intros N F. destruct e; cbn [apply_event file_place] in *; [| |exact F]; (apply write_other; [intro X; apply N; rewrite X; reflexivity|exact F]).
Qed.
Lemma events_other so t : forall fs q n, (forall e, In e t -> file_place so e <> Some q) -> fs q = Some n -> fold_left (apply_event E so) t fs q = Some n.
Proof.
  induction t as [|e t IH]; intros fs q n H F; cbn [fold_left]; [exact F|]. apply IH; [intros e' I; apply H; right; exact I|].
  apply event_other; [apply H; left; reflexivity|exact F].
Qed.
Lemma events_content so t : NoDup (map fst (written _ _ t)) ->
  (forall p c e, In (p, c) (written _ _ t) -> In e t -> file_place so e = Some (resolve (so_root so) p) -> exists c', e = RunModel.EFile p c') ->
  forall fs p c, In (p, c) (written _ _ t) -> fold_left (apply_event E so) t fs (resolve (so_root so) p) = Some (NFile (result_text E c)).
Proof.
  induction t as [|e t IH]; intros N U fs p c I; [destruct I|]. cbn [fold_left].
  assert (U' : forall p c e, In (p, c) (written _ _ t) -> In e t -> file_place so e = Some (resolve (so_root so) p) -> exists c', e = RunModel.EFile p c').
  { intros p' c' e' I' J. apply (U p' c'); [|right; exact J]. apply written_in. right. apply written_in. exact I'. }
  destruct e as [p0 c0|i n|i]; cbn [written flat_map app] in N, I; fold (written (V E) (T E) t) in N, I.
  - cbn [map fst] in N. inversion N as [|? ? NI N']; subst. destruct I as [I|I]; [|exact (IH N' U' _ _ _ I)]. injection I as <- <-.
    cbn [apply_event]. apply events_other; [|apply write_same]. intros e' J F. destruct (U p0 c0 e') as (c' & ->); [left; reflexivity|right; exact J|exact F|].
    apply NI. apply in_map_iff. exists (p0, c'). split; [reflexivity|]. apply written_in. exact J.
  - exact (IH N U' _ _ _ I).
  - exact (IH N U' _ _ _ I).
Qed.
Lemma path_string so p p' : ~ has_part "/" (so_base so) ->
  (p = "_results/" ++ so_base so ++ "_aeroperformance.json" \/ exists d i name, three_digits d i /\ plain name /\ p = "_results/" ++ so_base so ++ "_" ++ d ++ "/" ++ name) ->
  (p' = "_results/" ++ so_base so ++ "_aeroperformance.json" \/ exists d i name, three_digits d i /\ plain name /\ p' = "_results/" ++ so_base so ++ "_" ++ d ++ "/" ++ name) ->
  resolve (so_root so) p = resolve (so_root so) p' -> p = p'.
Proof.
  intros B [->|(d & i & n & D & N & ->)] [->|(d' & i' & n' & D' & N' & ->)] H; [reflexivity| | |].
  - rewrite (resolve_map _ _ B), (resolve_result _ _ _ _ _ B D' N') in H. apply app_inv_head in H. discriminate.
  - rewrite (resolve_map _ _ B), (resolve_result _ _ _ _ _ B D N) in H. apply app_inv_head in H. discriminate.
  - rewrite (resolve_result _ _ _ _ _ B D N), (resolve_result _ _ _ _ _ B D' N') in H. apply app_inv_head in H. injection H as X ->.
    apply app_inj_s in X. injection X as ->. reflexivity.
Qed.
Lemma resolve_top so p : ~ has_part "/" (so_base so) ->
  (p = "_results/" ++ so_base so ++ "_aeroperformance.json" \/ exists d i name, three_digits d i /\ plain name /\ p = "_results/" ++ so_base so ++ "_" ++ d ++ "/" ++ name) ->
  exists rest, resolve (so_root so) p = (so_root so ++ "_results" :: rest)%list /\ output (so_root so) (so_base so) (resolve (so_root so) p).
Proof.
  intros B [->|(d & i & n & D & N & ->)].
  - rewrite (resolve_map _ _ B). eexists. split; [reflexivity|constructor].
  - rewrite (resolve_result _ _ _ _ _ B D N). eexists. split; [reflexivity|]. apply (out_state _ _ "_results" d i); [cbn; auto|exact D].
Qed.
Lemma run_project_content fs so st w fs' t r : SettingsSpec.settings_ok (so_dict so) -> ~ has_part "/" (so_base so) ->
  run_project E fs so st w = (fs', (t, r)) -> forall p c, In (p, c) (written _ _ t) ->
  output (so_root so) (so_base so) (resolve (so_root so) p) /\
  (fs' (resolve (so_root so) p) = Some (NFile (result_text E c)) \/ (so_cpacs so = true /\ resolve (so_root so) p = f_aircraft E so)).
Proof.
  intros S B H. unfold run_project in H. cbv zeta in H.
  destruct (RunModel.run _ _ _ _ _ _ _ _ _ _ _ _ _) as [t0 r0] eqn:RUN. destruct (StateModel.iter_states (parse E) st) as [rows last].
  injection H as <- <- <-. assert (PA := run_paths _ _ _ _ _ _ _ _ _ _ _ _ S RUN).
  destruct (RunProofs.run_any _ _ _ _ _ _ _ _ _ _ _ _ _ _ _ S RUN) as (r1 & r2 & outs & w1 & _ & _ & ND & _ & _ & _).
  intros p c I. destruct (resolve_top so p B (PA p c I)) as (rest & TOP & OUT). split; [exact OUT|].
  assert (X : fold_left (apply_event E so) t0 fs (resolve (so_root so) p) = Some (NFile (result_text E c))).
  { apply events_content; [exact ND| |exact I]. intros p' c' e I' J F. destruct (resolve_top so p' B (PA p' c' I')) as (rest' & TOP' & _).
    destruct e as [p2 c2|i n|i]; cbn [file_place] in F.
    - injection F as F. exists c2. f_equal. apply (path_string so _ _ B); [exact (PA p2 c2 (proj2 (written_in _ _ _ _ _) J))|exact (PA p' c' I')|exact F].
    - injection F as F. rewrite TOP' in F. apply app_inv_head in F. discriminate.
    - discriminate. }
  destruct (snd _) as [[? results]|]; [|left; exact X]. destruct (fs (f_aircraft E so)) as [[|c1]|]; try (left; exact X).
  destruct (both_cpacs so) eqn:BC; [|left; exact X].
  destruct (list_eq_dec string_dec (resolve (so_root so) p) (f_aircraft E so)) as [Y|Y].
  - right. split; [|exact Y]. unfold both_cpacs in BC. destruct (state_is_cpacs so); [|discriminate]. apply andb_prop in BC. apply BC.
  - left. rewrite (put_other _ _ _ _ Y). exact X.
Qed.
Theorem run_content fs p root name base fs' t r : decodes E -> real p -> project_of p root name -> base_of name base -> standard_run E fs p = (fs', (t, r)) ->
  forall f c, In (f, c) (written _ _ t) -> output root base (resolve root f) /\
    (fs' (resolve root f) = Some (NFile (result_text E c)) \/ (aircraft_file E fs p root (resolve root f) /\ is_xml (resolve root f))).
Proof.
  intros J RP P B H f c I. unfold standard_run in H. destruct (load_settings E fs p) as [fs1 rs] eqn:L.
  destruct (project_real _ _ _ P RP) as [RR RN].
  destruct (load_settings_cases _ _ _ _ L) as [(e & RS & -> & ->)|(so & RS & C & D)]; [injection H as _ <- _; destruct I|].
  destruct (read_settings_ok _ _ _ _ _ _ P B RS) as (RT & BS & OK & FT). subst root base.
  assert (NB : ~ has_part "/" (so_base so)) by (eapply base_no_slash; [exact B|]; apply RN).
  destruct C as [->|(e & ->)]; [|injection H as _ <- _; destruct I].
  destruct (load_project E fs1 so) as [fs2 rl] eqn:LP. destruct rl as [[st w]|e]; [|injection H as _ <- _; destruct I].
  destruct (run_project_content _ _ _ _ _ _ _ OK NB H f c I) as [X [Y|[Y Z]]]; (split; [exact X|]); [left; exact Y|].
  destruct (aircraft_named _ _ _ _ _ _ J P B RS) as (A1 & A2 & _). right. rewrite Z. split; [exact A1|]. apply A2. exact Y.
Qed.
End Facts.
