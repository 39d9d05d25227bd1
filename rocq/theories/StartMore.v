(** Proofs about [StartModel]: repeated runs, other settings of the project, formats, airfoils,
    cleaning. *)
From Coq Require Import List String Ascii ZArith QArith Bool Lia.
From Verif Require Import PyBase PyVal PyFacts AircraftIOModel AircraftIOSpec StrFacts CliModel CpacsAircraftModel RunSpec StartModel StartSpec StartPaths StartProofs StartInputs.
From Verif Require AircraftIOProofs SetupModel SetupProofs SettingsModel SettingsSpec SettingsProofs StateModel RunModel RunProofs.
Import List ListNotations.
Open Scope string_scope.

(** ** Places *)

Lemma start_under root base x y : start_dir root base (root ++ x :: y)%list ->
  exists d rest, (x :: y ++ rest)%list = d /\ In d [["aircraft"]; ["airfoils"]; ["deformation"]; ["settings"]; ["state"];
          ["_plots"; (base ++ "_000")%string]; ["_results"; (base ++ "_000")%string]].
Proof. intros (_ & d & rest & H & I). rewrite <- app_assoc in H. apply app_inv_head in H. subst d. exists (x :: y ++ rest)%list, rest. auto. Qed.
Ltac no_start H := apply start_under in H as (? & ? & <- & H); cbn [In app] in H; repeat (destruct H as [H|H]; [solve [discriminate H|injection H as H; apply app_inj_s in H; discriminate H|injection H as H _; apply app_inj_s in H; discriminate H]|]); exact H.
Lemma output_not_start root base q : output root base q -> ~ start_dir root base q.
Proof. intros [| |top d i x [<-|[<-|[]]] D] H; no_start H. Qed.
Lemma airfoil_not_start root base q : airfoil_place root q -> ~ start_dir root base q.
Proof. intros (n & ->) H. no_start H. Qed.
Lemma within_split (q r x : path) : within q (r ++ x)%list -> (exists y, r = (q ++ y)%list) \/ exists y, y <> [] /\ q = (r ++ y)%list /\ within y x.
Proof.
  intros (z & H). revert q H. induction r as [|a r IH]; intros q H.
  - destruct q as [|b q]; [left; exists []; reflexivity|]. right. exists (b :: q). split; [discriminate|]. split; [reflexivity|]. exists z. exact H.
  - destruct q as [|b q]; [left; eexists; reflexivity|]. injection H as -> H. destruct (IH q H) as [(y & ->)|(y & N & -> & W)].
    + left. exists y. reflexivity.
    + right. exists y. auto.
Qed.
Lemma start_above root base q y : q <> [] -> root = (q ++ y)%list -> start_dir root base q.
Proof. intros N ->. split; [exact N|]. exists ["state"], (y ++ ["state"])%list. split; [rewrite <- app_assoc; reflexivity|cbn; tauto]. Qed.
Lemma made_cases root base q : made root base q -> start_dir root base q \/ result_place root q \/ q = (root ++ ["log.txt"])%list.
Proof.
  intros [H|(N & o & O & W)]; [auto|]. destruct O as [| |top d i x T D].
  - apply within_split in W as [(y & Y)|(y & Ny & -> & (z & W))]; [left; exact (start_above _ _ _ _ N Y)|].
    right; right. destruct y as [|a y]; [congruence|]. destruct y; [injection W as <- _; reflexivity|discriminate].
  - apply within_split in W as [(y & Y)|(y & Ny & -> & (z & W))]; [left; exact (start_above _ _ _ _ N Y)|].
    right; left. destruct y as [|a y]; [congruence|]. injection W as <- _. left. exists y. rewrite <- app_assoc. reflexivity.
  - apply within_split in W as [(y & Y)|(y & Ny & -> & (z & W))]; [left; exact (start_above _ _ _ _ N Y)|].
    right; left. destruct y as [|a y]; [congruence|]. injection W as <- _.
    destruct T as [<-|[<-|[]]]; [left|right]; exists y; rewrite <- app_assoc; reflexivity.
Qed.
Lemma output_cases root base q : output root base q -> result_place root q \/ q = (root ++ ["log.txt"])%list.
Proof.
  intros [| |top d i x T D]; [auto| |]; left.
  - left. eexists. rewrite <- app_assoc. reflexivity.
  - destruct T as [<-|[<-|[]]]; [left|right]; eexists; rewrite <- app_assoc; reflexivity.
Qed.

(** ** Different settings in one project *)

Lemma last_us a d a' d' i i' : three_digits d i -> three_digits d' i' -> a ++ "_" ++ d = a' ++ "_" ++ d' -> a = a'.
Proof.
  intros [R _] [R' _] H. apply RunProofs.reading_digits in R, R'.
  assert (X : forall s t, RunProofs.digits (s ++ String "_" t) -> False) by (induction s as [|c s IH]; intros t [A B]; [apply A; reflexivity|exact (IH _ B)]).
  revert a' H. induction a as [|c a IH]; intros [|c' a'] H; [reflexivity| | |].
  - cbn in H. injection H as <- H. exfalso. rewrite H in R. exact (X _ _ R).
  - cbn in H. injection H as -> H. exfalso. rewrite <- H in R'. exact (X _ _ R').
  - cbn in H. injection H as -> H. f_equal. exact (IH _ H).
Qed.
Lemma app_tail_s a b t : a ++ t = b ++ t -> a = b.
Proof.
  intro H. assert (L : String.length a = String.length b).
  { apply (f_equal String.length) in H. rewrite !length_app_s in H. lia. }
  revert b H L. induction a as [|c a IH]; intros [|d b] H L; try discriminate; [reflexivity|]. cbn in H, L. injection H as -> H. f_equal. apply IH; [exact H|lia].
Qed.
Lemma outputs_apart root b b' q : b <> b' -> output root b q -> output root b' q -> q = (root ++ ["log.txt"])%list.
Proof.
  intros N A B. destruct A as [| |top d i x T D]; [reflexivity| |].
  - remember (root ++ ["_results"; (b ++ "_aeroperformance.json")%string])%list as q0 eqn:Q. destruct B as [| |top' d' i' x' T' D']; [reflexivity| |].
    + apply app_inv_head in Q. injection Q as Q. exfalso. apply N. symmetry. exact (app_tail_s _ _ _ Q).
    + apply app_inv_head in Q. discriminate.
  - remember (root ++ [top; (b ++ "_" ++ d)%string; x])%list as q0 eqn:Q. destruct B as [| |top' d' i' x' T' D']; [reflexivity| |].
    + apply app_inv_head in Q. discriminate.
    + apply app_inv_head in Q. injection Q as _ Q _. exfalso. apply N. symmetry. exact (last_us _ _ _ _ _ _ D' D Q).
Qed.

Section More.
Variable E : env.
Notation fsys := (fsys E).

Theorem run_apart fs p root name base base' fs' t r : decodes E -> real p -> project_of p root name -> base_of name base -> 
  standard_run E fs p = (fs', (t, r)) -> base <> base' ->
  forall q, output root base' q -> q <> (root ++ ["log.txt"])%list ->
  fs' q = fs q \/ (fs q = None /\ fs' q = Some NDir) \/ exists a, aircraft_file E fs p root a /\ is_xml a /\ q = a.
Proof.
  intros J RP P B H N q O L. destruct (run_frame E _ _ _ _ _ _ _ _ J RP P B H q) as [X|[(X & Y & _)|[X|(a & A & I & [X|[X _]])]]]; auto.
  - exfalso. apply L. exact (outputs_apart _ _ _ _ N X O).
  - exfalso. destruct X as [n ->]. remember (root ++ ["airfoils"; n])%list as q0 eqn:Q. destruct O as [| |top d i x [<-|[<-|[]]] D]; apply app_inv_head in Q; discriminate.
  - right; right. eauto.
Qed.

(** ** Repeated runs *)

Lemma read_failed fs p : (forall c, fs p <> Some (NFile c)) -> exists e, read_settings E fs p = Err e.
Proof. intro H. unfold read_settings. destruct (fs p) as [[|c]|]; eauto. destruct (H c eq_refl). Qed.
Lemma project_base p root name base base' : project_of p root name -> base_of name base -> base_of name base' -> base = base'.
Proof. intros _ A B. apply base_split in A, B. congruence. Qed.
Theorem run_again fs p root name base fs' t r : decodes E -> real p -> project_of p root name -> base_of name base -> clear E fs root base ->
  standard_run E fs p = (fs', (t, r)) ->
  (forall q, input E fs p root q -> ~ result_place root q /\ q <> (root ++ ["log.txt"])%list) ->
  (forall a, aircraft_file E fs p root a -> is_xml a -> ~ wants_cpacs E fs p /\ forall q, input E fs p root q -> ~ airfoil_place root q) ->
  snd (standard_run E fs' p) = (t, r).
Proof.
  intros J RP P B K H I X. assert (F := run_frame E _ _ _ _ _ _ _ _ J RP P B H).
  assert (G : forall q, input E fs p root q -> fs q = fs' q \/ (start_dir root base q /\ fs q = None)).
  { intros q Q. destruct (I q Q) as [R L]. destruct (F q) as [Y|[(Y & _ & M)|[Y|(a & A & XA & Y)]]]; [auto| | |].
    - apply made_cases in M as [M|[M|M]]; [auto|contradiction|contradiction].
    - apply output_cases in Y as [Y|Y]; contradiction.
    - destruct (X a A XA) as [W AP]. destruct Y as [Y|[_ Y]]; [destruct (AP q Q Y)|contradiction]. }
  destruct (fs p) as [n|] eqn:FP.
  - replace (t, r) with (snd (standard_run E fs p)) by (rewrite H; reflexivity). symmetry.
    apply (run_inputs E fs fs' p root name base J RP P B K).
    + intros q c S. destruct (F q) as [Y|[(_ & Y & _)|[Y|(a & A & XA & Y)]]].
      * rewrite Y. exact (K q c S).
      * rewrite Y. discriminate.
      * destruct (output_not_start _ _ _ Y S).
      * destruct Y as [Y|[-> Y]]; [destruct (airfoil_not_start _ _ _ Y S)|]. destruct (X a A XA) as [W _]. contradiction.
    + intros q Q. destruct (G q Q) as [Y|[Y Z]]; [auto|]. right. split; [exact Y|]. intros ->. congruence.
  - destruct (read_failed fs p) as (e & RS); [congruence|].
    assert (SR : standard_run E fs p = (fs, ([], Err e))) by (unfold standard_run, load_settings; rewrite RS; reflexivity).
    rewrite SR in H. injection H as <- <- <-. rewrite SR. reflexivity.
Qed.

(** ** Formats *)

Lemma accepted_cases fs p root name base : project_of p root name -> base_of name base -> accepted E fs p ->
  (exists so, read_settings E fs p = Ok so) \/ (read_settings E fs p = Err ValueError /\ forall a, decodes E -> aircraft_file E fs p root a -> ~ is_xml a /\ ~ is_json a).
Proof.
  intros P B (c & d & s & d' & F & JS & U). unfold read_settings. rewrite F, JS. cbn [bind items]. unfold new_settings. rewrite U. cbn [bind].
  destruct (project_dir _ _ _ P) as [W N]. rewrite W, N.
  destruct (file_type_cases (f_aircraft_of E root s)) as [(_ & _ & X)|[(_ & _ & X)|(A1 & A2 & X)]]; rewrite X; cbn [bind]; [left; eauto|left; eauto|].
  right. split; [reflexivity|]. intros a J (t & (c' & d1 & F' & JS' & G) & ->).
  assert (d1 = d) by congruence. subst d1. assert (S := update_get _ _ _ _ "aircraft" (J _ _ JS) ltac:(discriminate) U). rewrite G in S.
  unfold f_aircraft_of, setting in A1, A2. rewrite S in A1, A2. auto.
Qed.
Lemma aircraft_unique fs p root a a' : aircraft_file E fs p root a -> aircraft_file E fs p root a' -> a = a'.
Proof. intros (s & G & ->) (s' & G' & ->). assert (X := gives_unique E _ _ _ _ _ G G'). congruence. Qed.
Theorem unknown_format fs p root name base a : decodes E -> project_of p root name -> base_of name base -> accepted E fs p ->
  aircraft_file E fs p root a -> ~ is_xml a -> ~ is_json a -> standard_run E fs p = (fs, ([], Err ValueError)).
Proof.
  intros J P B AC AF NX NJ. destruct (accepted_cases _ _ _ _ _ P B AC) as [(so & RS)|[RS _]].
  - exfalso. destruct (aircraft_named E _ _ _ _ _ _ J P B RS) as (A1 & A2 & A3). rewrite (aircraft_unique _ _ _ _ _ A1 AF) in *.
    destruct (so_cpacs so); [apply NX, A2|apply NJ, A3]; reflexivity.
  - unfold standard_run, load_settings. rewrite RS. reflexivity.
Qed.
Lemma started fs p root name base a : decodes E -> project_of p root name -> base_of name base -> clear E fs root base -> accepted E fs p -> aircraft_file E fs p root a ->
  is_xml a \/ is_json a -> exists so fs1, read_settings E fs p = Ok so /\ load_settings E fs p = (fs1, Ok so) /\ f_aircraft E so = a /\
    (so_cpacs so = true <-> is_xml a) /\ (so_cpacs so = false <-> is_json a) /\
    (forall c, fs a = Some (NFile c) -> put E fs1 (f_log so) (NFile (log_text E)) a = Some (NFile c)).
Proof.
  intros J P B K AC AF T. destruct (accepted_cases _ _ _ _ _ P B AC) as [(so & RS)|[_ X]]; [|destruct (X a J AF); tauto].
  destruct (aircraft_named E _ _ _ _ _ _ J P B RS) as (A1 & A2 & A3). assert (Y := aircraft_unique _ _ _ _ _ A1 AF). 
  destruct (read_settings_ok E _ _ _ _ _ _ P B RS) as (RT & BS & _). rewrite <- RT, <- BS in K.
  destruct (load_settings_clear E _ _ _ RS K) as (fs1 & L & D). exists so, fs1. rewrite Y in *. split; [exact RS|]. split; [exact L|]. split; [reflexivity|]. split; [exact A2|]. split; [exact A3|].
  intros c F. rewrite put_other.
  - destruct (start_dir_dec so a) as [Z|Z]; [destruct (K a c Z F)|]. rewrite (proj2 (D a) Z). exact F.
  - intro Z. assert (NL : ~ is_xml (f_log so) /\ ~ is_json (f_log so)) by (rewrite xml_iff, json_iff; unfold f_log; rewrite name_last; split; discriminate).
    rewrite <- Z in NL. tauto.
Qed.
Theorem xml_reader fs p root name base a c e : decodes E -> project_of p root name -> base_of name base -> clear E fs root base -> accepted E fs p ->
  aircraft_file E fs p root a -> is_xml a -> fs a = Some (NFile c) -> cpacs_doc E c = Err e -> snd (standard_run E fs p) = ([], Err e).
Proof.
  intros J P B K AC AF X F CD. destruct (started _ _ _ _ _ _ J P B K AC AF (or_introl X)) as (so & fs1 & RS & L & Y & A2 & A3 & FF).
  unfold standard_run. rewrite L. unfold load_project, load_aircraft. cbv zeta. rewrite (proj2 A2 X). unfold load_cpacs. cbv zeta. rewrite Y, (FF c F), CD. reflexivity.
Qed.
Theorem json_reader fs p root name base a c e : decodes E -> project_of p root name -> base_of name base -> clear E fs root base -> accepted E fs p ->
  aircraft_file E fs p root a -> is_json a -> fs a = Some (NFile c) -> json E c = Err e -> snd (standard_run E fs p) = ([], Err e).
Proof.
  intros J P B K AC AF X F CD. destruct (started _ _ _ _ _ _ J P B K AC AF (or_intror X)) as (so & fs1 & RS & L & Y & A2 & A3 & FF).
  unfold standard_run. rewrite L. unfold load_project, load_aircraft. cbv zeta. rewrite (proj2 A3 X). unfold load_native. rewrite Y, (FF c F), CD. reflexivity.
Qed.
(** States of a CPACS file for an aircraft that is not in one. *)
Theorem cpacs_state_json fs p root name base a : decodes E -> project_of p root name -> base_of name base ->
  aircraft_file E fs p root a -> is_json a -> wants_cpacs E fs p -> exists e, snd (standard_run E fs p) = ([], Err e).
Proof.
  intros J P B AF X (s & G & SM). unfold standard_run. destruct (load_settings E fs p) as [fs1 rs] eqn:L.
  destruct (load_settings_cases E _ _ _ _ L) as [(e & RS & -> & ->)|(so & RS & [->|(e & ->)] & D)]; [exists e; reflexivity| |exists e; reflexivity].
  destruct (aircraft_named E _ _ _ _ _ _ J P B RS) as (A1 & A2 & A3). rewrite (aircraft_unique _ _ _ _ _ A1 AF) in *.
  unfold load_project. cbv zeta. destruct (load_aircraft E _ so) as [fs2 [ac|e]]; [|exists e; reflexivity]. cbn [bind].
  assert (S : load_state E fs2 so = Err RuntimeError).
  { unfold load_state, state_is_cpacs. destruct (read_gives E _ _ _ "state" J RS) as [(v & G' & Y)|[Y _]]; [discriminate| |exfalso; eauto].
    rewrite Y. rewrite <- (gives_unique E _ _ _ _ _ G G'). apply text_upper in SM. rewrite SM. rewrite (proj2 A3 X). reflexivity. }
  rewrite S. exists RuntimeError. reflexivity.
Qed.

(** ** Airfoils *)

Theorem project_airfoil fs root n t : real root -> plain n -> load_airfoil (render root) (PStr ("airfoils/" ++ n)) = Ok (PStr t) ->
  airfoil_source E fs t = match fs (root ++ ["airfoils"; n])%list with Some (NFile c) => Ok (FromFile c) | _ => Err ValueError end.
Proof.
  intros R N H. assert (T : t = path_join (render root) ("airfoils/" ++ n)) by (cbv beta iota delta [load_airfoil] in H; injection H as <-; reflexivity). clear H. subst t.
  assert (Q : resolve (cwd E) (path_join (render root) ("airfoils/" ++ n)) = (root ++ ["airfoils"; n])%list).
  { rewrite (resolve_join _ _ _ R); [|exists ("/" ++ n); reflexivity]. apply resolve_rel.
    - change ("airfoils/" ++ n) with ("airfoils" ++ "/" ++ n). rewrite components_app, (components_plain _ (plain_slash _ N)). reflexivity.
    - constructor; [repeat split; try discriminate; rewrite <- has_slash_iff; discriminate|]. constructor; [exact N|constructor]. }
  unfold airfoil_source. rewrite Q. destruct (fs _) as [[|c]|]; try reflexivity.
  - destruct (join_render root ("airfoils/" ++ n) R) as (pre & A & _); [reflexivity|discriminate|]. rewrite A. reflexivity.
  - destruct (join_render root ("airfoils/" ++ n) R) as (pre & A & _); [reflexivity|discriminate|]. rewrite A. reflexivity.
Qed.
Theorem naca_airfoil fs root n d i : same_text n ("NACA" ++ d) -> reading 0 d = Some i -> (forall c, fs (resolve (cwd E) n) <> Some (NFile c)) ->
  load_airfoil root (PStr n) = Ok (PStr n) /\ airfoil_source E fs n = Ok (Naca d).
Proof.
  intros S R0 F. apply RunProofs.reading_digits in R0.
  assert (R : digits d).
  { clear - R0. intros a c b ->. induction a as [|x a IH]; destruct R0 as [A B]; [exact A|exact (IH B)]. }
  assert (U := naca_upper _ _ R S). split.
  - unfold load_airfoil. destruct (String.prefix AIRFOILS n) eqn:P; [|reflexivity]. exfalso. apply prefix_iff in P as (y & ->). discriminate.
  - unfold airfoil_source. rewrite U. change (String.prefix "NACA" ("NACA" ++ d)) with (String.prefix "" d).
    assert (X : String.prefix "" d = true) by (apply prefix_iff; exists d; reflexivity). rewrite X, (naca_strip _ R).
    destruct (fs (resolve (cwd E) n)) as [[|c]|]; try reflexivity. destruct (F c eq_refl).
Qed.
Theorem other_airfoil fs n : (forall c, fs (resolve (cwd E) n) <> Some (NFile c)) -> (forall a b, n = a ++ b -> ~ same_text a "NACA") ->
  airfoil_source E fs n = Err ValueError.
Proof.
  intros F N. unfold airfoil_source. 
  assert (X : String.prefix "NACA" (upper n) = false).
  { destruct (String.prefix "NACA" (upper n)) eqn:P; [|reflexivity]. exfalso. apply prefix_iff in P as (y & P).
    assert (Y : forall n t y, upper n = t ++ y -> exists a b, n = a ++ b /\ upper a = t).
    { clear. intros n t. revert n. induction t as [|c t IH]; intros n y H; [exists "", n; auto|]. destruct n as [|d n]; [discriminate|]. cbn in H. injection H as A B.
      destruct (IH n y B) as (a & b & -> & Q). exists (String d a), b. split; [reflexivity|].
      change (upper (String d a)) with (String (upper_char d) (upper a)). congruence. }
    destruct (Y _ _ _ P) as (a & b & -> & Q). apply (N a b eq_refl). apply text_upper. exact Q. }
  rewrite X. destruct (fs (resolve (cwd E) n)) as [[|c]|]; try reflexivity. destruct (F c eq_refl).
Qed.
Theorem file_airfoil fs n c : fs (resolve (cwd E) n) = Some (NFile c) -> airfoil_source E fs n = Ok (FromFile c).
Proof. intro F. unfold airfoil_source. rewrite F. reflexivity. Qed.

(** ** The place where settings are saved *)

Theorem saved_at fs p so root name : project_of p root name -> read_settings E fs p = Ok so ->
  (f_settings so = p <-> exists d b, p = (d ++ ["settings"; (b ++ ".json")%string])%list /\ ~ only_dots b).
Proof.
  intros P RS. assert (B := base_exists name). destruct (read_settings_ok E _ _ _ _ _ _ P B RS) as (RT & BS & _). unfold f_settings. rewrite RT, BS. split.
  - intro H. exists root, (splitext name). split; [auto|]. intro D.
    assert (NM : name = splitext name ++ ".json").
    { destruct P as [r n|r n Nr]; [apply app_inv_head in H; injection H as H; auto|].
      change ["settings"; (splitext n ++ ".json")%string] with (["settings"] ++ [(splitext n ++ ".json")%string])%list in H. rewrite app_assoc in H.
      apply app_inj_tail in H as [_ H]. auto. }
    destruct B as [(ext & X & _ & ND)|(X & _)]; [contradiction|]. rewrite X in NM. apply (f_equal String.length) in NM. rewrite length_app_s in NM. cbn in NM. lia.
  - intros (d & b & -> & D). assert (X : root = d /\ name = (b ++ ".json")%string).
    { destruct (project_dir _ _ _ P) as [W N]. change (d ++ ["settings"; (b ++ ".json")%string])%list with (d ++ ["settings"] ++ [(b ++ ".json")%string])%list in *.
      rewrite app_assoc in W, N. rewrite name_last in N. unfold working_dir in W. rewrite removelast_last, name_last, removelast_last in W. cbn in W. auto. }
    destruct X as [-> ->]. replace (splitext (b ++ ".json")) with b; [reflexivity|]. symmetry. apply base_split. left. exists "json".
    split; [reflexivity|]. split; [|exact D]. intro X. apply has_dot_part in X. discriminate.
Qed.

(** ** Cleaning *)

Lemma prefix_path_iff d q : prefix_path d q = true <-> within d q.
Proof.
  revert q. induction d as [|c d IH]; intro q; [split; [exists q; reflexivity|reflexivity]|]. destruct q as [|x q]; cbn [prefix_path].
  - split; [discriminate|]. intros (r & H). discriminate.
  - rewrite andb_true_iff, IH, String.eqb_eq. split; [intros [-> (r & ->)]; exists r; reflexivity|]. intros (r & H). injection H as -> ->. split; [reflexivity|exists r; reflexivity].
Qed.
Lemma remove_all l : forall (fs : fsys) q, fold_left (remove_tree E) l fs q = if existsb (fun d => prefix_path d q) l then None else fs q.
Proof.
  induction l as [|d l IH]; intros fs q; cbn [fold_left existsb]; [reflexivity|]. rewrite IH. unfold remove_tree.
  destruct (prefix_path d q); cbn [orb]; [destruct (existsb _ l); reflexivity|reflexivity].
Qed.
Lemma tmp_iff so q : existsb (fun d => prefix_path d q) (tmp_dirs so) = true <-> result_place (so_root so) q.
Proof.
  unfold tmp_dirs, result_place. rewrite existsb_exists. setoid_rewrite prefix_path_iff. split.
  - intros (x & I & W). apply in_map_iff in I as (y & <- & [<-|[<-|[<-|[<-|[]]]]]).
    + right. exact W.
    + left. exact W.
    + right. eapply within_trans; [|exact W]. exists [SetupModel.counted (so_base so)]. rewrite <- app_assoc. reflexivity.
    + left. eapply within_trans; [|exact W]. exists [SetupModel.counted (so_base so)]. rewrite <- app_assoc. reflexivity.
  - intros [W|W]; [exists (so_root so ++ ["_results"])%list|exists (so_root so ++ ["_plots"])%list]; (split; [apply in_map_iff; eexists; split; [reflexivity|cbn; tauto]|exact W]).
Qed.
Theorem clean_thm fs p root name base fs' r : project_of p root name -> base_of name base -> clean_project E fs p = (fs', r) ->
  (r = Ok tt -> forall q, result_place root q -> fs' q = None) /\
  (forall q, fs' q = fs q \/ (fs q = None /\ fs' q = Some NDir /\ start_dir root base q) \/ (r = Ok tt /\ result_place root q)).
Proof.
  intros P B H. unfold clean_project in H. destruct (load_settings E fs p) as [fs1 rs] eqn:L.
  destruct (load_settings_cases E _ _ _ _ L) as [(e & RS & -> & ->)|(so & RS & X & D)].
  - injection H as <- <-. split; [discriminate|auto].
  - destruct (read_settings_ok E _ _ _ _ _ _ P B RS) as (RT & BS & _). rewrite RT, BS in D. destruct X as [->|(e & ->)].
    + apply pair_equal_spec in H as [<- <-]. split.
      * intros _ q Q. rewrite remove_all. rewrite <- RT in Q. apply tmp_iff in Q. rewrite Q. reflexivity.
      * intro q. rewrite remove_all. destruct (existsb _ (tmp_dirs so)) eqn:T; [right; right; split; [reflexivity|]; rewrite <- RT; apply tmp_iff; exact T|].
        destruct (D q) as [Y|Y]; auto.
    + injection H as <- <-. split; [discriminate|]. intro q. destruct (D q); auto.
Qed.
Theorem clean_run fs p root name base fs' : decodes E -> real p -> project_of p root name -> base_of name base -> clear E fs root base ->
  clean_project E fs p = (fs', Ok tt) -> (forall q, input E fs p root q -> ~ result_place root q) ->
  snd (standard_run E fs' p) = snd (standard_run E fs p).
Proof.
  intros J RP P B K H I. destruct (clean_thm _ _ _ _ _ _ _ P B H) as [C1 C2]. symmetry. apply (run_inputs E fs fs' p root name base J RP P B K).
  - intros q c S. destruct (C2 q) as [Y|[(_ & Y & _)|[_ Y]]]; [rewrite Y; exact (K q c S)|rewrite Y; discriminate|rewrite (C1 eq_refl q Y); discriminate].
  - intros q Q. destruct (C2 q) as [Y|[(Y & Z & S)|[_ Y]]]; [auto| |destruct (I q Q Y)]. right. split; [exact S|]. intros ->.
    unfold clean_project, load_settings in H. destruct (read_failed fs p) as (e & RS); [congruence|]. rewrite RS in H. discriminate.
Qed.
End More.
