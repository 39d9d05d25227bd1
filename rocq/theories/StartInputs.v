(** Proofs about [StartModel]: a run depends only on its input files. *)
From Coq Require Import List String Ascii ZArith QArith Bool Lia.
From Verif Require Import PyBase PyVal PyFacts AircraftIOModel AircraftIOSpec StrFacts CliModel CpacsAircraftModel RunSpec StartModel StartSpec StartPaths StartProofs.
From Verif Require AircraftIOProofs SetupModel SetupProofs SettingsModel SettingsSpec SettingsProofs StateModel RunModel RunProofs CpacsAircraftProofs.
Import List ListNotations.
Open Scope string_scope.

(** Every airfoil name of the aircraft. *)
Definition names_airfoil (a : acdef) (n : string) : Prop :=
  exists ku w ks s pos, In (ku, w) (ad_wings a) /\ In (ks, s) (wd_segs w) /\ In pos ["inner"; "outer"] /\
    n = py_str (setting (sd_airfoils s) pos).

(** ** Names in the document *)

Lemma getitem_item v k x : getitem v k = Ok x -> SettingsSpec.item v k x.
Proof. apply SettingsProofs.getitem_iff. Qed.
Lemma iter_dict v l d : iter v = Ok l -> In (PDict d) l -> v = PList l.
Proof.
  intros H I. destruct v; cbn in H; try discriminate.
  - injection H as <-. exfalso. induction s as [|c s IH]; cbn in I; [exact I|]. destruct I as [I|I]; [discriminate|auto].
  - injection H as <-. reflexivity.
  - injection H as <-. exfalso. apply in_map_iff in I as (k & K & _). discriminate.
Qed.
Lemma item_dict_of v k x : SettingsSpec.item v k x -> exists d, v = PDict d.
Proof. intros (d & -> & _). eauto. Qed.
Lemma parse_list_in {V} (f : dict V -> pyval -> res (dict V)) (I : dict V -> Prop) l : forall acc r,
  (forall acc e acc', In e l -> f acc e = Ok acc' -> I acc -> I acc') -> parse_list f acc l = Ok r -> I acc -> I r.
Proof.
  induction l as [|e l IH]; intros acc r H P A; cbn [parse_list] in P; [injection P as <-; exact A|].
  apply AircraftIOProofs.bind_ok in P as (acc' & F & P). apply (IH acc'); [|exact P|].
  - intros a x a' X. apply H. right. exact X.
  - apply (H acc e); [left; reflexivity|exact F|exact A].
Qed.
Lemma dset_in {V} (d : dict V) k v k' v' : In (k', v') (dset d k v) -> In (k', v') d \/ (k' = k /\ v' = v).
Proof.
  induction d as [|[k0 v0] d IH]; cbn [dset]; [intros [H|[]]; injection H as <- <-; auto|].
  destruct (String.eqb_spec k k0) as [<-|N]; intros [H|H].
  - injection H as <- <-. auto.
  - left. right. exact H.
  - left. left. exact H.
  - destruct (IH H) as [X|X]; [left; right; exact X|auto].
Qed.
Lemma load_airfoils_in root d : forall acc r k v, load_airfoils root d acc = Ok r -> In (k, v) r ->
  In (k, v) acc \/ exists s, In (k, PStr s) d /\ v = PStr (if String.prefix AIRFOILS s then path_join root s else s).
Proof.
  induction d as [|[k0 v0] d IH]; intros acc r k v H I; cbn [load_airfoils] in H; [injection H as <-; auto|].
  apply AircraftIOProofs.bind_ok in H as (v' & L & H). destruct (IH _ _ _ _ H I) as [X|(s & X & ->)].
  - apply dset_in in X as [X|[-> ->]]; [auto|]. right. destruct v0; try discriminate. injection L as <-. exists s. split; [left; reflexivity|reflexivity].
  - right. exists s. split; [right; exact X|reflexivity].
Qed.
Lemma dset_keys_in {V} (d : dict V) k v k' : In k' (dkeys d) \/ k' = k -> In k' (dkeys (dset d k v)).
Proof.
  intros [H| ->].
  - destruct (String.string_dec k' k) as [->|N].
    + rewrite dset_keys_mem; [exact H|]. intro X. apply dget_None in X. contradiction.
    + destruct (dget d k) eqn:G; [rewrite dset_keys_mem; [exact H|congruence]|]. rewrite (dset_fresh _ _ _ G). unfold dkeys. rewrite map_app. apply in_or_app. left. exact H.
  - destruct (dget d k) eqn:G; [rewrite dset_keys_mem by congruence|].
    + destruct (in_dec String.string_dec k (dkeys d)) as [I|I]; [exact I|]. apply dget_None in I. congruence.
    + rewrite (dset_fresh _ _ _ G). unfold dkeys. rewrite map_app. apply in_or_app. right. left. reflexivity.
Qed.
Lemma dget_in {V} (d : dict V) k v : dget d k = Some v -> In (k, v) d.
Proof.
  induction d as [|[k0 v0] d IH]; cbn; [discriminate|]. destruct (String.eqb_spec k k0) as [->|N]; [intro H; injection H as ->; auto|auto].
Qed.

Section Names.
Variable none_ok int_ok : bool.
Variable root : string.
Definition seg_from (doc : pyval) (s : segdef) : Prop :=
  exists ws w sl sg ad, SettingsSpec.item doc "wings" (PList ws) /\ In w ws /\ SettingsSpec.item w "segments" (PList sl) /\ In sg sl /\
    SettingsSpec.item sg "airfoils" (PDict ad) /\ load_airfoils root ad new_airfoils = Ok (sd_airfoils s).
Lemma parse_from doc a : AircraftIOModel.parse none_ok int_ok root doc = Ok a ->
  forall ku w ks s, In (ku, w) (ad_wings a) -> In (ks, s) (wd_segs w) -> seg_from doc s.
Proof.
  unfold AircraftIOModel.parse. intro H. apply AircraftIOProofs.bind_ok in H as (u & _ & H). apply AircraftIOProofs.bind_ok in H as (uid & _ & H).
  apply AircraftIOProofs.bind_ok in H as (refs & _ & H). apply AircraftIOProofs.bind_ok in H as (wv & WV & H). apply AircraftIOProofs.bind_ok in H as (wl & WL & H).
  apply AircraftIOProofs.bind_ok in H as (ws & PW & H). injection H as <-. cbn [ad_wings]. apply getitem_item in WV.
  apply (parse_list_in (parse_wing none_ok int_ok root) (fun ws => forall ku w ks s, In (ku, w) ws -> In (ks, s) (wd_segs w) -> seg_from doc s) wl [] ws); [|exact PW|intros ? ? ? ? []].
  intros acc e acc' Ie PE IH. unfold parse_wing in PE.
  apply AircraftIOProofs.bind_ok in PE as (u1 & U & PE). apply AircraftIOProofs.bind_ok in PE as (uid1 & _ & PE). apply AircraftIOProofs.bind_ok in PE as (sy & _ & PE).
  destruct (negb (symmetry_ok sy)); [discriminate|].
  apply AircraftIOProofs.bind_ok in PE as (sv & SV & PE). apply AircraftIOProofs.bind_ok in PE as (sl & SL & PE). apply AircraftIOProofs.bind_ok in PE as (segs & PS & PE).
  apply AircraftIOProofs.bind_ok in PE as (cv & _ & PE). apply AircraftIOProofs.bind_ok in PE as (cl & _ & PE). apply AircraftIOProofs.bind_ok in PE as (ctls & _ & PE).
  injection PE as <-. apply getitem_item in U, SV. destruct (item_dict_of _ _ _ U) as [ed ->].
  rewrite (iter_dict _ _ _ WL Ie) in WV.
  intros ku w ks s Iw Is. apply dset_in in Iw as [Iw|[_ ->]]; [exact (IH _ _ _ _ Iw Is)|]. cbn [wd_segs] in Is. revert ks s Is. 
  apply (parse_list_in (parse_segment root) (fun segs => forall ks s, In (ks, s) segs -> seg_from doc s) sl [] segs); [|exact PS|intros ? ? []].
  intros acc1 e1 acc1' Ie1 PE1 IH1. unfold parse_segment in PE1.
  apply AircraftIOProofs.bind_ok in PE1 as (u2 & U2 & PE1). apply AircraftIOProofs.bind_ok in PE1 as (uid2 & _ & PE1). apply AircraftIOProofs.bind_ok in PE1 as (vs & _ & PE1).
  apply AircraftIOProofs.bind_ok in PE1 as (g & _ & PE1). apply AircraftIOProofs.bind_ok in PE1 as (av & AV & PE1). apply AircraftIOProofs.bind_ok in PE1 as (ad & AD & PE1).
  apply AircraftIOProofs.bind_ok in PE1 as (af & AF & PE1). apply AircraftIOProofs.bind_ok in PE1 as (pp & _ & PE1). injection PE1 as <-.
  apply getitem_item in U2, AV. destruct (item_dict_of _ _ _ U2) as [ed1 ->]. destruct av; try discriminate. injection AD as ->.
  rewrite (iter_dict _ _ _ SL Ie1) in SV.
  intros ks s Is. apply dset_in in Is as [Is|[_ ->]]; [exact (IH1 _ _ Is)|]. exists wl, (PDict ed), sl, (PDict ed1), ad. cbn [sd_airfoils]. auto 10.
Qed.
Lemma parse_names doc a n : AircraftIOModel.parse none_ok int_ok root doc = Ok a -> names_airfoil a n ->
  n = "None" \/ exists s, mentions doc s /\ ((begins "airfoils" s /\ n = path_join root s) \/ (~ begins "airfoils" s /\ n = s)).
Proof.
  intros H (ku & w & ks & s & pos & I & J & _ & ->). destruct (parse_from _ _ H _ _ _ _ I J) as (ws & w' & sl & sg & ad & A & B & C0 & D & F & L).
  unfold setting. destruct (dget (sd_airfoils s) pos) as [v|] eqn:G; [|left; reflexivity]. apply dget_in in G.
  destruct (load_airfoils_in _ _ _ _ _ _ L G) as [X|(t & X & ->)].
  - left. cbn in X. destruct X as [X|[X|[]]]; injection X as _ <-; reflexivity.
  - right. exists t. split; [exists ws, w', sl, sg, ad, pos; auto 10|]. cbn [py_str]. destruct (String.prefix AIRFOILS t) eqn:P.
    + left. split; [apply prefix_iff; exact P|reflexivity].
    + right. split; [|reflexivity]. intro Y. apply prefix_iff in Y. unfold AIRFOILS in P. congruence.
Qed.
End Names.

(** ** [generate] looks only at these names *)

Section Gen.
Variable none_ok int_ok : bool.
Variable parse_float : string -> res (option Q).
Variable derive : list pyval -> pyval -> pyval -> res (string -> option Q).
Variable finish_wing : list segdef -> res unit.
Lemma bind_ext {A B} (x : res A) (f g : A -> res B) : (forall a, x = Ok a -> f a = g a) -> bind x f = bind x g.
Proof. destruct x; cbn; auto. Qed.
Lemma generate_list_ext {V} (f g : V -> res V) d : (forall k x, In (k, x) d -> f x = g x) -> generate_list f d = generate_list g d.
Proof.
  induction d as [|[k x] d IH]; intro H; cbn [generate_list]; [reflexivity|]. rewrite (H k x (or_introl eq_refl)), (IH (fun k x I => H k x (or_intror I))). reflexivity.
Qed.
Lemma generate_segment_ext i1 i2 s :
  i1 (py_str (setting (sd_airfoils s) "inner")) (py_str (setting (sd_airfoils s) "outer")) = i2 (py_str (setting (sd_airfoils s) "inner")) (py_str (setting (sd_airfoils s) "outer")) ->
  generate_segment none_ok int_ok derive i1 s = generate_segment none_ok int_ok derive i2 s.
Proof.
  intro H. unfold generate_segment.
  repeat match goal with |- bind ?x ?f = bind ?x ?g => apply bind_ext; intros ? ? | |- (if ?b then _ else _) = _ => destruct b; [reflexivity|] end.
  match goal with A : getitem _ "inner" = Ok ?x, B : getitem _ "outer" = Ok ?y |- _ => 
    assert (X : setting (sd_airfoils s) "inner" = x) by (apply getitem_item in A as (d & D & G); injection D as <-; unfold setting; rewrite G; reflexivity);
    assert (Y : setting (sd_airfoils s) "outer" = y) by (apply getitem_item in B as (d & D & G); injection D as <-; unfold setting; rewrite G; reflexivity) end.
  rewrite X, Y in H. rewrite H. reflexivity.
Qed.
Lemma generate_ext i1 i2 a : (forall x y, names_airfoil a x -> names_airfoil a y -> i1 x y = i2 x y) ->
  generate none_ok int_ok parse_float derive i1 finish_wing a = generate none_ok int_ok parse_float derive i2 finish_wing a.
Proof.
  intro H. unfold generate. apply bind_ext. intros refs _. f_equal. apply generate_list_ext. intros ku w I. unfold generate_wing. f_equal.
  apply generate_list_ext. intros ks s J. apply generate_segment_ext. apply H; exists ku, w, ks, s; eexists; (split; [exact I|]; split; [exact J|]; split; [|reflexivity]); cbn; auto.
Qed.
Lemma generate_names ia a a' n : generate none_ok int_ok parse_float derive ia finish_wing a = Ok a' -> names_airfoil a' n -> names_airfoil a n.
Proof.
  unfold generate. intros H (ku & w & ks & s & pos & I & J & P & ->). apply AircraftIOProofs.bind_ok in H as (refs & _ & H). apply AircraftIOProofs.bind_ok in H as (ws & G & H).
  injection H as <-. cbn [ad_wings] in I. destruct (AircraftIOProofs.generate_list_keys _ _ _ G) as [_ A]. destruct (A _ _ I) as (w0 & I0 & GW).
  unfold generate_wing in GW. apply AircraftIOProofs.bind_ok in GW as (segs & GS & GW). apply AircraftIOProofs.bind_ok in GW as (u & _ & GW). injection GW as <-. cbn [wd_segs] in J.
  destruct (AircraftIOProofs.generate_list_keys _ _ _ GS) as [_ A']. destruct (A' _ _ J) as (s0 & J0 & G').
  assert (X : sd_airfoils s = sd_airfoils s0).
  { unfold generate_segment in G'. repeat (apply AircraftIOProofs.bind_ok in G' as (? & _ & G')). 
    match type of G' with (if ?b then _ else _) = _ => destruct b; [discriminate|] end. repeat (apply AircraftIOProofs.bind_ok in G' as (? & _ & G')).
    match type of G' with (if ?b then _ else _) = _ => destruct b; [discriminate|] end. repeat (apply AircraftIOProofs.bind_ok in G' as (? & _ & G')).
    injection G' as <-. reflexivity. }
  exists ku, w0, ks, s0, pos. rewrite X. auto.
Qed.
End Gen.

(** ** Two file systems *)

Section Two.
Variable E : env.
Notation fsys := (fsys E).
Definition agree (S : path -> Prop) (fs1 fs2 : fsys) : Prop := forall q, S q -> fs1 q = fs2 q.

Lemma agree_put S fs1 fs2 p n : agree S fs1 fs2 -> agree S (put E fs1 p n) (put E fs2 p n).
Proof. intros A q Q. unfold put. destruct (path_eqb q p); [reflexivity|exact (A q Q)]. Qed.
Lemma start_dir_dec so q : start_dir (so_root so) (so_base so) q \/ ~ start_dir (so_root so) (so_base so) q.
Proof.
  rewrite start_dirs. generalize (project_dirs so). intro l. induction l as [|x l IH]; [right; intros (? & [] & _)|].
  destruct (above_dec [] x q) as [A|A]; [left; exists x; split; [left; reflexivity|exact A]|].
  destruct IH as [(y & I & B)|B]; [left; exists y; split; [right; exact I|exact B]|]. right. intros (y & [<-|I] & D); [contradiction|]. apply B. eauto.
Qed.
Lemma start_agree (S : path -> Prop) fs1 fs2 p so : read_settings E fs1 p = Ok so -> read_settings E fs2 p = Ok so ->
  clear E fs1 (so_root so) (so_base so) -> clear E fs2 (so_root so) (so_base so) -> (forall q, S q -> fs1 q = fs2 q \/ (start_dir (so_root so) (so_base so) q /\ q <> p)) ->
  exists g1 g2, load_settings E fs1 p = (g1, Ok so) /\ load_settings E fs2 p = (g2, Ok so) /\ agree S g1 g2 /\
    (forall q, start_dir (so_root so) (so_base so) q -> g1 q = Some NDir) /\ (forall q, ~ start_dir (so_root so) (so_base so) q -> g1 q = fs1 q).
Proof.
  intros R1 R2 K1 K2 A. destruct (load_settings_clear E _ _ _ R1 K1) as (g1 & L1 & D1). destruct (load_settings_clear E _ _ _ R2 K2) as (g2 & L2 & D2).
  exists g1, g2. split; [exact L1|]. split; [exact L2|]. split; [|split; intro q; apply D1].
  intros q Q. destruct (start_dir_dec so q) as [X|X].
  - rewrite (proj1 (D1 q) X), (proj1 (D2 q) X). reflexivity.
  - rewrite (proj2 (D1 q) X), (proj2 (D2 q) X). destruct (A q Q) as [Y|[Y _]]; [exact Y|contradiction].
Qed.
Lemma profiles_agree S files : forall fs1 fs2, agree S fs1 fs2 ->
  agree (fun q => S q \/ exists k, In k (dkeys files) /\ q = resolve [] k) (write_profiles E fs1 files) (write_profiles E fs2 files).
Proof.
  unfold write_profiles. revert S. induction files as [|[k e] files IH]; intros S fs1 fs2 A; cbn [fold_left].
  - intros q [Q|(k & [] & _)]. exact (A q Q).
  - intros q Q. cbn [fst snd]. 
    assert (X : agree (fun q => S q \/ q = resolve [] k) (put E fs1 (resolve [] k) (NFile (profile_text E e))) (put E fs2 (resolve [] k) (NFile (profile_text E e)))).
    { intros q' [Q'| ->]; [apply (agree_put S _ _ _ _ A q' Q')|]. rewrite !put_same. reflexivity. }
    refine (_ (IH _ _ _ X q _)); [intro Y; exact Y|]. destruct Q as [Q|(k' & [<-|I] & ->)]; [auto|auto|]. right. exists k'. auto.
Qed.
Lemma source_agree fs1 fs2 n : fs1 (resolve (cwd E) n) = fs2 (resolve (cwd E) n) -> airfoil_source E fs1 n = airfoil_source E fs2 n.
Proof. intro H. unfold airfoil_source. rewrite H. reflexivity. Qed.
Lemma import_agree fs1 fs2 x y : fs1 (resolve (cwd E) x) = fs2 (resolve (cwd E) x) -> fs1 (resolve (cwd E) y) = fs2 (resolve (cwd E) y) ->
  import_airfoils E fs1 x y = import_airfoils E fs2 x y.
Proof. intros A B. unfold import_airfoils. rewrite (source_agree _ _ _ A), (source_agree _ _ _ B). reflexivity. Qed.
Lemma profiles_same fs1 fs2 a : (forall n, names_airfoil a n -> fs1 (resolve (cwd E) n) = fs2 (resolve (cwd E) n)) -> profiles E fs1 a = profiles E fs2 a.
Proof.
  intro H. unfold profiles. apply map_ext_in. intros [ku w] I. apply map_ext_in. intros [ks s] J. cbn [snd] in *.
  rewrite !(source_agree fs1 fs2); [reflexivity| |]; apply H; exists ku, w, ks, s; eexists; (split; [exact I|]; split; [exact J|]; split; [|reflexivity]); cbn; auto.
Qed.

(** The airfoils of a CPACS aircraft are among the files that are written. *)
Lemma foils_key root l : forall files i k f, nth_error l k = Some f -> In (airfoil_file root (foil_name (i + k) f)) (dkeys (airfoil_files root files i l)).
Proof.
  assert (K : forall l files i k, In k (dkeys files) -> In k (dkeys (airfoil_files root files i l))).
  { clear. induction l as [|g l IH]; intros files i k I; cbn [airfoil_files]; [exact I|]. apply IH. apply dset_keys_in. auto. }
  induction l as [|g l IH]; intros files i [|k] f N; cbn [nth_error airfoil_files] in *; try discriminate.
  - injection N as ->. rewrite Nat.add_0_r. apply K. apply dset_keys_in. auto.
  - replace (i + S k)%nat with (S i + k)%nat by lia. apply IH. exact N.
Qed.
Lemma segment_foil root l idx n : segment_airfoil root l idx = Ok n -> In n (dkeys (airfoil_files root [] 1 l)) /\ exists m, has_slash m = false /\ n = airfoil_file root m.
Proof.
  unfold segment_airfoil, profile_name. intro H. destruct (nth_error l idx) as [f|] eqn:F; [|discriminate]. cbn [bind] in H.
  destruct (cf_name f) as [n0|] eqn:N; [|discriminate]. destruct (String.eqb (parse_str n0) ""); [discriminate|]. injection H as <-. split.
  - assert (X := foils_key root l [] 1 idx f F). unfold foil_name in X. rewrite N in X. exact X.
  - exists (parse_str n0). split; [apply CpacsAircraftProofs.kept_no_slash|reflexivity].
Qed.
Lemma cpacs_names none_ok int_ok root locate d u refs ws n : aircraft_wings none_ok int_ok root locate d = Ok ws ->
  names_airfoil (mkAD u refs ws) n -> In n (dkeys (airfoil_files root [] 1 (cd_foils d))) /\ exists m, has_slash m = false /\ n = airfoil_file root m.
Proof.
  unfold aircraft_wings. intros H (ku & w & ks & s & pos & I & J & P & ->). cbn [ad_wings] in I. destruct (cd_wings d) as [l|]; [|discriminate].
  destruct (CpacsAircraftProofs.read_wings_ok _ _ _ _ _ _ _ _ _ H) as (r & B & N & _). change (CpacsAircraftProofs.bare_wings [] ++ r)%list with r in B.
  assert (Iw : In (ku, CpacsAircraftProofs.bare_wing w) r).
  { rewrite <- B. unfold CpacsAircraftProofs.bare_wings. apply in_map_iff. exists (ku, w). split; [reflexivity|exact I]. }
  destruct (CpacsAircraftProofs.numbered_in _ _ _ _ _ N Iw) as (i & cw & WR).
  destruct (CpacsAircraftProofs.wing_segments _ _ _ _ _ _ WR) as (sl & _ & NS & _). cbn [snd] in NS.
  change (wd_segs (CpacsAircraftProofs.bare_wing w)) with (wd_segs w) in NS.
  destruct (CpacsAircraftProofs.numbered_in _ _ _ _ _ NS J) as (k & cs & fi & fo & A & B' & X & _). injection X as _ ->.
  destruct P as [<-|[<-|[]]]; cbn [setting CpacsAircraftProofs.seg_of sd_airfoils dget String.eqb Ascii.eqb Bool.eqb py_str]; eauto using segment_foil.
Qed.

(** ** A whole run *)

Lemma resolve_join d root t : real root -> begins "airfoils" t -> resolve d (path_join (render root) t) = resolve root t.
Proof.
  intros R (y & ->). destruct (join_render root ("airfoils" ++ y) R) as (pre & A & B); [reflexivity|discriminate|].
  rewrite (resolve_abs d _ (root ++ components ("airfoils" ++ y))%list); [|exact B|rewrite A; discriminate].
  rewrite fold_left_app, (fold_plain root R). reflexivity.
Qed.
Section Run.
Variable fs1 fs2 : fsys.
Variable p root : path.
Variable name : string.
Variable so : sobj.
Hypothesis J : decodes E.
Hypothesis RP : real p.
Hypothesis P : project_of p root name.
Hypothesis RS : read_settings E fs1 p = Ok so.
Let S := input E fs1 p root.

Lemma the_base : exists base, base_of name base.
Proof. eexists. apply base_exists. Qed.
Lemma root_is : so_root so = root.
Proof. destruct the_base as [b B]. apply (read_settings_ok E _ _ _ _ _ _ P B RS). Qed.
Lemma aircraft_in : S (f_aircraft E so).
Proof. destruct the_base as [b B]. apply in_aircraft. exact (proj1 (aircraft_named E _ _ _ _ _ _ J P B RS)). Qed.
Lemma aircraft_kind : (so_cpacs so = true <-> is_xml (f_aircraft E so)) /\ (so_cpacs so = false <-> is_json (f_aircraft E so)).
Proof. destruct the_base as [b B]. exact (proj2 (aircraft_named E _ _ _ _ _ _ J P B RS)). Qed.
Lemma aircraft_not_log : f_aircraft E so <> f_log so.
Proof.
  intro H. assert (X : ~ is_xml (f_log so) /\ ~ is_json (f_log so)).
  { rewrite xml_iff, json_iff. unfold f_log. rewrite name_last. split; discriminate. }
  rewrite <- H in X. destruct aircraft_kind as [A B]. destruct (so_cpacs so); [apply (proj1 X), A|apply (proj2 X), B]; reflexivity.
Qed.

(** The file systems after the start. *)
Variable h1 h2 : fsys.
Hypothesis A : agree S h1 h2.
Hypothesis D1 : forall q, h1 q = Some NDir \/ h1 q = fs1 q \/ q = f_log so.

Lemma native_name c doc a n : so_cpacs so = false -> h1 (f_aircraft E so) = Some (NFile c) -> json E c = Ok doc ->
  AircraftIOModel.parse (none_ok E) (int_ok E) (render (so_root so)) doc = Ok a -> names_airfoil a n -> S (resolve (cwd E) n).
Proof.
  intros K F D Pa N. assert (RR := proj1 (project_real _ _ _ P RP)). rewrite root_is in Pa.
  assert (F1 : fs1 (f_aircraft E so) = Some (NFile c)).
  { destruct (D1 (f_aircraft E so)) as [X|[X|X]]; [congruence|congruence|]. exfalso. exact (aircraft_not_log X). }
  destruct the_base as [b B]. apply (in_airfoil E fs1 p root (f_aircraft E so) c doc); [|apply aircraft_kind; exact K|exact F1|exact D|].
  - exact (proj1 (aircraft_named E _ _ _ _ _ _ J P B RS)).
  - destruct (parse_names _ _ _ _ _ _ Pa N) as [->|(t & M & [[X ->]|[X ->]])]; [apply ap_missing| |apply ap_other; assumption].
    rewrite (resolve_join _ _ _ RR X). apply ap_project; assumption.
Qed.
Local Opaque generate AircraftIOModel.parse import_airfoils profiles airfoil_source aircraft_wings airfoil_files write_profiles read_refs aircraft_name.
Lemma native_agree : so_cpacs so = false -> load_native E h1 so = load_native E h2 so /\
  forall a, load_native E h1 so = Ok a -> profiles E h1 a = profiles E h2 a.
Proof.
  intro K. unfold load_native. assert (X := A _ aircraft_in). rewrite <- X. destruct (h1 (f_aircraft E so)) as [[|c]|] eqn:F; [split; [reflexivity|discriminate]| |split; [reflexivity|discriminate]].
  destruct (json E c) as [doc|e] eqn:D; cbn [bind]; [|split; [reflexivity|discriminate]]. unfold load.
  destruct (AircraftIOModel.parse (none_ok E) (int_ok E) (render (so_root so)) doc) as [a0|e] eqn:Pa; cbn [bind]; [|split; [reflexivity|discriminate]].
  assert (Q : forall n, names_airfoil a0 n -> h1 (resolve (cwd E) n) = h2 (resolve (cwd E) n)) by (intros n N; apply A; exact (native_name _ _ _ _ K F D Pa N)).
  split.
  - apply generate_ext. intros x y Nx Ny. apply import_agree; auto.
  - intros a G. apply profiles_same. intros n N. apply Q. exact (generate_names _ _ _ _ _ _ _ _ _ G N).
Qed.
Lemma cpacs_agree : forall k1 r1 k2 r2, load_cpacs E h1 so = (k1, r1) -> load_cpacs E h2 so = (k2, r2) ->
  r1 = r2 /\ agree S k1 k2 /\ forall a, r1 = Ok a -> profiles E k1 a = profiles E k2 a.
Proof.
  intros k1 r1 k2 r2 H1 H2. assert (RR := proj1 (project_real _ _ _ P RP)). unfold load_cpacs in H1, H2. cbv zeta in H1, H2. assert (X := A _ aircraft_in). rewrite <- X in H2.
  assert (Triv : forall e, (h1, Err e) = (k1, r1) -> (h2, Err e) = (k2, r2) -> r1 = r2 /\ agree S k1 k2 /\ forall a, r1 = Ok a -> profiles E k1 a = profiles E k2 a).
  { intros e T1 T2. injection T1 as <- <-. injection T2 as <- <-. split; [reflexivity|]. split; [exact A|discriminate]. }
  destruct (h1 (f_aircraft E so)) as [[|c]|] eqn:F; [exact (Triv _ H1 H2)| |exact (Triv _ H1 H2)].
  destruct (cpacs_doc E c) as [d|e]; [|exact (Triv _ H1 H2)].
  destruct (aircraft_name d) as [u|e]; cbn [bind] in H1, H2; [|exact (Triv _ H1 H2)].
  destruct (aircraft_wings (none_ok E) (int_ok E) (render (so_root so)) (locate E) d) as [ws|e] eqn:AW; cbn [bind] in H1, H2; [|exact (Triv _ H1 H2)].
  clear Triv. injection H1 as <- <-. injection H2 as <- <-. set (files := airfoil_files (render (so_root so)) [] 1 (cd_foils d)) in *.
  assert (AG := profiles_agree S files h1 h2 A). set (k1 := write_profiles E h1 files) in *. set (k2 := write_profiles E h2 files) in *.
  assert (Q : forall refs n, names_airfoil (mkAD u refs ws) n -> k1 (resolve (cwd E) n) = k2 (resolve (cwd E) n)).
  { intros refs n N. destruct (cpacs_names _ _ _ _ _ _ _ _ _ AW N) as [I (m & M & ->)]. apply AG. right. eexists. split; [exact I|]. 
    rewrite root_is, !(resolve_blade _ _ _ RR M). reflexivity. }
  split; [|split].
  - destruct (read_refs (cd_refs d)) as [refs|e]; cbn [bind]; [|reflexivity]. apply generate_ext. intros x y Nx Ny. apply import_agree; eapply Q; eassumption.
  - intros q Sq. apply AG. auto.
  - intros a G. destruct (read_refs (cd_refs d)) as [refs|e]; cbn [bind] in G; [|discriminate]. apply profiles_same. intros n N. apply (Q refs).
    exact (generate_names _ _ _ _ _ _ _ _ _ G N).
Qed.
Lemma aircraft_agree : forall k1 r1 k2 r2, load_aircraft E h1 so = (k1, r1) -> load_aircraft E h2 so = (k2, r2) ->
  r1 = r2 /\ agree S k1 k2 /\ forall a, r1 = Ok a -> profiles E k1 a = profiles E k2 a.
Proof.
  intros k1 r1 k2 r2. unfold load_aircraft. destruct (so_cpacs so) eqn:K; [apply cpacs_agree|].
  intros H1 H2. injection H1 as <- <-. injection H2 as <- <-. destruct (native_agree K) as [X Y]. split; [exact X|]. split; [exact A|exact Y].
Qed.
Lemma settings_good : SettingsSpec.settings_ok (so_dict so).
Proof. destruct the_base as [b B]. apply (read_settings_ok E _ _ _ _ _ _ P B RS). Qed.
Lemma state_given : exists s, setting (so_dict so) "state" = PStr s /\ gives E fs1 p "state" (PStr s).
Proof.
  destruct settings_good as (_ & T & _). apply typed_str in T as [x T]. exists x. split; [exact T|].
  destruct (read_gives E _ _ _ "state" J RS) as [(v & G & X)|[_ X]]; [discriminate|rewrite T in X; subst v; exact G|]. rewrite T in X. discriminate.
Qed.
Lemma state_agree k1 k2 : agree S k1 k2 -> load_state E k1 so = load_state E k2 so.
Proof.
  intro Ak. unfold load_state. destruct state_given as (s & X & G). unfold state_is_cpacs. rewrite X.
  destruct (String.eqb_spec (upper s) "__CPACS") as [U|U].
  - destruct (so_cpacs so); [|reflexivity]. cbn [bind]. rewrite (Ak _ aircraft_in). reflexivity.
  - cbn [bind]. assert (I : S (f_state E so)).
    { unfold f_state. rewrite X, root_is. cbn [fstr]. apply in_state; [exact G|]. intro Q. apply U. apply text_upper in Q. rewrite Q. reflexivity. }
    rewrite (Ak _ I). reflexivity.
Qed.
Lemma deformation_agree k1 k2 : agree S k1 k2 -> load_deformation E k1 so = load_deformation E k2 so.
Proof.
  intro Ak. unfold load_deformation. destruct (truthy (setting (so_dict so) "deformation")) eqn:X; [|reflexivity].
  assert (I : S (f_deformation E so)).
  { unfold f_deformation. rewrite root_is. destruct (read_gives E _ _ _ "deformation" J RS) as [(v & G & Y)|[_ Y]]; [discriminate| |].
    - rewrite Y in *. apply in_deformation; [exact G|]. apply SettingsProofs.truthy_not. exact X.
    - rewrite Y in X. discriminate. }
  rewrite (Ak _ I). reflexivity.
Qed.
Lemma run_agree k1 k2 st w : agree S k1 k2 -> snd (run_project E k1 so st w) = snd (run_project E k2 so st w).
Proof.
  intro Ak. unfold run_project. cbv zeta. rewrite (Ak _ aircraft_in). 
  destruct (RunModel.run _ _ _ _ _ _ _ _ _ _ _ _ _) as [t r]. destruct (StateModel.iter_states (parse E) st) as [rows last]. reflexivity.
Qed.
End Run.

Theorem run_inputs fs1 fs2 p root name base : decodes E -> real p -> project_of p root name -> base_of name base ->
  clear E fs1 root base -> clear E fs2 root base -> (forall q, input E fs1 p root q -> fs1 q = fs2 q \/ (start_dir root base q /\ q <> p)) ->
  snd (standard_run E fs1 p) = snd (standard_run E fs2 p).
Proof.
  intros J RP P B K1 K2 A. assert (RR : read_settings E fs1 p = read_settings E fs2 p).
  { unfold read_settings. destruct (A p (in_settings _ _ _ _)) as [X|[_ X]]; [rewrite X; reflexivity|congruence]. }
  destruct (read_settings E fs1 p) as [so|e] eqn:RS.
  - symmetry in RR. destruct (read_settings_ok E _ _ _ _ _ _ P B RS) as (RT & BS & _). subst root base.
    destruct (start_agree (input E fs1 p (so_root so)) _ _ _ _ RS RR K1 K2 A) as (g1 & g2 & L1 & L2 & Ag & D1 & D2).
    unfold standard_run. rewrite L1, L2. unfold load_project. cbv zeta.
    set (h1 := put E g1 (f_log so) (NFile (log_text E))). set (h2 := put E g2 (f_log so) (NFile (log_text E))).
    assert (Ah : agree (input E fs1 p (so_root so)) h1 h2) by (apply agree_put; exact Ag).
    assert (Dh : forall q, h1 q = Some NDir \/ h1 q = fs1 q \/ q = f_log so).
    { intro q. destruct (list_eq_dec string_dec q (f_log so)) as [X|X]; [auto|]. unfold h1. rewrite (put_other _ _ _ _ _ X).
      destruct (start_dir_dec so q) as [Y|Y]; [left; exact (D1 q Y)|right; left; exact (D2 q Y)]. }
    destruct (load_aircraft E h1 so) as [k1 r1] eqn:LA1. destruct (load_aircraft E h2 so) as [k2 r2] eqn:LA2.
    destruct (aircraft_agree fs1 p (so_root so) name so J RP P RS h1 h2 Ah Dh _ _ _ _ LA1 LA2) as (<- & Ak & PF).
    destruct r1 as [a|e]; cbn [bind]; [|reflexivity]. rewrite (state_agree fs1 p (so_root so) name so J P RS k1 k2 Ak). destruct (load_state E k2 so) as [st|e]; cbn [bind]; [|reflexivity].
    rewrite (deformation_agree fs1 p (so_root so) name so J P RS k1 k2 Ak). destruct (load_deformation E k2 so) as [def|e]; cbn [bind]; [|reflexivity].
    rewrite (PF a eq_refl). destruct (prepare E a (profiles E k2 a) def (so_dict so)) as [w|e]; cbn [bind]; [|reflexivity].
    exact (run_agree fs1 p (so_root so) name so J P RS k1 k2 st w Ak).
  - unfold standard_run, load_settings. rewrite RS, <- RR. reflexivity.
Qed.
End Two.
