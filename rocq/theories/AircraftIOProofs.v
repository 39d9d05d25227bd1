(** Proofs for the aircraft file (C34). *)
From Coq Require Import List String Ascii ZArith QArith Bool Lia.
From Verif Require Import PyBase PyFacts PyVal SchemaModel ControlModel ControlSpec ControlProofs AircraftIOModel AircraftIOSpec StrFacts.
Import ListNotations.
Open Scope string_scope.

(** ** Dictionaries *)

Lemma dset_id {V} (d : dict V) k v : dget d k = Some v -> dset d k v = d.
Proof.
  induction d as [|[k' v'] d IH]; cbn; [discriminate|]. destruct (String.eqb k k') eqn:E; intro H; [congruence|].
  rewrite IH by exact H. reflexivity.
Qed.

Lemma dset_app_l {V} (p : dict V) k v v0 q : ~ In k (dkeys p) -> dset (p ++ (k, v0) :: q)%list k v = (p ++ (k, v) :: q)%list.
Proof.
  induction p as [|[k' v'] p IH]; cbn; intro N.
  - rewrite String.eqb_refl. reflexivity.
  - destruct (String.eqb_spec k k') as [->|NE]; [exfalso; apply N; auto|]. rewrite IH; auto.
Qed.

Lemma dupdate_shape_gen {V} (d : dict V) : forall pre ini rest,
  dkeys d = (dkeys ini ++ rest)%list -> NoDup (dkeys pre ++ dkeys d)%list -> dupdate (pre ++ ini)%list d = (pre ++ d)%list.
Proof.
  induction d as [|[k v] d IH]; intros pre ini rest E N.
  - cbn in E. destruct ini; [reflexivity|discriminate].
  - assert (NK : ~ In k (dkeys pre)).
    { intro I. cbn in N. apply NoDup_remove_2 in N. apply N. apply in_or_app. left. exact I. }
    assert (N' : NoDup (dkeys (pre ++ [(k, v)]) ++ dkeys d)%list).
    { unfold dkeys in *. rewrite map_app. cbn. rewrite <- app_assoc. exact N. }
    change (dupdate (pre ++ ini)%list ((k, v) :: d)) with (dupdate (dset (pre ++ ini)%list k v) d).
    destruct ini as [|[k' v'] ini].
    + rewrite app_nil_r. rewrite dset_fresh by (apply dget_None; exact NK).
      rewrite <- (app_nil_r (pre ++ [(k, v)])%list). rewrite (IH _ [] (dkeys d)); [|reflexivity|exact N'].
      rewrite <- app_assoc. reflexivity.
    + cbn in E. injection E as -> E. rewrite dset_app_l by exact NK.
      replace (pre ++ (k', v) :: ini)%list with ((pre ++ [(k', v)]) ++ ini)%list by (rewrite <- app_assoc; reflexivity).
      rewrite (IH _ ini rest); [|exact E|exact N']. rewrite <- app_assoc. reflexivity.
Qed.

(** The keys begin with those of a new object; none occurs twice. *)
Definition shape {V} (ks : list string) (d : dict V) : Prop := (exists rest, dkeys d = (ks ++ rest)%list) /\ NoDup (dkeys d).

Lemma dupdate_shape {V} (ini d : dict V) : shape (dkeys ini) d -> dupdate ini d = d.
Proof. intros [[rest E] N]. apply (dupdate_shape_gen d [] ini rest E N). Qed.

Lemma shape_dset {V} ks (d : dict V) k v : shape ks d -> shape ks (dset d k v).
Proof.
  intros [[rest E] N]. split; [|apply dset_NoDup; exact N].
  destruct (dget d k) eqn:G.
  - exists rest. rewrite dset_keys_mem by congruence. exact E.
  - exists (rest ++ [k])%list. rewrite dset_fresh by exact G. unfold dkeys in *. rewrite map_app, E. cbn. rewrite app_assoc. reflexivity.
Qed.
Lemma shape_dupdate {V} ks (u d : dict V) : shape ks d -> shape ks (dupdate d u).
Proof.
  revert d. induction u as [|[k v] u IH]; intros d H; [exact H|].
  change (dupdate d ((k, v) :: u)) with (dupdate (dset d k v) u). apply IH, shape_dset, H.
Qed.
Lemma shape_get {V} ks (d : dict V) k : shape ks d -> In k ks -> exists v, dget d k = Some v.
Proof.
  intros [[rest E] _] I. destruct (dget d k) eqn:G; [eauto|]. apply dget_None in G. exfalso. apply G. rewrite E. apply in_or_app. auto.
Qed.
Lemma shape_nones ks : NoDup ks -> shape ks (nones ks).
Proof.
  intro N. assert (E : dkeys (nones ks) = ks) by (unfold dkeys, nones; rewrite map_map; apply map_id).
  split; [exists []; rewrite app_nil_r; exact E|rewrite E; exact N].
Qed.

Ltac nodup := repeat constructor; cbn; intuition discriminate.

Lemma bind_ok {A B} (x : res A) (f : A -> res B) r : bind x f = Ok r -> exists a, x = Ok a /\ f a = Ok r.
Proof. destruct x as [a|e]; cbn; intro H; [eauto|discriminate]. Qed.

Ltac binds H :=
  repeat match type of H with
  | bind ?x _ = Ok _ => let a := fresh "a" in let E := fresh "E" in apply bind_ok in H; destruct H as (a & E & H)
  end.

Section IO.
Variable none_ok int_ok : bool.
Variable root : string.
Variable parse_float : string -> res (option Q).
Variable derive : list pyval -> pyval -> pyval -> res (string -> option Q).
Variable import_airfoils : string -> string -> res unit.
Variable finish_wing : list segdef -> res unit.
Hypothesis Droot : directory root.

Let parse := parse none_ok int_ok root.
Let parse_wing := parse_wing none_ok int_ok root.
Let parse_segment := parse_segment root.
Let parse_control := parse_control none_ok int_ok.
Let generate := generate none_ok int_ok parse_float derive import_airfoils finish_wing.
Let generate_wing := generate_wing none_ok int_ok derive import_airfoils finish_wing.
Let generate_segment := generate_segment none_ok int_ok derive import_airfoils.
Let generate_refs := generate_refs none_ok int_ok parse_float.
Let load := load none_ok int_ok root parse_float derive import_airfoils finish_wing.

(** ** Well-formed objects *)
Definition wf_seg (s : segdef) : Prop :=
  shape ["a"; "b"; "c"; "d"] (sd_vertices s) /\ shape GEO_KEYS (sd_geometry s) /\
  shape ["inner"; "outer"] (sd_airfoils s) /\ shape ["num_c"; "num_s"] (sd_panels s).
Definition wf_ctl (sym : bool) (c : ctldef) : Prop :=
  shape ["inner"; "outer"] (cd_segment c) /\
  shape ["eta_inner"; "eta_outer"; "xsi_inner"; "xsi_outer"] (cd_rel c) /\
  shape ["xsi_inner"; "xsi_outer"] (cd_hinge c) /\
  dkeys (cd_panels c) = ["num_c"] /\
  (cd_device c = Some "slat" \/ cd_device c = Some "flap") /\
  check none_ok int_ok sym c = (c, Ok tt).
Definition named {V} (uid : V -> string) (P : V -> Prop) (d : dict V) : Prop :=
  NoDup (dkeys d) /\ forall k x, In (k, x) d -> uid x = k /\ k <> "" /\ P x.
Definition wf_wing (w : wingdef) : Prop :=
  symmetry_ok (wd_symmetry w) = true /\ named sd_uid wf_seg (wd_segs w) /\
  named cd_uid (wf_ctl (truthy (wd_symmetry w))) (wd_ctls w).
Definition wf (a : acdef) : Prop := shape REF_KEYS (ad_refs a) /\ named wd_uid wf_wing (ad_wings a).

Lemma named_nil {V} (uid : V -> string) P : named uid P [].
Proof. split; [constructor|intros k x []]. Qed.

Lemma named_add {V} (uid : V -> string) P d k x :
  named uid P d -> dget d k = None -> uid x = k -> k <> "" -> P x -> named uid P (dset d k x).
Proof.
  intros [N A] G U NE Px. split; [apply dset_NoDup; exact N|].
  rewrite dset_fresh by exact G.
  - intros k' x' I. apply in_app_or in I as [I|[I|[]]]; [auto|]. injection I as <- <-. auto.
Qed.

Lemma parse_list_inv {V} (f : dict V -> pyval -> res (dict V)) (I : dict V -> Prop) :
  (forall acc e acc', f acc e = Ok acc' -> I acc -> I acc') ->
  forall l acc r, parse_list f acc l = Ok r -> I acc -> I r.
Proof.
  intros H l. induction l as [|e l IH]; intros acc r E Ia; cbn in E; [injection E as <-; exact Ia|].
  binds E. eauto.
Qed.

Lemma new_uid_ok {V} (d : dict V) u s : new_uid d u = Ok s -> u = PStr s /\ dget d s = None /\ s <> "".
Proof.
  unfold new_uid. destruct (truthy u) eqn:T; cbn; [|discriminate]. destruct u; try discriminate.
  unfold dmem. destruct (dget d s0) eqn:G; [discriminate|]. intro H. injection H as <-. split; [reflexivity|]. split; [exact G|].
  intros ->. discriminate.
Qed.

Lemma copy_items_shape into e k d ks : copy_items into e k = Ok d -> shape ks into -> shape ks d.
Proof. unfold copy_items. intros H S. binds H. injection H as <-. apply shape_dupdate, S. Qed.
Lemma copy_optional_shape into e k d ks : copy_optional into e k = Ok d -> shape ks into -> shape ks d.
Proof.
  unfold copy_optional. intros H S. binds H. destruct (truthy a); [exact (copy_items_shape _ _ _ _ _ H S)|congruence].
Qed.
Lemma load_airfoils_shape ks d : forall acc r, load_airfoils root d acc = Ok r -> shape ks acc -> shape ks r.
Proof.
  induction d as [|[k v] d IH]; intros acc r H S; cbn in H; [congruence|]. binds H. eapply IH; [exact H|]. apply shape_dset, S.
Qed.

Lemma parse_segment_wf segs e segs' : parse_segment segs e = Ok segs' -> named sd_uid wf_seg segs -> named sd_uid wf_seg segs'.
Proof.
  unfold parse_segment, AircraftIOModel.parse_segment. intros H N. binds H. injection H as <-.
  apply new_uid_ok in E0 as (_ & G & NE). apply named_add; auto. repeat split; cbn.
  - apply (copy_items_shape _ _ _ _ ["a"; "b"; "c"; "d"] E1). apply shape_nones. nodup.
  - apply (copy_items_shape _ _ _ _ ["a"; "b"; "c"; "d"] E1). apply shape_nones. nodup.
  - apply (copy_optional_shape _ _ _ _ GEO_KEYS E2). apply shape_nones. nodup.
  - apply (copy_optional_shape _ _ _ _ GEO_KEYS E2). apply shape_nones. nodup.
  - apply (load_airfoils_shape ["inner"; "outer"] _ _ _ E5). apply shape_nones. nodup.
  - apply (load_airfoils_shape ["inner"; "outer"] _ _ _ E5). apply shape_nones. nodup.
  - apply (copy_optional_shape _ _ _ _ ["num_c"; "num_s"] E6). apply shape_nones. nodup.
  - apply (copy_optional_shape _ _ _ _ ["num_c"; "num_s"] E6). apply shape_nones. nodup.
Qed.

Lemma set_device_ok c v c' : set_device c v = Ok c' ->
  (cd_device c' = Some "slat" \/ cd_device c' = Some "flap") /\ v = opt_str (cd_device c') /\
  cd_uid c' = cd_uid c /\ cd_segment c' = cd_segment c /\ cd_rel c' = cd_rel c /\ cd_hinge c' = cd_hinge c /\ cd_panels c' = cd_panels c.
Proof.
  unfold set_device. destruct v; try discriminate. destruct (String.eqb_spec s "slat") as [->|N].
  { intro H. injection H as <-. cbn. auto 10. }
  destruct (String.eqb_spec s "flap") as [->|N']; [|discriminate]. intro H. injection H as <-. cbn. auto 10.
Qed.

Lemma parse_control_wf sym ctls e ctls' :
  parse_control sym ctls e = Ok ctls' -> named cd_uid (wf_ctl sym) ctls -> named cd_uid (wf_ctl sym) ctls'.
Proof.
  unfold parse_control, AircraftIOModel.parse_control. intros H N. binds H.
  apply new_uid_ok in E0 as (_ & G & NE). apply set_device_ok in E2 as (DV & _ & U & S1 & S2 & S3 & S4).
  rewrite S1 in E5. rewrite S2 in E6. rewrite S3 in E7. rewrite S4 in H.
  destruct (check _ _ _ _) as [c r] eqn:C. binds H. injection H as <-. destruct a10. subst r.
  destruct (check_result _ _ _ _ _ C) as ((F1 & F2 & F3 & F4 & F5 & F6) & _). cbn in F1, F2, F3, F4, F5, F6.
  apply named_add; auto. unfold wf_ctl. rewrite F2, F3, F4, F5, F6.
  split; [apply (copy_items_shape _ _ _ _ _ E5); split; [exists []; reflexivity|cbn; nodup]|].
  split; [apply (copy_items_shape _ _ _ _ _ E6); split; [exists []; reflexivity|cbn; nodup]|].
  split; [apply (copy_items_shape _ _ _ _ _ E7); split; [exists []; reflexivity|cbn; nodup]|].
  split; [reflexivity|]. split; [exact DV|]. exact (check_again _ _ _ _ _ C).
Qed.

Lemma parse_wing_wf ws e ws' : parse_wing ws e = Ok ws' -> named wd_uid wf_wing ws -> named wd_uid wf_wing ws'.
Proof.
  unfold parse_wing, AircraftIOModel.parse_wing. intros H N. binds H.
  apply new_uid_ok in E0 as (_ & G & NE). destruct (symmetry_ok a1) eqn:SY; cbn [negb] in H; [|discriminate]. binds H. injection H as <-.
  apply named_add; auto. split; [exact SY|]. cbn [wd_segs wd_ctls wd_symmetry]. split.
  - apply (parse_list_inv _ (named sd_uid wf_seg) parse_segment_wf _ _ _ E3). apply named_nil.
  - apply (parse_list_inv _ (named cd_uid (wf_ctl (truthy a1))) (parse_control_wf (truthy a1)) _ _ _ E6). apply named_nil.
Qed.

Theorem parse_wf doc a : parse doc = Ok a -> wf a.
Proof.
  unfold parse, AircraftIOModel.parse. intro H. binds H. injection H as <-. split; cbn.
  - apply (copy_items_shape _ _ _ _ REF_KEYS E1). apply shape_nones. nodup.
  - apply (parse_list_inv _ (named wd_uid wf_wing) parse_wing_wf _ _ _ E4). apply named_nil.
Qed.

(** ** Saving, then parsing *)

(** What a round trip does to an airfoil name. *)
Definition trip (s : string) : string :=
  let s1 := if contains "blade." s then path_join AIRFOILS (basename s) else s in
  if String.prefix AIRFOILS s1 then path_join root s1 else s1.
Definition trip_v (v : pyval) : pyval := match v with PStr s => PStr (trip s) | _ => v end.
Definition trip_dict (d : dict pyval) : dict pyval := map (fun kx => (fst kx, trip_v (snd kx))) d.
Definition trip_seg (s : segdef) : segdef := mkSD (sd_uid s) (sd_vertices s) (sd_geometry s) (trip_dict (sd_airfoils s)) (sd_panels s).
Definition trip_wing (w : wingdef) : wingdef :=
  mkWD (wd_uid w) (wd_symmetry w) (map (fun kx => (fst kx, trip_seg (snd kx))) (wd_segs w)) (wd_ctls w).
Definition trip_ac (a : acdef) : acdef := mkAD (ad_uid a) (ad_refs a) (map (fun kx => (fst kx, trip_wing (snd kx))) (ad_wings a)).

Lemma airfoils_trip_gen d : forall d' acc, save_airfoils d = Ok d' -> load_airfoils root d' acc = Ok (dupdate acc (trip_dict d)).
Proof.
  induction d as [|[k v] d IH]; intros d' acc H; cbn in H; [injection H as <-; reflexivity|].
  binds H. injection H as <-. cbn [load_airfoils]. unfold save_airfoil in E. destruct v; try discriminate. injection E as <-. cbn [load_airfoil bind].
  rewrite (IH _ _ E0). reflexivity.
Qed.

Lemma trip_keys d : dkeys (trip_dict d) = dkeys d.
Proof. unfold dkeys, trip_dict. rewrite map_map. reflexivity. Qed.

Lemma airfoils_trip d d' : shape ["inner"; "outer"] d -> save_airfoils d = Ok d' -> load_airfoils root d' new_airfoils = Ok (trip_dict d).
Proof.
  intros S H. rewrite (airfoils_trip_gen _ _ _ H). rewrite dupdate_shape; [reflexivity|].
  unfold shape. rewrite trip_keys. exact S.
Qed.

Lemma parse_save {V} (f : dict V -> pyval -> res (dict V)) (g : V -> res pyval) (h : V -> V) (d : dict V) : forall acc l,
  (forall acc k x v, In (k, x) d -> g x = Ok v -> dget acc k = None -> f acc v = Ok (acc ++ [(k, h x)])%list) ->
  NoDup (dkeys acc ++ dkeys d)%list -> save_list g d = Ok l ->
  parse_list f acc l = Ok (acc ++ map (fun kx => (fst kx, h (snd kx))) d)%list.
Proof.
  induction d as [|[k x] d IH]; intros acc l F N H; cbn in H.
  - injection H as <-. cbn. rewrite app_nil_r. reflexivity.
  - binds H. injection H as <-. cbn [parse_list].
    assert (G : dget acc k = None).
    { apply dget_None. intro I. cbn in N. apply NoDup_remove_2 in N. apply N. apply in_or_app. auto. }
    rewrite (F acc k x a (or_introl eq_refl) E G). cbn [bind].
    assert (N' : NoDup (dkeys (acc ++ [(k, h x)]) ++ dkeys d)%list).
    { unfold dkeys in *. rewrite map_app. cbn. rewrite <- app_assoc. exact N. }
    rewrite (IH _ _ (fun acc k x v I => F acc k x v (or_intror I)) N' E0).
    cbn. rewrite <- app_assoc. reflexivity.
Qed.

Lemma truthy_shape k ks d : shape (k :: ks) d -> truthy (PDict d) = true.
Proof. intros [[rest E] _]. destruct d; [discriminate|reflexivity]. Qed.

Lemma new_uid_fresh {V} (d : dict V) k : k <> "" -> dget d k = None -> new_uid d (PStr k) = Ok k.
Proof.
  intros NE G. unfold new_uid, truthy, dmem. apply String.eqb_neq in NE. rewrite NE, G. reflexivity.
Qed.

Lemma copy_items_saved ini e k d : getitem e k = Ok (PDict d) -> shape (dkeys ini) d -> copy_items ini e k = Ok d.
Proof. intros G S. unfold copy_items. rewrite G. cbn [bind items]. rewrite dupdate_shape by exact S. reflexivity. Qed.

Lemma parse_segment_saved acc k s v : wf_seg s -> sd_uid s = k -> k <> "" -> save_segment s = Ok v -> dget acc k = None ->
  parse_segment acc v = Ok (acc ++ [(k, trip_seg s)])%list.
Proof.
  intros (S1 & S2 & S3 & S4) U NE H G. unfold save_segment in H. binds H. injection H as <-.
  unfold parse_segment, AircraftIOModel.parse_segment.
  match goal with |- context [getitem ?e _] => set (e0 := e) end.
  change (getitem e0 "uid") with (Ok (PStr (sd_uid s))). cbn [bind]. rewrite U, new_uid_fresh by assumption. cbn [bind].
  rewrite (copy_items_saved _ e0 "vertices" (sd_vertices s)) by (reflexivity || exact S1). cbn [bind].
  unfold copy_optional.
  change (get_or e0 "geometry" PNone) with (Ok (PDict (sd_geometry s))). cbn [bind]. rewrite (truthy_shape _ _ _ S2).
  rewrite (copy_items_saved _ e0 "geometry" (sd_geometry s)) by (reflexivity || exact S2). cbn [bind].
  change (getitem e0 "airfoils") with (Ok (PDict a)). cbn [bind items].
  rewrite (airfoils_trip _ _ S3 E). cbn [bind].
  change (get_or e0 "panels" PNone) with (Ok (PDict (sd_panels s))). cbn [bind]. rewrite (truthy_shape _ _ _ S4).
  rewrite (copy_items_saved _ e0 "panels" (sd_panels s)) by (reflexivity || exact S4). cbn [bind].
  rewrite dset_fresh by exact G. unfold trip_seg. rewrite U. reflexivity.
Qed.

Lemma parse_control_saved sym acc k c : wf_ctl sym c -> cd_uid c = k -> k <> "" -> dget acc k = None ->
  parse_control sym acc (save_control c) = Ok (acc ++ [(k, c)])%list.
Proof.
  intros (S1 & S2 & S3 & S4 & S5 & S6) U NE G. unfold parse_control, AircraftIOModel.parse_control.
  set (e0 := save_control c).
  change (getitem e0 "uid") with (Ok (PStr (cd_uid c))). cbn [bind]. rewrite U, new_uid_fresh by assumption. cbn [bind].
  change (getitem e0 "device_type") with (Ok (opt_str (cd_device c))). cbn [bind].
  assert (D : exists c1, set_device (new_control k) (opt_str (cd_device c)) = Ok c1) by (destruct S5 as [-> | ->]; eexists; reflexivity).
  destruct D as [c1 D]. rewrite D. cbn [bind]. apply set_device_ok in D as (_ & DV & _ & D1 & D2 & D3 & D4).
  assert (DE : cd_device c1 = cd_device c) by (destruct (cd_device c1), (cd_device c); cbn in DV; congruence).
  change (getitem e0 "deflection") with (Ok (cd_deflection c)). cbn [bind].
  change (get_or e0 "deflection_mirror" PNone) with (Ok (cd_mirror c)). cbn [bind].
  rewrite D1, D2, D3, D4, DE. cbn [new_control cd_segment cd_rel cd_hinge cd_panels].
  rewrite (copy_items_saved _ e0 "segment_uid" (cd_segment c)) by (reflexivity || exact S1). cbn [bind].
  rewrite (copy_items_saved _ e0 "rel_vertices" (cd_rel c)) by (reflexivity || exact S2). cbn [bind].
  rewrite (copy_items_saved _ e0 "rel_hinge_vertices" (cd_hinge c)) by (reflexivity || exact S3). cbn [bind].
  change (getitem e0 "panels") with (Ok (PDict (cd_panels c))). cbn [bind].
  destruct (cd_panels c) as [|[kn n] [|p q]] eqn:P; try discriminate. cbn in S4. injection S4 as ->.
  change (getitem (PDict [("num_c", n)]) "num_c") with (Ok n). cbn [bind].
  change (dset [("num_c", PNone)] "num_c" n) with [("num_c", n)].
  assert (C : mkCD k (cd_device c) (cd_deflection c) (cd_mirror c) (cd_segment c) (cd_rel c) (cd_hinge c) [("num_c", n)] = c).
  { rewrite <- U, <- P. destruct c; reflexivity. }
  rewrite C, S6. cbn [bind]. rewrite dset_fresh by exact G. reflexivity.
Qed.

Lemma save_list_total {V} (f : V -> pyval) (d : dict V) : save_list (fun x => Ok (f x)) d = Ok (map (fun kx => f (snd kx)) d).
Proof. induction d as [|[k x] d IH]; [reflexivity|]. cbn. rewrite IH. reflexivity. Qed.

Lemma map_pair_id {V} (d : dict V) : map (fun kx => (fst kx, snd kx)) d = d.
Proof. induction d as [|[k x] d IH]; [reflexivity|]. cbn. rewrite IH. reflexivity. Qed.

Lemma parse_wing_saved acc k w v : wf_wing w -> wd_uid w = k -> k <> "" -> save_wing w = Ok v -> dget acc k = None ->
  parse_wing acc v = Ok (acc ++ [(k, trip_wing w)])%list.
Proof.
  intros (SY & (N1 & A1) & (N2 & A2)) U NE H G. unfold save_wing in H. binds H. injection H as <-.
  unfold parse_wing, AircraftIOModel.parse_wing.
  match goal with |- context [getitem ?e _] => set (e0 := e) end.
  change (getitem e0 "uid") with (Ok (PStr (wd_uid w))). cbn [bind]. rewrite U, new_uid_fresh by assumption. cbn [bind].
  change (getitem e0 "symmetry") with (Ok (wd_symmetry w)). cbn [bind]. rewrite SY. cbn [negb].
  change (getitem e0 "segments") with (Ok (PList a)). cbn [bind iter].
  change (AircraftIOModel.parse_segment root) with parse_segment.
  rewrite (parse_save parse_segment save_segment trip_seg (wd_segs w) [] a); [|intros ac ks s v I Sv Gs; destruct (A1 _ _ I) as (Us & Ns & Ws); apply parse_segment_saved; assumption|exact N1|exact E].
  cbn [bind app].
  change (get_or e0 "controls" (PList [])) with (Ok (PList (map (fun kc => save_control (snd kc)) (wd_ctls w)))). cbn [bind iter].
  assert (X := save_list_total save_control (wd_ctls w)).
  change (AircraftIOModel.parse_control none_ok int_ok) with parse_control.
  rewrite (parse_save (parse_control (truthy (wd_symmetry w))) (fun x => Ok (save_control x)) (fun x => x) (wd_ctls w) [] _); [|intros ac ks s v I Sv Gs; injection Sv as <-; destruct (A2 _ _ I) as (Us & Ns & Ws); apply parse_control_saved; assumption|exact N2|exact X].
  cbn [bind app]. rewrite map_pair_id. rewrite dset_fresh by exact G. unfold trip_wing. rewrite U. reflexivity.
Qed.

Theorem parse_saved a j : wf a -> save a = Ok j -> parse j = Ok (trip_ac a).
Proof.
  intros (S & (N & A)) H. unfold save in H. binds H. injection H as <-. unfold parse, AircraftIOModel.parse.
  match goal with |- context [getitem ?e _] => set (e0 := e) end.
  change (getitem e0 "uid") with (Ok (PStr (ad_uid a))). cbn [bind str_uid].
  rewrite (copy_items_saved _ e0 "refs" (ad_refs a)) by (reflexivity || exact S). cbn [bind].
  change (getitem e0 "wings") with (Ok (PList a0)). cbn [bind iter].
  change (AircraftIOModel.parse_wing none_ok int_ok root) with parse_wing.
  rewrite (parse_save parse_wing save_wing trip_wing (ad_wings a) [] a0); [|intros ac ks s v I Sv Gs; destruct (A _ _ I) as (Us & Ns & Ws); apply parse_wing_saved; assumption|exact N|exact E].
  reflexivity.
Qed.

(** ** Airfoil names *)
Lemma trip_iff s : trip s = s <-> airfoil_kept root (PStr s).
Proof.
  unfold trip, airfoil_kept. destruct (contains "blade." s) eqn:C.
  - rewrite (join_airfoils _ (basename_plain s)).
    assert (P : String.prefix AIRFOILS ("airfoils/" ++ basename s) = true) by (apply prefix_iff; exists ("/" ++ basename s); reflexivity).
    rewrite P, (join_root _ _ Droot P). apply contains_iff in C; [|discriminate]. split.
    + intro E. exists s. split; [reflexivity|]. right. split; [exact C|]. exists (basename s). split; [|symmetry; exact E].
      unfold plain_name. rewrite <- has_slash_iff, basename_plain. discriminate.
    + intros (s' & E & [[N _]|[_ (b & B & E')]]); injection E as <-; [contradiction|].
      assert (B' : has_slash b = false) by (destruct (has_slash b) eqn:X; [apply has_slash_iff in X; contradiction|reflexivity]).
      assert (X : basename s = b).
      { rewrite E'. change ("/airfoils/" ++ b) with ("/airfoils" ++ "/" ++ b). rewrite <- app_assoc_s. apply basename_app, B'. }
      rewrite X. symmetry. exact E'.
  - assert (C' : ~ has_part "blade." s) by (intro X; apply contains_iff in X; [congruence|discriminate]).
    destruct (String.prefix AIRFOILS s) eqn:P; split.
    + rewrite (join_root _ _ Droot P). intro E. apply (f_equal String.length) in E. rewrite !length_app_s in E. cbn in E. lia.
    + intros (s' & E & [[_ N]|[N _]]); injection E as <-; [|contradiction]. exfalso. apply N, prefix_iff, P.
    + intros _. exists s. split; [reflexivity|]. left. split; [exact C'|]. intro X. apply prefix_iff in X. unfold AIRFOILS in P. congruence.
    + reflexivity.
Qed.

Lemma map_snd_id {V} (h : V -> V) (d : dict V) :
  map (fun kx => (fst kx, h (snd kx))) d = d <-> forall k x, In (k, x) d -> h x = x.
Proof.
  induction d as [|[k x] d IH]; cbn; [split; [intros _ ? ? []|reflexivity]|]. split.
  - intro E. injection E as E1 E2. intros k' x' [I|I]; [injection I as <- <-; exact E1|]. apply (proj1 IH E2 _ _ I).
  - intro H. rewrite (H k x) by auto. f_equal. apply IH. eauto.
Qed.

Lemma trip_seg_iff s af : save_airfoils (sd_airfoils s) = Ok af -> (trip_seg s = s <-> airfoils_kept root s).
Proof.
  intro H. assert (ST : forall k v, In (k, v) (sd_airfoils s) -> exists x, v = PStr x).
  { clear -H. revert af H. induction (sd_airfoils s) as [|[k v] d IH]; intros af H k' v' I; [destruct I|]. cbn in H. binds H.
    destruct I as [I|I]; [injection I as <- <-; destruct v; try discriminate; eauto|eapply IH; eauto]. }
  assert (E : trip_seg s = s <-> trip_dict (sd_airfoils s) = sd_airfoils s).
  { split; intro E; [apply (f_equal sd_airfoils) in E; exact E|]. unfold trip_seg. rewrite E. destruct s; reflexivity. }
  rewrite E. unfold trip_dict. rewrite (map_snd_id trip_v). unfold airfoils_kept. split; intros A k v I; destruct (ST _ _ I) as [x ->].
  - apply trip_iff. specialize (A _ _ I). cbn in A. congruence.
  - cbn. f_equal. apply trip_iff. eauto.
Qed.

Lemma save_list_each {V} (f : V -> res pyval) (d : dict V) l : save_list f d = Ok l -> forall k x, In (k, x) d -> exists v, f x = Ok v.
Proof.
  revert l. induction d as [|[k x] d IH]; intros l H k' x' I; [destruct I|]. cbn in H. binds H.
  destruct I as [I|I]; [injection I as <- <-; eauto|eapply IH; eauto].
Qed.
Lemma save_list_all {V} (f : V -> res pyval) (d : dict V) : (forall k x, In (k, x) d -> exists v, f x = Ok v) -> exists l, save_list f d = Ok l.
Proof.
  induction d as [|[k x] d IH]; intro H; cbn; [eauto|]. destruct (H k x (or_introl eq_refl)) as [v E]. rewrite E. cbn [bind].
  destruct IH as [l L]; [intros; eapply H; right; eauto|]. rewrite L. cbn. eauto.
Qed.

Lemma trip_ac_iff a j : save a = Ok j -> (trip_ac a = a <-> each_segment (airfoils_kept root) a).
Proof.
  intro H. unfold save in H. binds H. clear H.
  assert (W : forall ku w, In (ku, w) (ad_wings a) -> (trip_wing w = w <-> forall ks s, In (ks, s) (wd_segs w) -> airfoils_kept root s)).
  { intros ku w I. destruct (save_list_each _ _ _ E _ _ I) as [v Sv]. unfold save_wing in Sv. binds Sv. clear Sv.
    assert (X : trip_wing w = w <-> map (fun kx => (fst kx, trip_seg (snd kx))) (wd_segs w) = wd_segs w).
    { split; intro X; [apply (f_equal wd_segs) in X; exact X|]. unfold trip_wing. rewrite X. destruct w; reflexivity. }
    rewrite X, (map_snd_id trip_seg). split; intros K ks s Is; destruct (save_list_each _ _ _ E0 _ _ Is) as [v' Sv]; unfold save_segment in Sv;
      binds Sv; clear Sv; apply (trip_seg_iff _ _ E1); eauto. }
  assert (X : trip_ac a = a <-> map (fun kx => (fst kx, trip_wing (snd kx))) (ad_wings a) = ad_wings a).
  { split; intro X; [apply (f_equal ad_wings) in X; exact X|]. unfold trip_ac. rewrite X. destruct a; reflexivity. }
  rewrite X, (map_snd_id trip_wing). unfold each_segment. split.
  - intros K ku w ks s I. apply (proj1 (W _ _ I)). eauto.
  - intros K k x I. apply (proj2 (W _ _ I)). eauto.
Qed.

Lemma save_kept a : each_segment (airfoils_kept root) a -> exists j, save a = Ok j.
Proof.
  intro K. unfold save. destruct (save_list_all save_wing (ad_wings a)) as [l L].
  - intros ku w I. unfold save_wing. destruct (save_list_all save_segment (wd_segs w)) as [l L].
    + intros ks s Is. unfold save_segment. specialize (K _ _ _ _ I Is). unfold airfoils_kept in K.
      assert (X : exists af, save_airfoils (sd_airfoils s) = Ok af).
      { induction (sd_airfoils s) as [|[k v] d IH]; cbn; [eauto|]. destruct (K k v (or_introl eq_refl)) as (x & -> & _). cbn.
        destruct IH as [r R]; [intros; eapply K; right; eauto|]. rewrite R. cbn. eauto. }
      destruct X as [af X]. rewrite X. cbn. eauto.
    + rewrite L. cbn. eauto.
  - rewrite L. cbn. eauto.
Qed.

(** The definition round trip. *)
Theorem parse_save_parse doc a : parse doc = Ok a ->
  ((exists j, save a = Ok j /\ parse j = Ok a) <-> each_segment (airfoils_kept root) a).
Proof.
  intro P. assert (W := parse_wf _ _ P). split.
  - intros (j & S & E). rewrite (parse_saved _ _ W S) in E. apply (trip_ac_iff _ _ S). congruence.
  - intro K. destruct (save_kept a K) as [j S]. exists j. split; [exact S|]. rewrite (parse_saved _ _ W S). f_equal.
    apply (trip_ac_iff _ _ S). exact K.
Qed.

(** ** Generating *)

Lemma modify_ok f d k d' : modify f d k = Ok d' <-> exists v v', dget d k = Some v /\ f v = Ok v' /\ d' = dset d k v'.
Proof.
  unfold modify, getitem. split.
  - intro H. destruct (dget d k) as [v|] eqn:G; cbn in H; [|discriminate]. binds H. injection H as <-. eauto.
  - intros (v & v' & -> & F & ->). cbn. rewrite F. reflexivity.
Qed.
Lemma modify_id f d k v : dget d k = Some v -> f v = Ok v -> modify f d k = Ok d.
Proof. intros G F. apply modify_ok. exists v, v. rewrite dset_id by exact G. auto. Qed.
Lemma modify_shape ks f d k d' : modify f d k = Ok d' -> shape ks d -> shape ks d'.
Proof. intros H S. apply modify_ok in H as (v & v' & _ & _ & ->). apply shape_dset, S. Qed.

Lemma py_float_ok v v' : py_float parse_float v = Ok v' -> exists x, v' = PFlt x.
Proof.
  unfold py_float. intro H. destruct v; cbn in H; binds H; try discriminate; injection H as <-; eauto.
Qed.
Lemma py_list_ok v v' : py_list v = Ok v' -> exists l, v' = PList l.
Proof. unfold py_list. intro H. binds H. injection H as <-. eauto. Qed.
Lemma to_flt_idem v : to_flt (to_flt v) = to_flt v.
Proof. destruct v; reflexivity. Qed.
Lemma np_array_idem v : np_array (np_array v) = np_array v.
Proof. destruct v; cbn; try reflexivity. rewrite map_map. f_equal. apply map_ext, to_flt_idem. Qed.
Lemma passes_xyz v : passes none_ok r_xyz v = true -> passes none_ok r_xyz (np_array v) = true.
Proof.
  destruct v; cbn; auto. rewrite map_length. intro H. apply andb_true_iff in H as [-> H]. cbn.
  rewrite forallb_forall in *. intros x I. apply in_map_iff in I as (y & <- & I). specialize (H _ I). destruct y; exact H.
Qed.

Ltac gets := repeat first [rewrite dget_dset_same | rewrite dget_dset_other by discriminate].
Ltac gets_in H := repeat first [rewrite dget_dset_same in H | rewrite dget_dset_other in H by discriminate].

Lemma generate_refs_again d d' : generate_refs d = Ok d' -> generate_refs d' = Ok d' /\ (shape REF_KEYS d -> shape REF_KEYS d').
Proof.
  unfold generate_refs, AircraftIOModel.generate_refs. intro H. binds H. split.
  2:{ intro S. repeat (match goal with E : modify _ _ _ = Ok ?x |- shape _ ?x => apply (modify_shape _ _ _ _ _ E) end). exact S. }
  destruct a4. apply modify_ok in E as (v1 & w1 & _ & F1 & ->). apply modify_ok in E0 as (v2 & w2 & _ & F2 & ->).
  apply modify_ok in E1 as (v3 & w3 & _ & F3 & ->). apply modify_ok in E2 as (v4 & w4 & _ & F4 & ->).
  apply modify_ok in E3 as (v5 & w5 & _ & F5 & ->). apply py_float_ok in F1 as [x1 ->]. apply py_float_ok in F2 as [x2 ->].
  apply py_float_ok in F3 as [x3 ->]. apply py_list_ok in F4 as [l4 ->]. apply py_list_ok in F5 as [l5 ->].
  apply modify_ok in E5 as (v6 & w6 & G6 & F6 & ->). apply modify_ok in H as (v7 & w7 & G7 & F7 & ->).
  gets_in G6. gets_in G7. injection G6 as <-. injection G7 as <-. injection F6 as <-. injection F7 as <-.
  apply validate_ok in E4 as [_ V].
  match goal with |- context [modify (py_float _) ?x "area"] => set (D := x) end.
  assert (A1 : dget D "area" = Some (PFlt x1)) by (unfold D; gets; reflexivity).
  assert (A2 : dget D "chord" = Some (PFlt x2)) by (unfold D; gets; reflexivity).
  assert (A3 : dget D "span" = Some (PFlt x3)) by (unfold D; gets; reflexivity).
  assert (A4 : dget D "gcenter" = Some (np_array (PList l4))) by (unfold D; gets; reflexivity).
  assert (A5 : dget D "rcenter" = Some (np_array (PList l5))) by (unfold D; gets; reflexivity).
  assert (A6 : dget D "comment" = dget d "comment") by (unfold D; gets; reflexivity).
  rewrite (modify_id _ _ _ _ A1) by reflexivity. cbn [bind]. rewrite (modify_id _ _ _ _ A2) by reflexivity. cbn [bind].
  rewrite (modify_id _ _ _ _ A3) by reflexivity. cbn [bind]. rewrite (modify_id _ _ _ _ A4) by reflexivity. cbn [bind].
  rewrite (modify_id _ _ _ _ A5) by reflexivity. cbn [bind].
  assert (V' : validate none_ok ["gcenter"; "rcenter"; "area"; "chord"; "span"] (ref_schema int_ok) D = Ok tt).
  { apply validate_ok. split.
    - intros k I. cbn in I. decompose [or] I; subst; congruence || contradiction.
    - intros k r I v G. assert (V1 := V k r I). cbn in I.
      decompose [or] I; try contradiction;
        match goal with X : (_, _) = (_, _) |- _ => injection X as <- <- end.
      + rewrite A4 in G. injection G as <-. apply (passes_xyz (PList l4)). apply V1. gets. reflexivity.
      + rewrite A5 in G. injection G as <-. apply (passes_xyz (PList l5)). apply V1. gets. reflexivity.
      + rewrite A1 in G. injection G as <-. apply V1. gets. reflexivity.
      + rewrite A2 in G. injection G as <-. apply V1. gets. reflexivity.
      + rewrite A3 in G. injection G as <-. apply V1. gets. reflexivity.
      + rewrite A6 in G. apply V1. gets. exact G. }
  rewrite V'. cbn [bind]. rewrite (modify_id _ _ _ _ A4) by (rewrite np_array_idem; reflexivity). cbn [bind].
  apply (modify_id _ _ _ _ A5). rewrite np_array_idem. reflexivity.
Qed.

Lemma check_vertices_again d d' : check_vertices none_ok d = Ok d' ->
  check_vertices none_ok d' = Ok d' /\ (shape ["a"; "b"; "c"; "d"] d -> shape ["a"; "b"; "c"; "d"] d').
Proof.
  unfold check_vertices. intro H. binds H. split.
  2:{ intro S. repeat (match goal with E : modify _ _ _ = Ok ?x |- shape _ ?x => apply (modify_shape _ _ _ _ _ E) end). exact S. }
  destruct a. apply modify_ok in E0 as (v1 & w1 & G1 & F1 & ->). apply modify_ok in E1 as (v2 & w2 & G2 & F2 & ->).
  apply modify_ok in E2 as (v3 & w3 & G3 & F3 & ->). apply modify_ok in H as (v4 & w4 & G4 & F4 & ->).
  injection F1 as <-. injection F2 as <-. injection F3 as <-. injection F4 as <-. gets_in G2. gets_in G3. gets_in G4.
  apply validate_ok in E as [_ V].
  match goal with |- context [validate _ _ _ ?x] => set (D := x) end.
  assert (A1 : dget D "a" = Some (np_array v1)) by (unfold D; gets; reflexivity).
  assert (A2 : dget D "b" = Some (np_array v2)) by (unfold D; gets; reflexivity).
  assert (A3 : dget D "c" = Some (np_array v3)) by (unfold D; gets; reflexivity).
  assert (A4 : dget D "d" = Some (np_array v4)) by (unfold D; gets; reflexivity).
  assert (V' : validate none_ok [] vertices_schema D = Ok tt).
  { apply validate_ok. split; [intros k []|]. intros k r I v G. assert (V1 := V k r I). cbn in I.
    decompose [or] I; try contradiction; match goal with X : (_, _) = (_, _) |- _ => injection X as <- <- end.
    - rewrite A1 in G. injection G as <-. apply passes_xyz, V1. exact G1.
    - rewrite A2 in G. injection G as <-. apply passes_xyz, V1. exact G2.
    - rewrite A3 in G. injection G as <-. apply passes_xyz, V1. exact G3.
    - rewrite A4 in G. injection G as <-. apply passes_xyz, V1. exact G4. }
  rewrite V'. cbn [bind].
  rewrite (modify_id _ _ _ _ A1) by (rewrite np_array_idem; reflexivity). cbn [bind].
  rewrite (modify_id _ _ _ _ A2) by (rewrite np_array_idem; reflexivity). cbn [bind].
  rewrite (modify_id _ _ _ _ A3) by (rewrite np_array_idem; reflexivity). cbn [bind].
  apply (modify_id _ _ _ _ A4). rewrite np_array_idem. reflexivity.
Qed.

Lemma set_derived_get f d k : dget (set_derived f d) k = if existsb (String.eqb k) DERIVED then Some (PFlt (f k)) else dget d k.
Proof.
  unfold set_derived. enough (X : forall l d, dget (fold_left (fun acc k => dset acc k (PFlt (f k))) l d) k = if existsb (String.eqb k) l then Some (PFlt (f k)) else dget d k) by apply X.
  induction l as [|k' l IH]; intro d0; [reflexivity|]. cbn [fold_left existsb]. rewrite IH.
  destruct (existsb (String.eqb k) l); [rewrite orb_true_r; reflexivity|]. rewrite orb_false_r.
  destruct (String.eqb_spec k k') as [->|N]; [apply dget_dset_same|apply dget_dset_other; congruence].
Qed.
Lemma set_derived_shape ks f d : shape ks d -> shape ks (set_derived f d).
Proof.
  unfold set_derived. revert d. induction DERIVED as [|k l IH]; intros d S; [exact S|]. cbn. apply IH, shape_dset, S.
Qed.
Lemma set_derived_id f d : (forall k, In k DERIVED -> dget d k = Some (PFlt (f k))) -> set_derived f d = d.
Proof.
  unfold set_derived. induction DERIVED as [|k l IH]; intro H; [reflexivity|]. cbn. rewrite dset_id by (apply H; left; reflexivity).
  apply IH. intros k' I. apply H. right. exact I.
Qed.
Lemma set_derived_idem f d : set_derived f (set_derived f d) = set_derived f d.
Proof.
  apply set_derived_id. intros k I. rewrite set_derived_get.
  assert (X : existsb (String.eqb k) DERIVED = true) by (apply existsb_exists; exists k; split; [exact I|apply String.eqb_refl]).
  rewrite X. reflexivity.
Qed.

Lemma passes_angle lo hi x : passes none_ok (r_float_in int_ok lo hi) (PFlt x) = true <-> exists q, x = Some q /\ (lo <= q <= hi)%Q.
Proof.
  cbn. split.
  - intro H. destruct x as [q|]; [|discriminate]. qbool. eauto.
  - intros (q & -> & A & B). cbn. apply Qle_bool_iff in A, B. unfold Qleb. rewrite A, B. reflexivity.
Qed.

Definition angles_ok (f : string -> option Q) : Prop :=
  Forall (fun k => exists q, f k = Some q /\ (-90 <= q <= 90)%Q) ["inner_alpha"; "outer_alpha"; "inner_beta"; "outer_beta"; "sweep"] /\
  exists q, f "dihedral" = Some q /\ (-180 <= q <= 180)%Q.

Lemma check_geometry_again d g f : check_geometry none_ok int_ok d = Ok g ->
  (angles_ok f -> check_geometry none_ok int_ok (set_derived f g) = Ok (set_derived f g)) /\
  (forall g', check_geometry none_ok int_ok (set_derived f g) = Ok g' -> angles_ok f) /\
  (shape GEO_KEYS d -> shape GEO_KEYS g).
Proof.
  unfold check_geometry. intro H. binds H. injection H as <-. destruct a1.
  assert (SH : shape GEO_KEYS d -> shape GEO_KEYS a0).
  { intro S. repeat (match goal with E : modify _ _ _ = Ok ?x |- shape _ ?x => apply (modify_shape _ _ _ _ _ E) end). exact S. }
  apply modify_ok in E as (v1 & w1 & G1 & F1 & ->). apply modify_ok in E0 as (v2 & w2 & G2 & F2 & ->).
  injection F1 as <-. injection F2 as <-. gets_in G2. apply validate_ok in E1 as [_ V].
  match goal with |- context [set_derived f ?x] => set (g := x) in * end.
  assert (A1 : dget (set_derived f g) "inner_axis" = Some (default_axis v1)) by (rewrite set_derived_get; cbn; unfold g; gets; reflexivity).
  assert (A2 : dget (set_derived f g) "outer_axis" = Some (default_axis v2)) by (rewrite set_derived_get; cbn; unfold g; gets; reflexivity).
  rewrite (modify_id _ _ _ _ A1) by (destruct v1; reflexivity). cbn [bind].
  rewrite (modify_id _ _ _ _ A2) by (destruct v2; reflexivity). cbn [bind].
  split; [|split; [|exact SH]].
  - intros [AN DI].
    assert (V' : validate none_ok ["inner_axis"; "outer_axis"] (geometry_schema int_ok) (set_derived f g) = Ok tt); [|rewrite V'; reflexivity].
    apply validate_ok. split; [intros k I; cbn in I; decompose [or] I; subst; congruence || contradiction|].
    intros k r I v G. assert (V1 := V k r I). cbn in I. rewrite !Forall_cons_iff in AN. destruct AN as (N1 & N2 & N3 & N4 & N5 & _).
    decompose [or] I; try contradiction; match goal with X : (_, _) = (_, _) |- _ => injection X as <- <- end;
      rewrite set_derived_get in G; cbn in G; try (injection G as <-); try (apply passes_angle; assumption); try reflexivity;
      apply V1; exact G.
  - intros g' K. binds K. destruct a. apply validate_ok in E as [_ V'].
    assert (X : forall k r, In (k, r) (geometry_schema int_ok) -> existsb (String.eqb k) DERIVED = true -> passes none_ok r (PFlt (f k)) = true).
    { intros k r I D. apply (V' k r I). rewrite set_derived_get, D. reflexivity. }
    split; [repeat apply Forall_cons; [..|apply Forall_nil]|]; (eapply passes_angle; apply X; [cbn; auto 20|reflexivity]).
Qed.

Lemma angle_in_derived f g lo hi k : existsb (String.eqb k) DERIVED = true ->
  (angle_in (set_derived f g) lo hi k <-> exists q, f k = Some q /\ (lo <= q <= hi)%Q).
Proof.
  intro D. unfold angle_in. rewrite set_derived_get, D. split; intros (q & E & B); exists q; (split; [|exact B]); congruence.
Qed.
Lemma angles_kept_derived u vs f g af p : angles_kept (mkSD u vs (set_derived f g) af p) <-> angles_ok f.
Proof.
  unfold angles_kept, angles_ok. cbn [sd_geometry]. rewrite !Forall_cons_iff, !angle_in_derived by reflexivity.
  split; intros ((H1 & H2 & H3 & H4 & H5 & _) & H6); auto 10.
Qed.

Lemma validate_tt req sc d u : validate none_ok req sc d = Ok u -> validate none_ok req sc d = Ok tt.
Proof. destruct u. auto. Qed.

Lemma generate_segment_again s s' : generate_segment s = Ok s' ->
  (generate_segment s' = Ok s' <-> angles_kept s') /\ ((exists r, generate_segment s' = Ok r) -> angles_kept s') /\
  sd_uid s' = sd_uid s /\ sd_airfoils s' = sd_airfoils s /\ (wf_seg s -> wf_seg s').
Proof.
  unfold generate_segment, AircraftIOModel.generate_segment. intro H. binds H.
  destruct (existsb (fun kx => _) a) eqn:X; [discriminate|]. binds H.
  destruct (existsb is_missing _) eqn:M; [discriminate|]. binds H. injection H as <-.
  cbn [sd_uid sd_airfoils sd_vertices sd_geometry sd_panels].
  destruct (check_vertices_again _ _ E) as [V SV]. destruct (check_geometry_again _ _ a9 E0) as (G & G' & SG).
  rewrite angles_kept_derived, V. cbn [bind].
  assert (Y : angles_ok a9 -> check_geometry none_ok int_ok (set_derived a9 a0) = Ok (set_derived a9 a0)) by exact G.
  assert (IA : getitem (PDict (set_derived a9 a0)) "inner_axis" = getitem (PDict a0) "inner_axis")
    by (unfold getitem; rewrite set_derived_get; reflexivity).
  assert (OA : getitem (PDict (set_derived a9 a0)) "outer_axis" = getitem (PDict a0) "outer_axis")
    by (unfold getitem; rewrite set_derived_get; reflexivity).
  split; [split|split; [|split; [reflexivity|split; [reflexivity|]]]].
  - intro H. apply bind_ok in H as (g & K & _). exact (G' _ K).
  - intro K. rewrite (G K). cbn [bind]. rewrite E1, E2. cbn [bind]. rewrite X, E3, E4, E5, E6. cbn [bind]. rewrite M, IA, OA, E7, E8. cbn [bind].
    rewrite E9. cbn [bind]. rewrite E10, E11. cbn [bind]. rewrite E12. cbn [bind]. rewrite set_derived_idem. reflexivity.
  - intros [r H]. apply bind_ok in H as (g & K & _). exact (G' _ K).
  - intros (S1 & S2 & S3 & S4). split; [exact (SV S1)|]. split; [apply set_derived_shape, SG, S2|]. split; assumption.
Qed.

Lemma generate_list_keys {V} (f : V -> res V) d d' : generate_list f d = Ok d' ->
  dkeys d' = dkeys d /\ forall k x', In (k, x') d' -> exists x, In (k, x) d /\ f x = Ok x'.
Proof.
  revert d'. induction d as [|[k x] d IH]; intros d' H; cbn in H; [injection H as <-; split; [reflexivity|intros ? ? []]|].
  binds H. injection H as <-. destruct (IH _ E0) as [K A]. split; [cbn; unfold dkeys in K; rewrite K; reflexivity|].
  intros k' x' [I|I]; [injection I as <- <-; exists x; split; [left; reflexivity|exact E]|]. destruct (A _ _ I) as (y & J & F). exists y. split; [right; exact J|exact F].
Qed.
Lemma generate_list_id {V} (f : V -> res V) d : generate_list f d = Ok d <-> forall k x, In (k, x) d -> f x = Ok x.
Proof.
  induction d as [|[k x] d IH]; cbn; [split; [intros _ ? ? []|reflexivity]|]. split.
  - intro H. binds H. injection H as -> ->. intros k' x' [I|I]; [injection I as <- <-; exact E|]. exact (proj1 IH E0 _ _ I).
  - intro H. rewrite (H k x) by auto. cbn. rewrite (proj2 IH) by eauto. reflexivity.
Qed.
Lemma generate_list_each {V} (f : V -> res V) d d' : generate_list f d = Ok d' -> forall k x, In (k, x) d -> exists x', f x = Ok x'.
Proof.
  revert d'. induction d as [|[k x] d IH]; intros d' H k' x' I; [destruct I|]. cbn in H. binds H.
  destruct I as [I|I]; [injection I as <- <-; eauto|eapply IH; eauto].
Qed.

Lemma generate_wing_again w w' : generate_wing w = Ok w' ->
  (generate_wing w' = Ok w' <-> forall k s, In (k, s) (wd_segs w') -> angles_kept s) /\
  ((exists r, generate_wing w' = Ok r) -> forall k s, In (k, s) (wd_segs w') -> angles_kept s) /\
  wd_uid w' = wd_uid w /\ (wf_wing w -> wf_wing w').
Proof.
  unfold generate_wing, AircraftIOModel.generate_wing. intro H. binds H. injection H as <-. cbn [wd_segs wd_uid wd_symmetry wd_ctls].
  destruct (generate_list_keys _ _ _ E) as [K A].
  split; [split|split; [|split; [reflexivity|]]].
  - intro H. binds H. injection H as Q. subst. intros k s I. destruct (A _ _ I) as (s0 & _ & G).
    apply (proj1 (proj1 (generate_segment_again _ _ G))). apply (proj1 (generate_list_id _ _) E1 _ _ I).
  - intro H. assert (L : generate_list (AircraftIOModel.generate_segment none_ok int_ok derive import_airfoils) a = Ok a).
    { apply generate_list_id. intros k s I. destruct (A _ _ I) as (s0 & _ & G). apply (proj2 (proj1 (generate_segment_again _ _ G))). eauto. }
    rewrite L. cbn [bind]. rewrite E0. reflexivity.
  - intros [r H] k s I. apply bind_ok in H as (l & L & _). destruct (A _ _ I) as (s0 & _ & G).
    apply (proj1 (proj2 (generate_segment_again _ _ G))). exact (generate_list_each _ _ _ L _ _ I).
  - intros (SY & (N & AL) & C). split; [exact SY|]. split; [|exact C]. cbn [wd_segs]. split; [rewrite K; exact N|].
    intros k s I. destruct (A _ _ I) as (s0 & I0 & G). destruct (AL _ _ I0) as (U & NE & W).
    destruct (generate_segment_again _ _ G) as (_ & _ & U' & _ & W'). split; [congruence|]. split; [exact NE|]. exact (W' W).
Qed.

Theorem generate_again a a' : generate a = Ok a' ->
  (generate a' = Ok a' <-> each_segment angles_kept a') /\
  ((exists r, generate a' = Ok r) -> each_segment angles_kept a') /\ (wf a -> wf a').
Proof.
  unfold generate, AircraftIOModel.generate. intro H. binds H. injection H as <-. unfold each_segment. cbn [ad_uid ad_refs ad_wings].
  destruct (generate_list_keys _ _ _ E0) as [K A]. destruct (generate_refs_again _ _ E) as [R SR].
  unfold generate_refs in R. split; [split|split].
  - intro H. binds H. injection H as Q1 Q2. subst. intros ku w ks s I. destruct (A _ _ I) as (w0 & _ & G).
    apply (proj1 (proj1 (generate_wing_again _ _ G))). apply (proj1 (generate_list_id _ _) E2 _ _ I).
  - intro H. assert (L : generate_list (AircraftIOModel.generate_wing none_ok int_ok derive import_airfoils finish_wing) a1 = Ok a1).
    { apply generate_list_id. intros k w I. destruct (A _ _ I) as (w0 & _ & G). apply (proj2 (proj1 (generate_wing_again _ _ G))). eauto. }
    rewrite R. cbn [bind]. rewrite L. reflexivity.
  - intros [r H] ku w ks s I J. apply bind_ok in H as (x & _ & H). apply bind_ok in H as (l & L & _). destruct (A _ _ I) as (w0 & _ & G).
    destruct (generate_wing_again _ _ G) as (_ & X & _). apply (X (generate_list_each _ _ _ L _ _ I) _ _ J).
  - intros (S & N & AL). split; [exact (SR S)|]. cbn [ad_wings]. split; [rewrite K; exact N|].
    intros k w I. destruct (A _ _ I) as (w0 & I0 & G). destruct (AL _ _ I0) as (U & NE & W).
    destruct (generate_wing_again _ _ G) as (_ & _ & U' & W'). split; [congruence|]. split; [exact NE|]. exact (W' W).
Qed.

Lemma generate_trip_list {V} (f : V -> res V) (h : V -> V) d :
  (forall x, f (h x) = Ok x -> h x = x) -> generate_list f (map (fun kx => (fst kx, h (snd kx))) d) = Ok d -> map (fun kx => (fst kx, h (snd kx))) d = d.
Proof.
  intros F. induction d as [|[k x] d IH]; cbn; intro H; [reflexivity|]. binds H. injection H as -> ->. rewrite (F x E), (IH E0). reflexivity.
Qed.
Lemma generate_trip a : generate (trip_ac a) = Ok a -> trip_ac a = a.
Proof.
  unfold generate, AircraftIOModel.generate, trip_ac. cbn [ad_uid ad_refs ad_wings]. intro H. binds H. destruct a as [u r ws]. injection H as -> ->.
  cbn [ad_uid ad_refs ad_wings] in *. f_equal. refine (generate_trip_list _ trip_wing _ _ E0). intros w G.
  unfold AircraftIOModel.generate_wing, trip_wing in *. cbn [wd_uid wd_symmetry wd_segs wd_ctls] in G. binds G. destruct w as [wu sy segs ctls].
  cbn [wd_uid wd_symmetry wd_segs wd_ctls] in *. injection G as ->. f_equal. refine (generate_trip_list _ trip_seg _ _ E1). intros s G.
  destruct (generate_segment_again _ _ G) as (_ & _ & _ & X & _). unfold trip_seg in *. cbn in X. rewrite <- X. destruct s; reflexivity.
Qed.

(** ** A loaded aircraft is saved and loaded again *)
Theorem load_save_load doc a : load doc = Ok a ->
  ((exists j, save a = Ok j /\ load j = Ok a) <-> each_segment (airfoils_kept root) a /\ each_segment angles_kept a).
Proof.
  unfold load, AircraftIOModel.load. intro L. apply bind_ok in L as (a0 & P & G). assert (W0 := parse_wf _ _ P).
  destruct (generate_again _ _ G) as (I & _ & W). specialize (W W0). split.
  - intros (j & S & H). apply bind_ok in H as (b & Pb & Gb).
    assert (Pb' := parse_saved _ _ W S). assert (Q : b = trip_ac a) by (unfold parse in Pb'; congruence). subst b. clear Pb Pb'.
    assert (T := generate_trip _ Gb). split; [exact (proj1 (trip_ac_iff _ _ S) T)|]. apply I. rewrite T in Gb. exact Gb.
  - intros [KA KG]. destruct (save_kept a KA) as [j S]. exists j. split; [exact S|].
    assert (X := parse_saved _ _ W S). unfold parse in X. rewrite X. cbn [bind]. rewrite (proj2 (trip_ac_iff _ _ S) KA). apply I, KG.
Qed.
End IO.
