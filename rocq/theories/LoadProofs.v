(** Proofs for the reading of aircraft files (C111). *)
From Coq Require Import List String ZArith QArith Bool Lia.
From Verif Require Import PyBase PyFacts PyVal SchemaModel ControlModel ControlSpec ControlProofs AircraftIOModel AircraftIOSpec StrFacts AircraftIOProofs LoadSpec.
Import ListNotations.
Open Scope string_scope.

(** ** Dictionaries *)
Lemma existsb_false {A} (f : A -> bool) l : existsb f l = false <-> forall x, In x l -> f x = false.
Proof.
  induction l as [|x l IH]; cbn; [split; auto; intros _ x []|]. rewrite orb_false_iff, IH. split; [intros [A1 A2] y [<-|I]; auto|].
  intro H. split; auto.
Qed.
Definition mem (k : string) (ks : list string) : bool := existsb (String.eqb k) ks.
Lemma mem_in k ks : mem k ks = true <-> In k ks.
Proof.
  unfold mem. rewrite existsb_exists. split; [intros (x & I & E); apply String.eqb_eq in E; subst; exact I|].
  intro I. exists k. split; [exact I|apply String.eqb_refl].
Qed.
Lemma mem_out k ks : mem k ks = false <-> ~ In k ks.
Proof. rewrite <- mem_in. destruct (mem k ks); split; congruence. Qed.

Lemma dict_ext {V} (d d' : dict V) : map fst d = map fst d' -> NoDup (map fst d) -> (forall k, dget d k = dget d' k) -> d = d'.
Proof.
  revert d'. induction d as [|[k v] d IH]; intros [|[k' v'] d'] E N G; cbn in E; try discriminate; [reflexivity|].
  injection E as <- E. inversion N as [|? ? N1 N2]; subst.
  assert (v = v') as <-. { specialize (G k). cbn in G. rewrite String.eqb_refl in G. congruence. }
  f_equal. apply IH; auto. intro y. specialize (G y). cbn in G. destruct (String.eqb_spec y k) as [EQ|]; [|exact G]. rewrite EQ in *. clear EQ y G.
  assert (dget d k = None) as -> by (apply dget_None; exact N1). symmetry. apply dget_None. unfold dkeys. rewrite <- E. exact N1.
Qed.

Lemma dget_nones ks k : dget (nones ks) k = if mem k ks then Some PNone else None.
Proof.
  unfold mem. induction ks as [|k' ks IH]; [reflexivity|]. cbn. destruct (String.eqb k k'); [reflexivity|exact IH].
Qed.
Lemma keys_nones ks : map fst (nones ks) = ks.
Proof. unfold nones. rewrite map_map. apply map_id. Qed.

Lemma dupdate_keys {V} (u d : dict V) : NoDup (map fst u) ->
  map fst (dupdate d u) = (map fst d ++ filter (fun k => negb (mem k (map fst d))) (map fst u))%list.
Proof.
  unfold dupdate. revert d. induction u as [|[k v] u IH]; intros d N; cbn; [symmetry; apply app_nil_r|].
  inversion N as [|? ? N1 N2]; subst. rewrite IH by exact N2. destruct (mem k (map fst d)) eqn:M; cbn.
  - apply mem_in in M. assert (dget d k <> None) by (intro X; apply dget_None in X; contradiction).
    assert (map fst (dset d k v) = map fst d) as -> by (apply (dset_keys_mem d k v); assumption). reflexivity.
  - apply mem_out in M. rewrite dset_fresh by (apply dget_None; exact M). rewrite map_app, <- app_assoc. cbn. f_equal. f_equal.
    apply filter_ext_in. intros k' I. f_equal. unfold mem. rewrite existsb_app. cbn. destruct (String.eqb_spec k' k) as [->|]; [contradiction|].
    rewrite orb_false_r. reflexivity.
Qed.

Definition entries (v : pyval) : dict pyval := match v with PDict d => d | _ => [] end.
Lemma field_entries v k : field v k = dget (entries v) k.
Proof. destruct v; reflexivity. Qed.
Lemma listing_entries ks v : listing ks v = (ks ++ filter (fun k => negb (mem k ks)) (map fst (entries v)))%list.
Proof. destruct v; reflexivity. Qed.
Lemma json_nodup v : json v -> NoDup (map fst (entries v)).
Proof. destruct v; intro J; try constructor. inversion J as [? ? X|?|? N ?]; subst; [exfalso; eapply X; reflexivity|exact N]. Qed.
Lemma json_entry v k x : json v -> field v k = Some x -> json x.
Proof.
  rewrite field_entries. intros J G. apply dget_In in G. destruct v; try contradiction.
  inversion J as [? ? X|?|? N A]; subst; [exfalso; eapply X; reflexivity|]. exact (A _ _ G).
Qed.
Lemma json_none : json PNone.
Proof. constructor; intros ? X; discriminate. Qed.
Lemma json_sub v k : json v -> json (sub v k).
Proof. intro J. unfold sub. destruct (field v k) eqn:F; [exact (json_entry _ _ _ J F)|exact json_none]. Qed.

Lemma listing_nodup ks v : NoDup ks -> json v -> NoDup (listing ks v).
Proof.
  intros N J. rewrite listing_entries. apply json_nodup in J. induction ks as [|k ks _] using rev_ind.
  { cbn. apply NoDup_filter, J. }
  generalize dependent (ks ++ [k])%list. clear ks k. intros ks N.
  assert (D : forall x, In x ks -> ~ In x (filter (fun k => negb (mem k ks)) (map fst (entries v)))).
  { intros x I F. apply filter_In in F as [_ F]. apply mem_in in I. rewrite I in F. discriminate. }
  revert D. generalize (NoDup_filter (fun k => negb (mem k ks)) J). generalize (filter (fun k => negb (mem k ks)) (map fst (entries v))).
  clear J. induction N as [|k ks NI N IH]; intros l NL D; [exact NL|]. cbn. constructor.
  - intro I. apply in_app_or in I as [I|I]; [contradiction|]. apply (D k); [left; reflexivity|exact I].
  - apply IH; [exact NL|]. intros x I. apply D. right. exact I.
Qed.

(** A dictionary of None for [ks], updated with the entries of [v]. *)
Definition fills (ks : list string) (v : pyval) (d : dict pyval) : Prop := map fst d = listing ks v /\ forall k, dget d k = filled ks v k.
Lemma fills_dupdate ks v : json v -> fills ks v (dupdate (nones ks) (entries v)).
Proof.
  intro J. pose proof (json_nodup _ J) as N. split.
  - rewrite dupdate_keys by exact N. rewrite keys_nones, listing_entries. reflexivity.
  - intro k. rewrite dget_dupdate by exact N. unfold filled. rewrite field_entries, dget_nones. reflexivity.
Qed.
Lemma fills_iff ks v d : NoDup ks -> json v -> (fills ks v d <-> d = dupdate (nones ks) (entries v)).
Proof.
  intros N J. split; [|intros ->; apply fills_dupdate, J]. intros [K G]. destruct (fills_dupdate ks v J) as [K' G'].
  apply dict_ext; [congruence|rewrite K; apply listing_nodup; assumption|]. intro k. rewrite G, G'. reflexivity.
Qed.

Lemma object_entries v : object v -> v = PDict (entries v).
Proof. intros [d ->]. reflexivity. Qed.
Lemma sub_object e k : object (sub e k) -> field e k = Some (sub e k) /\ object e.
Proof.
  unfold sub. destruct (field e k) eqn:F; intros [d X]; [|discriminate]. split; [reflexivity|]. destruct e; try discriminate. eexists. reflexivity.
Qed.
Lemma getitem_field e k v : getitem e k = Ok v <-> field e k = Some v.
Proof. destruct e; cbn; try (split; discriminate). destruct (dget d k); split; congruence. Qed.
Lemma items_object v d : items v = Ok d <-> v = PDict d.
Proof. destruct v; cbn; (split; intro H; [try discriminate; injection H as <-; reflexivity|try discriminate; injection H as ->; reflexivity]). Qed.

Lemma copy_items_iff ks e k d : NoDup ks -> json e -> (copy_items (nones ks) e k = Ok d <-> object (sub e k) /\ fills ks (sub e k) d).
Proof.
  intros N J. rewrite (fills_iff ks (sub e k) d N (json_sub _ k J)). unfold copy_items. split.
  - intro H. binds H. injection H as <-. apply getitem_field in E. apply items_object in E0. subst. unfold sub. rewrite E. cbn.
    split; [eexists; reflexivity|reflexivity].
  - intros [O ->]. destruct (sub_object _ _ O) as [F _]. apply getitem_field in F. rewrite F. cbn. rewrite (object_entries _ O). reflexivity.
Qed.

Lemma get_or_iff e k v0 x : get_or e k v0 = Ok x <-> object e /\ x = match field e k with Some v => v | None => v0 end.
Proof.
  unfold get_or. split.
  - intro H. binds H. injection H as <-. apply items_object in E. subst. split; [eexists; reflexivity|reflexivity].
  - intros [[d ->] ->]. reflexivity.
Qed.
Lemma copy_optional_iff ks e k d : NoDup ks -> json e ->
  (copy_optional (nones ks) e k = Ok d <-> object e /\ optional e k /\ fills ks (sub e k) d).
Proof.
  intros N J. pose proof (copy_items_iff ks e k d N J) as CI. unfold copy_optional. split.
  - intro H. binds H. apply get_or_iff in E as [O ->]. split; [exact O|]. unfold optional. fold (sub e k) in H.
    destruct (truthy (sub e k)) eqn:T.
    + apply CI in H as [O' F]. split; [|exact F]. intros v F' _. destruct (sub_object _ _ O') as [F2 _]. congruence.
    + injection H as <-. split.
      * intros v F T'. unfold sub in T. rewrite F in T. congruence.
      * apply fills_iff; [exact N|apply json_sub, J|]. destruct (sub e k); try reflexivity. destruct d; [reflexivity|discriminate].
  - intros (O & P & F). assert (G : get_or e k PNone = Ok (sub e k)) by (apply get_or_iff; split; [exact O|reflexivity]).
    rewrite G. cbn [bind]. destruct (truthy (sub e k)) eqn:T.
    + apply CI. split; [|exact F]. unfold sub in *. destruct (field e k) eqn:X; [|discriminate]. exact (P _ X T).
    + apply fills_iff in F; [|exact N|apply json_sub, J]. subst d. f_equal. destruct (sub e k); try reflexivity. destruct d; [reflexivity|discriminate].
Qed.

(** ** Values *)
Lemma as_float_number v : as_float v = number_of v.
Proof. destruct v as [|[|]| | | | | |]; reflexivity. Qed.
Lemma point_inj v w w' : point v w -> point v w' -> w = w'.
Proof.
  intros (x & y & z & x' & y' & z' & -> & A & B & C & ->) (x1 & y1 & z1 & x1' & y1' & z1' & E & A1 & B1 & C1 & ->).
  injection E as <- <- <-. congruence.
Qed.
Lemma xyz_point v : r_xyz v = true <-> point v (np_array v).
Proof.
  unfold r_xyz. split.
  - intro H. destruct v; try discriminate. apply andb_true_iff in H as [L F]. apply Nat.eqb_eq in L.
    destruct l as [|x [|y [|z [|]]]]; try discriminate. cbn in F. unfold is_num in F.
    destruct (number_of x) as [x'|] eqn:X; [|discriminate]. destruct (number_of y) as [y'|] eqn:Y; [|discriminate].
    destruct (number_of z) as [z'|] eqn:Z; [|discriminate].
    exists x, y, z, x', y', z'. rewrite !as_float_number. split; [reflexivity|]. split; [exact X|]. split; [exact Y|]. split; [exact Z|].
    cbn. unfold to_flt. rewrite X, Y, Z. reflexivity.
  - intros (x & y & z & x' & y' & z' & -> & X & Y & Z & _). rewrite as_float_number in X, Y, Z. cbn. unfold is_num. rewrite X, Y, Z. reflexivity.
Qed.
Lemma point_np v w : point v w -> r_xyz v = true /\ w = np_array v.
Proof.
  intro P. assert (R : r_xyz v = true).
  { destruct P as (x & y & z & x' & y' & z' & -> & X & Y & Z & _). rewrite as_float_number in X, Y, Z. cbn. unfold is_num. rewrite X, Y, Z. reflexivity. }
  split; [exact R|]. apply xyz_point in R. exact (point_inj _ _ _ P R).
Qed.

Section IO.
Variable none_ok int_ok : bool.
Variable root : string.
Variable parse_float : string -> res (option Q).
Variable derive : list pyval -> pyval -> pyval -> res (string -> option Q).
Variable import_airfoils : string -> string -> res unit.
Variable finish_wing : list segdef -> res unit.
Hypothesis Droot : directory root.

Notation pass := (pass none_ok).
Notation flt := (flt int_ok).

Lemma passes_iff (r : rule) P v : (forall v, v <> PNone -> (r v = true <-> P v)) -> (passes none_ok r v = true <-> pass P v).
Proof.
  intro H. unfold passes, LoadSpec.pass. destruct v; try (rewrite H by discriminate; split; [intro X; right; split; [discriminate|exact X]|intros [[X _]|[_ X]]; [discriminate|exact X]]).
  split; [auto|]. intros [[_ X]|[X _]]; [exact X|congruence].
Qed.
Lemma passes_str v : passes none_ok r_str v = true <-> pass text v.
Proof. apply passes_iff. intros [] _; cbn; unfold text; (split; [try discriminate; eauto|intros [s0 X]; congruence]). Qed.
Lemma passes_count v : passes none_ok r_int_pos v = true <-> pass count v.
Proof.
  apply passes_iff. intros [|b|z| | | | |] _; cbn; unfold count; try (split; [discriminate|intros [X|(z' & X & _)]; discriminate]).
  - split; [intros ->; left; reflexivity|]. intros [X|(z' & X & _)]; congruence.
  - rewrite Z.ltb_lt. split; [intro H; right; eauto|]. intros [X|(z' & X & L)]; congruence.
Qed.
Lemma float_iff v : r_float int_ok v = true <-> (is_float v \/ int_ok = true /\ as_float v <> None).
Proof.
  unfold is_float. split.
  - intro H. destruct v as [|b| | | | | |]; try discriminate; [right|right|left; eexists; reflexivity]; (split; [exact H|try destruct b; discriminate]).
  - intros [[x ->]|[X Y]]; [reflexivity|]. destruct v; cbn in *; try congruence; reflexivity.
Qed.
Lemma passes_float v : passes none_ok (r_float int_ok) v = true <-> pass (flt (fun _ => True)) v.
Proof. apply passes_iff. intros w _. unfold LoadSpec.flt. rewrite float_iff. tauto. Qed.
Lemma passes_between lo hi v : passes none_ok (r_float_in int_ok lo hi) v = true <-> pass (flt (between lo hi)) v.
Proof.
  apply passes_iff. intros w _. unfold LoadSpec.flt, r_float_in, between. rewrite andb_true_iff, float_iff, as_float_number.
  apply and_iff_compat_l. destruct (number_of w) as [[q|]|]; try (split; [discriminate|intros (q' & X & _); discriminate]).
  rewrite andb_true_iff, !Qleb_true. split; [intros []; eauto|]. intros (q' & X & L). injection X as <-. exact L.
Qed.

(** ** Vertices *)
Ltac gets := repeat first [rewrite dget_dset_same | rewrite dget_dset_other by discriminate].
Ltac gets_in H := repeat first [rewrite dget_dset_same in H | rewrite dget_dset_other in H by discriminate].
Ltac cases_in I := cbn in I; decompose [or] I; subst; try contradiction.

Lemma dset_keys (d : dict pyval) k v : dget d k <> None -> map fst (dset d k v) = map fst d.
Proof. apply dset_keys_mem. Qed.
Lemma get_mod (d : dict pyval) k v k' : dget (dset d k v) k' = if String.eqb k' k then Some v else dget d k'.
Proof. destruct (String.eqb_spec k' k) as [->|N]; [apply dget_dset_same|apply dget_dset_other, N]. Qed.

Lemma filled_out ks v k : ~ In k ks -> filled ks v k = field v k.
Proof. intro N. unfold filled. destruct (field v k); [reflexivity|]. apply mem_out in N. unfold mem in N. rewrite N. reflexivity. Qed.
Lemma filled_in ks v k x : In k ks -> filled ks v k = Some x -> field v k = Some x \/ (field v k = None /\ x = PNone).
Proof. intros I. unfold filled. destruct (field v k); [auto|]. apply mem_in in I. unfold mem in I. rewrite I. intro H. right. split; congruence. Qed.

Definition V4 := ["a"; "b"; "c"; "d"].
Lemma vertices_sound v d0 d a b c e : object v -> fills V4 v d0 -> json v ->
  check_vertices none_ok d0 = Ok d ->
  existsb (fun kx => negb (is_missing (snd kx)) && negb (existsb (String.eqb (fst kx)) ["a"; "b"; "c"; "d"; ""])) d = false ->
  dget d "a" = Some a -> dget d "b" = Some b -> dget d "c" = Some c -> dget d "d" = Some e ->
  existsb is_missing [a; b; c; e] = false -> vertices_loaded v d.
Proof.
  intros O [K G] J H X Ga Gb Gc Ge M. unfold check_vertices in H. binds H. destruct a0.
  apply modify_ok in E0 as (v1 & w1 & G1 & F1 & ->). apply modify_ok in E1 as (v2 & w2 & G2 & F2 & ->).
  apply modify_ok in E2 as (v3 & w3 & G3 & F3 & ->). apply modify_ok in H as (v4 & w4 & G4 & F4 & ->).
  injection F1 as <-. injection F2 as <-. injection F3 as <-. injection F4 as <-. gets_in G2. gets_in G3. gets_in G4.
  apply validate_ok in E as [_ V]. rewrite !get_mod in Ga, Gb, Gc, Ge. cbn in Ga, Gb, Gc, Ge.
  injection Ga as <-. injection Gb as <-. injection Gc as <-. injection Ge as <-.
  split; [exact O|]. split.
  { rewrite !dset_keys; rewrite ?get_mod; cbn; try congruence. exact K. }
  assert (S : forall k x, In k V4 -> dget d0 k = Some x -> is_missing (np_array x) = false -> field v k = Some x /\ point x (np_array x)).
  { intros k x I D NM. assert (P : passes none_ok r_xyz x = true). { apply (V k); [cases_in I; cbn; auto 10|exact D]. }
    assert (NX : x <> PNone) by (intros ->; discriminate). split.
    - rewrite G in D. destruct (filled_in _ _ _ _ I D) as [F|[_ ->]]; [exact F|congruence].
    - apply xyz_point. unfold passes in P. destruct x; try congruence; exact P. }
  cbn in M. rewrite !orb_false_iff in M. destruct M as (M1 & M2 & M3 & M4 & _).
  split.
  - intros k I.
    assert (W : exists x, dget d0 k = Some x /\ is_missing (np_array x) = false /\ dget (dset (dset (dset (dset d0 "a" (np_array v1)) "b" (np_array v2)) "c" (np_array v3)) "d" (np_array v4)) k = Some (np_array x)).
    { cases_in I; rewrite !get_mod; cbn; eauto. }
    destruct W as (x & D & NM & D'). destruct (S k x I D NM) as [F P]. exists x, (np_array x). auto.
  - intros k N. rewrite existsb_false in X.
    assert (E4 : dget (dset (dset (dset (dset d0 "a" (np_array v1)) "b" (np_array v2)) "c" (np_array v3)) "d" (np_array v4)) k = dget d0 k).
    { rewrite !get_mod. destruct (String.eqb_spec k "d"); [subst; exfalso; apply N; cbn; auto 10|].
      destruct (String.eqb_spec k "c"); [subst; exfalso; apply N; cbn; auto 10|].
      destruct (String.eqb_spec k "b"); [subst; exfalso; apply N; cbn; auto 10|].
      destruct (String.eqb_spec k "a"); [subst; exfalso; apply N; cbn; auto 10|]. reflexivity. }
    split; [rewrite E4, G; apply filled_out, N|].
    intros x F. rewrite G, (filled_out _ _ _ N), F in E4. apply dget_In in E4. specialize (X _ E4). cbn [fst snd] in X.
    destruct x; try (left; reflexivity); right; cbn [is_missing negb andb] in X; apply negb_false_iff in X;
      apply mem_in in X; cbn in X; decompose [or] X; subst; try reflexivity; try contradiction; exfalso; apply N; cbn; auto 10.
Qed.

Lemma fills_get ks v d k : fills ks v d -> dget d k = filled ks v k.
Proof. intros [_ G]. apply G. Qed.
Lemma filled_some ks v k : In k ks -> exists x, filled ks v k = Some x.
Proof. intro I. unfold filled. destruct (field v k); [eauto|]. apply mem_in in I. unfold mem in I. rewrite I. eauto. Qed.
Lemma filled_field ks v k x : field v k = Some x -> filled ks v k = Some x.
Proof. intro F. unfold filled. rewrite F. reflexivity. Qed.
Lemma filled_sub ks ks' v k : In k ks -> In k ks' -> filled ks v k = filled ks' v k.
Proof. intros I I'. unfold filled. destruct (field v k); [reflexivity|]. apply mem_in in I, I'. unfold mem in *. rewrite I, I'. reflexivity. Qed.

Lemma vertices_complete v d0 d : fills V4 v d0 -> json v -> vertices_loaded v d ->
  exists d' a b c e, check_vertices none_ok d0 = Ok d' /\
  existsb (fun kx => negb (is_missing (snd kx)) && negb (existsb (String.eqb (fst kx)) ["a"; "b"; "c"; "d"; ""])) d' = false /\
  dget d' "a" = Some a /\ dget d' "b" = Some b /\ dget d' "c" = Some c /\ dget d' "d" = Some e /\ existsb is_missing [a; b; c; e] = false.
Proof.
  intros [K G] J (O & _ & P & R).
  destruct (P "a") as (xa & wa & Fa & Pa & _); [cbn; auto|]. destruct (P "b") as (xb & wb & Fb & Pb & _); [cbn; auto|].
  destruct (P "c") as (xc & wc & Fc & Pc & _); [cbn; auto 10|]. destruct (P "d") as (xd & wd & Fd & Pd & _); [cbn; auto 10|].
  apply point_np in Pa as [Ra ->]. apply point_np in Pb as [Rb ->]. apply point_np in Pc as [Rc ->]. apply point_np in Pd as [Rd ->].
  assert (Ga := G "a"). assert (Gb := G "b"). assert (Gc := G "c"). assert (Gd := G "d").
  rewrite (filled_field _ _ _ _ Fa) in Ga. rewrite (filled_field _ _ _ _ Fb) in Gb. rewrite (filled_field _ _ _ _ Fc) in Gc. rewrite (filled_field _ _ _ _ Fd) in Gd.
  assert (PN : forall x, r_xyz x = true -> passes none_ok r_xyz x = true) by (intros [] X; try discriminate; exact X).
  assert (NM : forall x, r_xyz x = true -> is_missing (np_array x) = false) by (intros [] X; try discriminate; reflexivity).
  set (d' := dset (dset (dset (dset d0 "a" (np_array xa)) "b" (np_array xb)) "c" (np_array xc)) "d" (np_array xd)).
  exists d', (np_array xa), (np_array xb), (np_array xc), (np_array xd). split.
  { unfold check_vertices.
    assert (V : validate none_ok [] vertices_schema d0 = Ok tt).
    { apply validate_ok. split; [intros k []|]. intros k r I x D. cbn in I.
      decompose [or] I; try contradiction; match goal with X : (_, _) = (_, _) |- _ => injection X as <- <- end; apply PN; congruence. }
    rewrite V. cbn [bind]. unfold modify, getitem. rewrite Ga. cbn [bind]. gets. rewrite Gb. cbn [bind]. gets. rewrite Gc. cbn [bind]. gets.
    rewrite Gd. cbn [bind]. reflexivity. }
  split.
  { apply existsb_false. intros [k x] I. cbn [fst snd].
    assert (D : dget d' k = Some x).
    { apply dget_In_NoDup; [|exact I]. assert (E : map fst d' = listing V4 v).
      { unfold d'. rewrite !dset_keys; rewrite ?get_mod; cbn; try congruence. exact K. }
      unfold dkeys. rewrite E. apply listing_nodup; [nodup|exact J]. }
    destruct (mem k ["a"; "b"; "c"; "d"; ""]) eqn:M; [unfold mem in M; rewrite M; apply andb_false_r|].
    apply mem_out in M. assert (NI : ~ In k ["a"; "b"; "c"; "d"]) by (intro I'; apply M; cases_in I'; cbn; auto 10).
    unfold d' in D. rewrite !get_mod in D. destruct (String.eqb_spec k "d"); [subst; exfalso; apply M; cbn; auto 10|].
    destruct (String.eqb_spec k "c"); [subst; exfalso; apply M; cbn; auto 10|]. destruct (String.eqb_spec k "b"); [subst; exfalso; apply M; cbn; auto 10|].
    destruct (String.eqb_spec k "a"); [subst; exfalso; apply M; cbn; auto 10|].
    rewrite G, filled_out in D by exact NI. destruct (R k NI) as [_ R']. destruct (R' _ D) as [->| ->]; [reflexivity|]. exfalso. apply M. cbn. auto 10. }
  unfold d'. rewrite !get_mod. cbn -[np_array]. rewrite !NM by assumption. auto 10.
Qed.

Lemma vertices_inj v d d' : json v -> vertices_loaded v d -> vertices_loaded v d' -> d = d'.
Proof.
  intros J (_ & K & P & R) (_ & K' & P' & R'). apply dict_ext; [congruence|rewrite K; apply listing_nodup; [nodup|exact J]|].
  intro k. destruct (in_dec string_dec k ["a"; "b"; "c"; "d"]) as [I|N].
  - destruct (P k I) as (x & w & F & Pw & ->). destruct (P' k I) as (x' & w' & F' & Pw' & ->). rewrite F in F'. injection F' as <-.
    f_equal. exact (point_inj _ _ _ Pw Pw').
  - destruct (R k N) as [-> _]. destruct (R' k N) as [-> _]. reflexivity.
Qed.

(** ** Geometry *)
Definition GEO := ["inner_chord"; "inner_alpha"; "inner_beta"; "inner_axis"; "outer_chord"; "outer_alpha"; "outer_beta"; "outer_axis"; "span"; "sweep"; "dihedral"].
Lemma derived_mem k : existsb (String.eqb k) DERIVED = mem k COMPUTED.
Proof.
  change (mem k DERIVED = mem k COMPUTED). destruct (mem k COMPUTED) eqn:M.
  - apply mem_in in M. apply mem_in. cases_in M; cbn; auto 20.
  - apply mem_out in M. apply mem_out. intro I. apply M. cases_in I; cbn; auto 20.
Qed.
Lemma axis_value v k x : filled GEO v k = Some x -> In k GEO -> passes none_ok (r_float_in int_ok 0 1) (default_axis x) = true -> axis_loaded int_ok v k (default_axis x).
Proof.
  intros F I H. apply passes_between in H. destruct (filled_in _ _ _ _ I F) as [E|[E ->]].
  - destruct H as [[H _]|[N H]]; [destruct x; discriminate|]. destruct x; try (left; split; [exact E|split; [discriminate|exact H]]). right. auto.
  - right. auto.
Qed.
Lemma axis_inj v k w w' : axis_loaded int_ok v k w -> axis_loaded int_ok v k w' -> w = w'.
Proof. intros [(A & B & _)|([A|A] & B)] [(A' & B' & _)|([A'|A'] & B')]; congruence. Qed.

Lemma geometry_sound v d0 g vs ai ao f : fills GEO v d0 -> json v -> check_geometry none_ok int_ok d0 = Ok g ->
  dget g "inner_axis" = Some ai -> dget g "outer_axis" = Some ao -> derive vs ai ao = Ok f ->
  geometry_loaded none_ok int_ok derive v vs (set_derived f g).
Proof.
  intros [K G] J H Gi Go D. unfold check_geometry in H. binds H. injection H as <-. destruct a1.
  apply modify_ok in E as (v1 & w1 & G1 & F1 & ->). apply modify_ok in E0 as (v2 & w2 & G2 & F2 & ->).
  injection F1 as <-. injection F2 as <-. gets_in G2. apply validate_ok in E1 as [_ V]. gets_in Gi. gets_in Go.
  injection Gi as <-. injection Go as <-.
  match goal with |- context [set_derived f ?x] => set (g := x) in * end.
  assert (KG : map fst g = listing GEO v) by (unfold g; rewrite !dset_keys; rewrite ?get_mod; cbn; try congruence; exact K).
  assert (KS : forall l x, (forall k, In k l -> dget x k <> None) -> map fst (fold_left (fun acc k => dset acc k (PFlt (f k))) l x) = map fst x).
  { induction l as [|k l IH]; intros x A; [reflexivity|]. cbn. rewrite IH.
    - apply dset_keys, A. left. reflexivity.
    - intros k' I. rewrite get_mod. destruct (String.eqb k' k); [discriminate|]. apply A. right. exact I. }
  split. { unfold set_derived. rewrite KS; [exact KG|]. intros k I X. apply dget_None in X. apply X. unfold dkeys. rewrite KG. apply in_or_app. left. cases_in I; cbn; auto 20. }
  assert (OTHER : forall k, k <> "inner_axis" -> k <> "outer_axis" -> dget g k = filled GEO v k).
  { intros k N1 N2. unfold g. rewrite !dget_dset_other by assumption. apply G. }
  exists (default_axis v1), (default_axis v2), f.
  split. { rewrite G in G1. apply axis_value; [exact G1|cbn; auto 20|]. apply (V "inner_axis"); [cbn; auto 20|]. unfold g. gets. reflexivity. }
  split. { rewrite G in G2. apply axis_value; [exact G2|cbn; auto 20|]. apply (V "outer_axis"); [cbn; auto 20|]. unfold g. gets. reflexivity. }
  split. { rewrite set_derived_get. cbn. unfold g. gets. reflexivity. }
  split. { rewrite set_derived_get. cbn. unfold g. gets. reflexivity. }
  split; [exact D|].
  split. { intros k I. rewrite set_derived_get, derived_mem. apply mem_in in I. rewrite I. reflexivity. }
  split.
  { intros k N. rewrite set_derived_get, derived_mem.
    assert (N' : ~ In k COMPUTED) by (intro I; apply N; right; right; exact I). apply mem_out in N'. rewrite N'.
    rewrite OTHER by (intros ->; apply N; cbn; auto). apply filled_out. intro I. apply N. cases_in I; cbn; auto 20. }
  assert (A : forall k r x, In (k, r) (geometry_schema int_ok) -> In k COMPUTED -> filled COMPUTED v k = Some x -> passes none_ok r x = true).
  { intros k r x I C F. apply (V k r I). rewrite OTHER by (intros ->; cases_in C; discriminate).
    rewrite (filled_sub GEO COMPUTED) by (try exact C; cases_in C; cbn; auto 20). exact F. }
  split; [|split].
  - intros k x I F. apply passes_float. apply (A k); [|cases_in I; cbn; auto 20|exact F]. cases_in I; cbn; auto 20.
  - intros k x I F. apply passes_between. apply (A k); [|cases_in I; cbn; auto 20|exact F]. cases_in I; cbn; auto 20.
  - intros x F. apply passes_between. apply (A "dihedral"); [cbn; auto 20|cbn; auto 20|exact F].
Qed.

Lemma geometry_complete v d0 d vs : fills GEO v d0 -> json v -> geometry_loaded none_ok int_ok derive v vs d ->
  exists g ai ao f, check_geometry none_ok int_ok d0 = Ok g /\ dget g "inner_axis" = Some ai /\ dget g "outer_axis" = Some ao /\ derive vs ai ao = Ok f.
Proof.
  intros [K G] J (_ & ai & ao & f & Ai & Ao & _ & _ & D & _ & _ & C1 & C2 & C3).
  assert (AX : forall k w, In k ["inner_axis"; "outer_axis"] -> axis_loaded int_ok v k w -> exists x, filled GEO v k = Some x /\ default_axis x = w).
  { intros k w I [(F & N & B)|([F|F] & ->)].
    - exists w. split; [apply filled_field, F|]. destruct w; try reflexivity. congruence.
    - exists PNone. split; [|reflexivity]. unfold filled. rewrite F. cases_in I; reflexivity.
    - exists PNone. split; [apply filled_field, F|reflexivity]. }
  destruct (AX "inner_axis" ai) as (xi & Fi & Ei); [cbn; auto|exact Ai|]. destruct (AX "outer_axis" ao) as (xo & Fo & Eo); [cbn; auto|exact Ao|].
  set (g := dset (dset d0 "inner_axis" ai) "outer_axis" ao).
  exists g, ai, ao, f. split; [|split; [|split; [|exact D]]]; [|unfold g; gets; reflexivity..].
  unfold check_geometry, modify, getitem. rewrite G, Fi. cbn [bind]. gets. rewrite G, Fo. cbn [bind]. rewrite Ei, Eo. fold g.
  assert (V : validate none_ok ["inner_axis"; "outer_axis"] (geometry_schema int_ok) g = Ok tt); [|rewrite V; reflexivity].
  assert (OK : forall k w, axis_loaded int_ok v k w -> passes none_ok (r_float_in int_ok 0 1) w = true).
  { intros k w [(F & N & B)|(_ & ->)]; apply passes_between.
    - right. split; assumption.
    - right. split; [discriminate|]. split; [left; eexists; reflexivity|]. exists (1 # 4). split; [reflexivity|]. split; discriminate. }
  apply validate_ok. split.
  { intros k I. unfold g. cases_in I; gets; discriminate. }
  assert (OTHER : forall k x, In k COMPUTED -> dget g k = Some x -> filled COMPUTED v k = Some x).
  { intros k x I. unfold g. rewrite !dget_dset_other by (intros ->; cases_in I; discriminate). rewrite G.
    rewrite (filled_sub GEO COMPUTED) by (try exact I; cases_in I; cbn; auto 20). auto. }
  intros k r I x Dk. cbn in I. decompose [or] I; try contradiction; match goal with X : (_, _) = (_, _) |- _ => injection X as <- <- end;
    first [ apply passes_float; refine (C1 _ _ _ (OTHER _ _ _ Dk)); solve [cbn; auto 20]
          | apply passes_between; refine (C2 _ _ _ (OTHER _ _ _ Dk)); solve [cbn; auto 20]
          | apply passes_between; refine (C3 _ (OTHER _ _ _ Dk)); solve [cbn; auto 20]
          | unfold g in Dk; gets_in Dk; injection Dk as <-; eapply OK; eassumption ].
Qed.

Lemma geometry_inj v vs d d' : json v -> geometry_loaded none_ok int_ok derive v vs d -> geometry_loaded none_ok int_ok derive v vs d' -> d = d'.
Proof.
  intros J (K & ai & ao & f & Ai & Ao & Gi & Go & D & C & R & _) (K' & ai' & ao' & f' & Ai' & Ao' & Gi' & Go' & D' & C' & R' & _).
  rewrite <- (axis_inj _ _ _ _ Ai Ai') in *. rewrite <- (axis_inj _ _ _ _ Ao Ao') in *. rewrite D in D'. injection D' as <-.
  apply dict_ext; [congruence|rewrite K; apply listing_nodup; [nodup|exact J]|].
  intro k. destruct (string_dec k "inner_axis") as [->|N1]; [congruence|]. destruct (string_dec k "outer_axis") as [->|N2]; [congruence|].
  destruct (in_dec string_dec k COMPUTED) as [I|N]; [rewrite C, C' by exact I; reflexivity|].
  rewrite R, R'; [reflexivity|intros [|[|]]; congruence..].
Qed.

(** ** Airfoils *)
Definition AF := ["inner"; "outer"].
Definition renamed (v : pyval) (d : dict pyval) : Prop :=
  object v /\ map fst d = listing AF v /\
  forall k, match field v k with
            | Some x => exists n m, x = PStr n /\ located root n m /\ dget d k = Some (PStr m)
            | None => dget d k = filled AF v k
            end.
Lemma load_airfoil_iff v w : load_airfoil root v = Ok w <-> exists n m, v = PStr n /\ located root n m /\ w = PStr m.
Proof.
  unfold load_airfoil, located. split.
  - intro H. destruct v; try discriminate. injection H as <-. destruct (String.prefix AIRFOILS s) eqn:P.
    + exists s, (path_join root s). split; [reflexivity|]. split; [|reflexivity]. left. split; [apply prefix_iff, P|]. apply join_root; assumption.
    + exists s, s. split; [reflexivity|]. split; [|reflexivity]. right. split; [|reflexivity]. intro B. apply prefix_iff in B. unfold AIRFOILS in P. congruence.
  - intros (n & m & -> & [[B ->]|[B ->]] & ->).
    + apply prefix_iff in B. unfold AIRFOILS. rewrite B. rewrite join_root by assumption. reflexivity.
    + destruct (String.prefix AIRFOILS n) eqn:P; [|reflexivity]. exfalso. apply B, prefix_iff, P.
Qed.
Lemma located_inj n m m' : located root n m -> located root n m' -> m = m'.
Proof. intros [[A B]|[A B]] [[A' B']|[A' B']]; congruence || contradiction. Qed.

Lemma load_airfoils_sound u : forall acc r, load_airfoils root u acc = Ok r -> NoDup (map fst u) ->
  exists u', map fst u' = map fst u /\ r = dupdate acc u' /\
  forall k, match dget u k with
            | Some x => exists n m, x = PStr n /\ located root n m /\ dget u' k = Some (PStr m)
            | None => dget u' k = None
            end.
Proof.
  induction u as [|[k v] u IH]; intros acc r H N; cbn in H.
  - injection H as <-. exists []. split; [reflexivity|]. split; [reflexivity|]. intro k. reflexivity.
  - binds H. inversion N as [|? ? N1 N2]; subst. destruct (IH _ _ H N2) as (u' & K & -> & G). exists ((k, a) :: u')%list.
    split; [cbn; congruence|]. split; [reflexivity|]. intro k'. cbn. destruct (String.eqb_spec k' k) as [EQ|NE]; [|apply G].
    apply load_airfoil_iff in E as (n & m & -> & L & ->). eauto.
Qed.
Lemma load_airfoils_total u : forall acc, (forall k x, In (k, x) u -> exists n, x = PStr n) -> exists r, load_airfoils root u acc = Ok r.
Proof.
  induction u as [|[k v] u IH]; intros acc A; cbn; [eauto|]. destruct (A k v) as [n ->]; [left; reflexivity|]. cbn.
  apply IH. intros k' x I. apply (A k' x). right. exact I.
Qed.
Lemma renamed_inj v d d' : json v -> renamed v d -> renamed v d' -> d = d'.
Proof.
  intros J (_ & K & G) (_ & K' & G'). apply dict_ext; [congruence|rewrite K; apply listing_nodup; [nodup|exact J]|].
  intro k. specialize (G k). specialize (G' k). destruct (field v k) as [x|]; [|congruence].
  destruct G as (n & m & -> & L & ->). destruct G' as (n' & m' & E & L' & ->). injection E as <-. rewrite (located_inj _ _ _ L L'). reflexivity.
Qed.
Lemma load_airfoils_iff u d : json (PDict u) -> (load_airfoils root u new_airfoils = Ok d <-> renamed (PDict u) d).
Proof.
  intro J. pose proof (json_nodup _ J) as N. cbn in N.
  assert (S : forall d, load_airfoils root u new_airfoils = Ok d -> renamed (PDict u) d).
  { intros x H. destruct (load_airfoils_sound _ _ _ H N) as (u' & K & -> & G). split; [eexists; reflexivity|].
    assert (N' : NoDup (map fst u')) by congruence. split.
    - rewrite dupdate_keys by exact N'. unfold new_airfoils. rewrite keys_nones, listing_entries, K. reflexivity.
    - intro k. specialize (G k). rewrite dget_dupdate by exact N'. cbn [field]. destruct (dget u k) as [y|] eqn:D.
      + destruct G as (n & m & -> & L & ->). eauto.
      + rewrite G. unfold new_airfoils. rewrite dget_nones. unfold filled. cbn [field]. rewrite D. reflexivity. }
  split; [apply S|]. intro R. destruct (load_airfoils_total u new_airfoils) as [r H].
  - intros k x I. destruct R as (_ & _ & G). specialize (G k). cbn in G. rewrite (dget_In_NoDup u k x N I) in G.
    destruct G as (n & _ & -> & _). eauto.
  - rewrite H. f_equal. apply (renamed_inj (PDict u)); auto.
Qed.

Lemma renamed_value v d k : renamed v d -> In k AF -> exists x, dget d k = Some x /\ (x = PNone \/ exists s, x = PStr s) /\ (x = PNone <-> filled AF v k = Some PNone).
Proof.
  intros (_ & _ & G) I. specialize (G k). destruct (field v k) as [x|] eqn:F.
  - destruct G as (n & m & -> & _ & ->). exists (PStr m). split; [reflexivity|]. split; [eauto|]. rewrite (filled_field _ _ _ _ F). split; discriminate.
  - rewrite G. unfold filled. rewrite F. apply mem_in in I. unfold mem in I. rewrite I. exists PNone. split; [reflexivity|]. split; [auto|]. split; reflexivity.
Qed.

Lemma airfoil_schema_iff v d : renamed v d ->
  (validate none_ok ["inner"; "outer"] airfoil_schema d = Ok tt <-> entry_of none_ok v ["inner"; "outer"] text).
Proof.
  intro R. rewrite validate_ok. split.
  - intros [_ V] k x I F. destruct (renamed_value v d k R I) as (y & D & T & E).
    assert (P : passes none_ok r_str y = true) by (apply (V k); [cases_in I; cbn; auto|exact D]). apply passes_str in P.
    destruct P as [[-> P]|[N P]].
    + left. split; [|exact P]. pose proof (proj1 E eq_refl). unfold AF in *. congruence.
    + right. destruct R as (_ & _ & G). specialize (G k). destruct (filled_in _ _ _ _ I F) as [F'|[F' ->]]; rewrite F' in G.
      * destruct G as (n & m & -> & _). split; [discriminate|eexists; reflexivity].
      * exfalso. apply N, E, F.
  - intro H. split.
    + intros k I D. destruct (renamed_value v d k R I) as (y & D' & _). congruence.
    + intros k r I x D. assert (I' : In k AF /\ r = r_str) by (cbn in I; decompose [or] I; try contradiction; match goal with X : (_, _) = _ |- _ => injection X as <- <- end; cbn; auto).
      destruct I' as [I' ->]. destruct (renamed_value v d k R I') as (y & D' & T & E). rewrite D in D'. injection D' as <-.
      destruct T as [->|[s ->]]; [|reflexivity]. destruct (H k PNone I' (proj1 E eq_refl)) as [[_ O]|[N _]]; [exact O|congruence].
Qed.

Lemma airfoils_sound v d fi fo : renamed v d -> validate none_ok ["inner"; "outer"] airfoil_schema d = Ok tt ->
  dget d "inner" = Some fi -> dget d "outer" = Some fo -> import_airfoils (py_str fi) (py_str fo) = Ok tt ->
  airfoils_loaded none_ok root import_airfoils v d.
Proof.
  intros R V Gi Go I. pose proof (proj1 (airfoil_schema_iff v d R) V) as EN. pose proof R as (O & K & G).
  split; [exact O|]. split; [exact K|]. split; [exact G|]. split; [exact EN|].
  exists (py_str fi), (py_str fo). split; [exact I|]. intros k n J.
  assert (X : forall k' x, In k' AF -> dget d k' = Some x -> dget d k' = Some (PStr (py_str x)) \/ dget d k' = Some PNone /\ py_str x = "None").
  { intros k' x I' D. destruct (renamed_value v d k' R I') as (y & D' & T & _). rewrite D in D'. injection D' as <-. rewrite D.
    destruct T as [->|[s ->]]; [right; auto|left; reflexivity]. }
  destruct J as [E|[E|[]]]; injection E as <- <-; apply X; try assumption; cbn; auto.
Qed.
Lemma airfoils_complete v d : airfoils_loaded none_ok root import_airfoils v d ->
  renamed v d /\ validate none_ok ["inner"; "outer"] airfoil_schema d = Ok tt /\
  exists fi fo, dget d "inner" = Some fi /\ dget d "outer" = Some fo /\ import_airfoils (py_str fi) (py_str fo) = Ok tt.
Proof.
  intros (O & K & G & EN & i & o & I & N). assert (R : renamed v d) by (split; [exact O|split; [exact K|exact G]]).
  split; [exact R|]. split; [apply (airfoil_schema_iff v d R), EN|].
  assert (Xi := N "inner" i (or_introl eq_refl)). assert (Xo := N "outer" o (or_intror (or_introl eq_refl))).
  destruct Xi as [Xi|[Xi ->]], Xo as [Xo|[Xo ->]]; eexists; eexists; (split; [exact Xi|split; [exact Xo|exact I]]).
Qed.

(** ** Copied dictionaries *)
Lemma copied_iff ks sc P v d : NoDup ks -> fills ks v d -> (forall k, In k ks <-> exists r, In (k, r) sc) ->
  (forall k r, In (k, r) sc -> forall x, passes none_ok r x = true <-> pass P x) ->
  forall req, incl req ks -> (validate none_ok req sc d = Ok tt <-> copied none_ok ks v d P).
Proof.
  intros N [K G] A B req Q. rewrite validate_ok. split.
  - intros [_ V]. split; [exact K|]. split; [exact G|]. intros k x I F. destruct (proj1 (A k) I) as [r Ir]. apply (B k r Ir). apply (V k r Ir).
    rewrite G. exact F.
  - intros (_ & _ & E). split.
    + intros k I. rewrite G. destruct (filled_some ks v k (Q _ I)) as [x ->]. discriminate.
    + intros k r I x D. apply (B k r I). rewrite G in D. apply (E k x); [apply A; eauto|exact D].
Qed.

(** ** Segments *)
Definition parsed_seg (e : pyval) (s : segdef) : Prop :=
  field e "uid" = Some (PStr (sd_uid s)) /\
  (object (sub e "vertices") /\ fills V4 (sub e "vertices") (sd_vertices s)) /\
  (optional e "geometry" /\ fills GEO (sub e "geometry") (sd_geometry s)) /\
  renamed (sub e "airfoils") (sd_airfoils s) /\
  (optional e "panels" /\ fills ["num_c"; "num_s"] (sub e "panels") (sd_panels s)).

Lemma new_uid_iff {V} (d : dict V) u s : new_uid d u = Ok s <-> u = PStr s /\ dget d s = None /\ s <> "".
Proof.
  split; [apply new_uid_ok|]. intros (-> & G & N). apply new_uid_fresh; assumption.
Qed.
Lemma field_object e k v : field e k = Some v -> object e.
Proof. destruct e; try discriminate. intros _. eexists. reflexivity. Qed.

Lemma parse_segment_iff segs e r : json e ->
  (parse_segment root segs e = Ok r <-> exists s, parsed_seg e s /\ dget segs (sd_uid s) = None /\ sd_uid s <> "" /\ r = dset segs (sd_uid s) s).
Proof.
  intro J. unfold parse_segment. split.
  - intro H. binds H. injection H as <-. apply new_uid_iff in E0 as (-> & G & NE). apply getitem_field in E.
    apply copy_items_iff in E1 as [O1 F1]; [|nodup|exact J]. apply copy_optional_iff in E2 as (_ & P2 & F2); [|nodup|exact J].
    apply getitem_field in E3. apply items_object in E4. subst a3. apply load_airfoils_iff in E5; [|exact (json_entry _ _ _ J E3)].
    apply copy_optional_iff in E6 as (_ & P6 & F6); [|nodup|exact J].
    exists (mkSD a0 a1 a2 a5 a6). split; [|split; [|split; [|reflexivity]]]; cbn; try assumption.
    split; [exact E|]. split; [auto|]. split; [auto|]. split; [|auto]. cbn. unfold sub. rewrite E3. exact E5.
  - intros ([u vs g af p] & (U & [O1 F1] & [P2 F2] & R & [P6 F6]) & G & NE & ->). cbn [sd_uid sd_vertices sd_geometry sd_airfoils sd_panels] in *.
    pose proof (field_object _ _ _ U) as Oe.
    rewrite (proj2 (getitem_field _ _ _) U). cbn [bind]. rewrite (proj2 (new_uid_iff _ _ _) (conj eq_refl (conj G NE))). cbn [bind].
    change new_vertices with (nones V4). rewrite (proj2 (copy_items_iff V4 e "vertices" vs ltac:(nodup) J) (conj O1 F1)). cbn [bind].
    change new_geometry with (nones GEO). rewrite (proj2 (copy_optional_iff GEO e "geometry" g ltac:(nodup) J) (conj Oe (conj P2 F2))). cbn [bind].
    pose proof R as (Oa & _). destruct (sub_object _ _ Oa) as [Fa _]. rewrite (proj2 (getitem_field _ _ _) Fa). cbn [bind].
    pose proof (json_sub e "airfoils" J) as Ja. rewrite (object_entries _ Oa) in R, Ja |- *. cbn [items bind].
    rewrite (proj2 (load_airfoils_iff _ _ Ja) R). cbn [bind].
    change new_seg_panels with (nones ["num_c"; "num_s"]). rewrite (proj2 (copy_optional_iff ["num_c"; "num_s"] e "panels" p ltac:(nodup) J) (conj Oe (conj P6 F6))). reflexivity.
Qed.

Notation generate_segment := (generate_segment none_ok int_ok derive import_airfoils).
Notation segment_loaded := (segment_loaded none_ok int_ok root derive import_airfoils).

Lemma panels_iff v d : fills ["num_c"; "num_s"] v d -> (validate none_ok [] seg_panel_schema d = Ok tt <-> copied none_ok ["num_c"; "num_s"] v d count).
Proof.
  intro F. apply copied_iff; [nodup|exact F| | |intros k []].
  - intro k. cbn. split; [intros [<-|[<-|[]]]; eauto|]. intros (r & [E|[E|[]]]); injection E as <- <-; auto.
  - intros k r I x. cbn in I. destruct I as [E|[E|[]]]; injection E as <- <-; apply passes_count.
Qed.

Lemma segment_sound e s0 s : json e -> parsed_seg e s0 -> generate_segment s0 = Ok s -> segment_loaded e s /\ sd_uid s = sd_uid s0.
Proof.
  intros J (U & [O1 F1] & [P2 F2] & R & [P6 F6]) H. unfold AircraftIOModel.generate_segment in H. binds H.
  destruct (existsb (fun kx => _) a) eqn:X; [discriminate|]. binds H.
  destruct (existsb is_missing _) eqn:M; [discriminate|]. binds H. injection H as <-. destruct a1, a2, a12.
  apply getitem_field in E3, E4, E5, E6, E7, E8, E10, E11. cbn [field] in *.
  split; [|reflexivity]. unfold LoadSpec.segment_loaded. cbn [sd_uid sd_vertices sd_geometry sd_airfoils sd_panels].
  split; [exact U|]. split; [eapply vertices_sound; try eassumption; apply json_sub, J|].
  split; [exact P2|]. split.
  { exists a3, a4, a5, a6. split; [cbn [map]; congruence|]. eapply geometry_sound; try eassumption. apply json_sub, J. }
  split; [eapply airfoils_sound; eassumption|]. split; [exact P6|]. apply panels_iff; assumption.
Qed.

Lemma segment_inj e s s' : json e -> segment_loaded e s -> segment_loaded e s' -> s = s'.
Proof.
  intros J (U & V & _ & (a & b & c & d & M & G) & A & _ & K & C & _) (U' & V' & _ & (a' & b' & c' & d' & M' & G') & A' & _ & K' & C' & _).
  pose proof (vertices_inj _ _ _ (json_sub e _ J) V V') as EV. rewrite <- EV in M'. rewrite M in M'. injection M' as <- <- <- <-.
  pose proof (geometry_inj _ _ _ _ (json_sub e _ J) G G') as EG.
  apply airfoils_complete in A as (R & _). apply airfoils_complete in A' as (R' & _).
  pose proof (renamed_inj _ _ _ (json_sub e _ J) R R') as EA.
  assert (EP : sd_panels s = sd_panels s').
  { apply dict_ext; [congruence|rewrite K; apply listing_nodup; [nodup|apply json_sub, J]|]. intro k. rewrite C, C'. reflexivity. }
  destruct s, s'. cbn in *. congruence.
Qed.

Lemma segment_complete e s : json e -> segment_loaded e s -> exists s0, parsed_seg e s0 /\ sd_uid s0 = sd_uid s /\ generate_segment s0 = Ok s.
Proof.
  intros J L. pose proof L as (U & V & PG & (a & b & c & d & M & G) & A & PP & C).
  pose proof V as (OV & _). pose proof (airfoils_complete _ _ A) as (R & VA & fi & fo & Gi & Go & IM).
  set (s0 := mkSD (sd_uid s) (dupdate (nones V4) (entries (sub e "vertices"))) (dupdate (nones GEO) (entries (sub e "geometry"))) (sd_airfoils s) (sd_panels s)).
  assert (FV : fills V4 (sub e "vertices") (sd_vertices s0)) by (apply fills_dupdate, json_sub, J).
  assert (FG : fills GEO (sub e "geometry") (sd_geometry s0)) by (apply fills_dupdate, json_sub, J).
  assert (FP : fills ["num_c"; "num_s"] (sub e "panels") (sd_panels s0)) by (destruct C as (K & D & _); split; [exact K|exact D]).
  exists s0. assert (PS : parsed_seg e s0) by (split; [exact U|]; split; [auto|]; split; [auto|]; split; [exact R|auto]).
  split; [exact PS|]. split; [reflexivity|].
  destruct (vertices_complete _ _ _ FV (json_sub e _ J) V) as (d' & a' & b' & c' & e' & CV & X & Ga & Gb & Gc & Gd & MI).
  assert (d' = sd_vertices s) as ->.
  { apply (vertices_inj (sub e "vertices")); [apply json_sub, J| |exact V]. eapply vertices_sound; try eassumption. apply json_sub, J. }
  cbn [map] in M. rewrite Ga, Gb, Gc, Gd in M. injection M as -> -> -> ->.
  destruct (geometry_complete _ _ _ _ FG (json_sub e _ J) G) as (g & ai & ao & f & CG & Ai & Ao & DF).
  assert (H : generate_segment s0 = Ok (mkSD (sd_uid s) (sd_vertices s) (set_derived f g) (sd_airfoils s) (sd_panels s))).
  { unfold AircraftIOModel.generate_segment. rewrite CV. cbn [bind]. rewrite CG. cbn [bind]. unfold s0 at 1. cbn [sd_airfoils]. rewrite VA. cbn [bind].
    rewrite (proj2 (panels_iff _ _ FP) C). cbn [bind]. rewrite X. unfold getitem. rewrite Ga, Gb, Gc, Gd. cbn [bind]. rewrite MI, Ai, Ao. cbn [bind].
    rewrite DF. cbn [bind]. unfold s0 at 1 2. cbn [sd_airfoils]. rewrite Gi, Go. cbn [bind]. rewrite IM. reflexivity. }
  rewrite H. f_equal. apply (segment_inj e); [exact J| |exact L]. exact (proj1 (segment_sound _ _ _ J PS H)).
Qed.

(** ** Lists of parts *)
Lemma parse_list_sound {V} (f : dict V -> pyval -> res (dict V)) (name : V -> string) (P : pyval -> V -> Prop) :
  (forall acc e r, json e -> f acc e = Ok r -> exists x, P e x /\ dget acc (name x) = None /\ name x <> "" /\ r = dset acc (name x) x) ->
  forall l acc r, (forall e, In e l -> json e) -> parse_list f acc l = Ok r ->
  exists d, r = (acc ++ d)%list /\ Forall2 P l (map snd d) /\ map fst d = map name (map snd d) /\ ~ In "" (map fst d) /\ (NoDup (map fst acc) -> NoDup (map fst r)).
Proof.
  intros H l. induction l as [|e l IH]; intros acc r J E; cbn in E.
  - injection E as <-. exists []. rewrite app_nil_r. split; [reflexivity|]. split; [constructor|]. split; [reflexivity|]. split; [intros []|auto].
  - binds E. apply H in E0 as (x & Px & G & NE & ->); [|apply J; left; reflexivity].
    destruct (IH _ _ (fun y I => J y (or_intror I)) E) as (d & -> & F & N & NN & ND). rewrite dset_fresh in * by exact G.
    exists ((name x, x) :: d)%list. rewrite <- app_assoc in *. cbn in *. split; [reflexivity|]. split; [constructor; assumption|]. split; [congruence|].
    split; [intros [X|X]; [congruence|contradiction]|]. intro A. apply ND. rewrite <- (dset_fresh _ _ x G). apply dset_NoDup, A.
Qed.
Lemma parse_list_complete {V} (f : dict V -> pyval -> res (dict V)) (name : V -> string) (Q : pyval -> V -> Prop) (T : V -> V -> Prop) :
  (forall acc e y, json e -> Q e y -> dget acc (name y) = None -> name y <> "" -> exists x, f acc e = Ok (dset acc (name y) x) /\ name x = name y /\ T x y) ->
  forall l d acc, (forall e, In e l -> json e) -> Forall2 Q l (map snd d) -> map fst d = map name (map snd d) -> ~ In "" (map fst d) ->
  NoDup (map fst acc ++ map fst d) ->
  exists d0, parse_list f acc l = Ok (acc ++ d0)%list /\ Forall2 (fun a b => fst a = fst b /\ T (snd a) (snd b)) d0 d.
Proof.
  intros H l. induction l as [|e l IH]; intros d acc J F N NN ND.
  - inversion F as [E|]. destruct d; [|discriminate]. exists []. rewrite app_nil_r. split; [reflexivity|constructor].
  - destruct d as [|[k y] d]; [inversion F|]. cbn in *. inversion F as [|? ? ? ? Qy F']; subst. injection N as -> N.
    destruct (H acc e y) as (x & E & NX & TX); [apply J; auto|exact Qy| |intro X; apply NN; auto|].
    { apply dget_None. intro I. apply NoDup_remove_2 in ND. apply ND, in_or_app. left. exact I. }
    rewrite E. cbn [bind]. rewrite dset_fresh.
    2:{ apply dget_None. intro I. apply NoDup_remove_2 in ND. apply ND, in_or_app. left. exact I. }
    destruct (IH d (acc ++ [(name y, x)])%list) as (d0 & E' & F2); auto.
    { rewrite map_app, <- app_assoc. exact ND. }
    exists ((name y, x) :: d0)%list. rewrite <- app_assoc in E'. split; [exact E'|]. constructor; [split; [reflexivity|exact TX]|exact F2].
Qed.

Lemma generate_list_iff {V} (f : V -> res V) d d' : generate_list f d = Ok d' <-> Forall2 (fun a b => fst a = fst b /\ f (snd a) = Ok (snd b)) d d'.
Proof.
  revert d'. induction d as [|[k x] d IH]; intro d'; cbn.
  - split; [intro H; injection H as <-; constructor|intro H; inversion H; reflexivity].
  - split.
    + intro H. binds H. injection H as <-. constructor; [auto|]. apply IH. assumption.
    + intro H. inversion H as [|? [k' x'] ? d'' [A B] F]; subst. cbn in *. subst. rewrite B. cbn [bind]. rewrite (proj2 (IH _) F). reflexivity.
Qed.

Lemma parts_generate {V} (name : V -> string) (P Q : pyval -> V -> Prop) (f : V -> res V) l d d' :
  (forall e x y, In e l -> P e x -> f x = Ok y -> Q e y /\ name y = name x) ->
  Forall2 P l (map snd d) -> map fst d = map name (map snd d) -> Forall2 (fun a b => fst a = fst b /\ f (snd a) = Ok (snd b)) d d' ->
  Forall2 Q l (map snd d') /\ map fst d' = map name (map snd d') /\ map fst d' = map fst d.
Proof.
  revert d d'. induction l as [|e l IH]; intros d d' H F N G.
  - inversion F as [E|]. destruct d; [|discriminate]. inversion G. split; [constructor|split; reflexivity].
  - destruct d as [|[k x] d]; [inversion F|]. inversion G as [|? [k' y] ? d1 [A B] G']; subst. cbn in *. inversion F; subst. injection N as -> N. subst.
    destruct (H e x y) as [Qy NY]; auto. destruct (IH d d1) as (F1 & N1 & K1); auto.
    split; [constructor; assumption|]. split; congruence.
Qed.

(** ** Reference values *)
Definition RK := ["area"; "span"; "chord"; "gcenter"; "rcenter"; "comment"].
Notation generate_refs := (generate_refs none_ok int_ok parse_float).
Notation refs_loaded := (refs_loaded none_ok parse_float).

Lemma positive_iff x : passes none_ok (r_float_pos int_ok) (PFlt x) = true <-> exists q, x = Some q /\ (0 < q)%Q.
Proof.
  cbn. destruct x as [q|]; [|split; [discriminate|intros (q & X & _); discriminate]]. unfold Qltb. rewrite negb_true_iff.
  split; [intro H; exists q; split; [reflexivity|]|intros (q' & X & L); injection X as <-].
  - destruct (Qlt_le_dec 0 q) as [L|L]; [exact L|]. apply Qle_bool_iff in L. unfold Qleb in H. congruence.
  - apply not_true_iff_false. intro E. apply Qle_bool_iff in E. exact (Qlt_not_le _ _ L E).
Qed.

Lemma reference_iff v w : (exists x, py_float parse_float v = Ok (PFlt (Some x)) /\ (0 < x)%Q /\ w = PFlt (Some x)) <-> reference parse_float v w.
Proof.
  unfold reference, py_float. split.
  - intros (x & H & L & ->). exists x. split; [reflexivity|]. split; [exact L|].
    destruct v; cbn in H; binds H; try discriminate.
    + left. injection H as <-. destruct b; reflexivity.
    + left. cbn. congruence.
    + left. cbn. congruence.
    + right. exists s. split; [reflexivity|]. congruence.
  - intros (q & -> & L & [A|(s & -> & A)]); exists q; (split; [|auto]).
    + destruct v as [|[|]| | | | | |]; cbn in A |- *; try discriminate; congruence.
    + rewrite A. reflexivity.
Qed.
Lemma reference_inj v w w' : reference parse_float v w -> reference parse_float v w' -> w = w'.
Proof.
  intros A B. apply reference_iff in A as (x & A & _ & ->). apply reference_iff in B as (y & B & _ & ->). congruence.
Qed.

Lemma py_list_point v l : py_list v = Ok (PList l) -> r_xyz (PList l) = true -> v = PList l.
Proof.
  unfold py_list. intros H X. binds H. injection H as <-.
  assert (NS : forall s, ~ In (PStr s) a).
  { intros s I. cbn in X. apply andb_true_iff in X as [_ X]. rewrite forallb_forall in X. specialize (X _ I). discriminate. }
  assert (NE : a <> []) by (intros ->; discriminate).
  destruct v; cbn in E; try discriminate; injection E as <-.
  - exfalso. destruct s as [|c s]; [apply NE; reflexivity|]. eapply NS. left. reflexivity.
  - reflexivity.
  - exfalso. destruct d as [|[k x] d]; [apply NE; reflexivity|]. eapply NS. left. reflexivity.
Qed.

Lemma refs_sound v d0 d : object v -> json v -> fills RK v d0 -> generate_refs d0 = Ok d -> refs_loaded v d.
Proof.
  intros O J [K G] H. unfold AircraftIOModel.generate_refs in H. binds H. destruct a4.
  apply modify_ok in E as (v1 & w1 & G1 & F1 & ->). apply modify_ok in E0 as (v2 & w2 & G2 & F2 & ->).
  apply modify_ok in E1 as (v3 & w3 & G3 & F3 & ->). apply modify_ok in E2 as (v4 & w4 & G4 & F4 & ->).
  apply modify_ok in E3 as (v5 & w5 & G5 & F5 & ->). pose proof F1 as F1'. pose proof F2 as F2'. pose proof F3 as F3'. pose proof F4 as F4'. pose proof F5 as F5'.
  apply py_float_ok in F1 as [x1 ->]. apply py_float_ok in F2 as [x2 ->]. apply py_float_ok in F3 as [x3 ->].
  apply py_list_ok in F4 as [l4 ->]. apply py_list_ok in F5 as [l5 ->].
  apply modify_ok in E5 as (v6 & w6 & G6 & F6 & ->). apply modify_ok in H as (v7 & w7 & G7 & F7 & ->).
  gets_in G2. gets_in G3. gets_in G4. gets_in G5.
  gets_in G6. gets_in G7. injection G6 as <-. injection G7 as <-. injection F6 as <-. injection F7 as <-.
  apply validate_ok in E4 as [_ V].
  match goal with |- refs_loaded v ?x => set (D := x) end.
  split; [exact O|]. split. { unfold D. rewrite !dset_keys; rewrite ?get_mod; cbn; try congruence. exact K. }
  assert (FD : forall k x, dget d0 k = Some x -> x <> PNone -> In k RK -> field v k = Some x).
  { intros k x A NN I. rewrite G in A. destruct (filled_in _ _ _ _ I A) as [B|[_ ->]]; [exact B|congruence]. }
  split; [|split; [|split]].
  - assert (R : forall k y x, In k RK -> In (k, r_float_pos int_ok) (ref_schema int_ok) -> dget d0 k = Some y -> py_float parse_float y = Ok (PFlt x) -> dget D k = Some (PFlt x) ->
        dget (dset (dset (dset (dset (dset d0 "area" (PFlt x1)) "chord" (PFlt x2)) "span" (PFlt x3)) "gcenter" (PList l4)) "rcenter" (PList l5)) k = Some (PFlt x) ->
        exists x w, field v k = Some x /\ reference parse_float x w /\ dget D k = Some w).
    { intros k y x I IS A B C CC. pose proof (V k _ IS _ CC) as P. apply positive_iff in P as (q & -> & L).
      exists y, (PFlt (Some q)). split; [apply FD; [exact A| |exact I]; intros ->; discriminate|]. split; [|exact C]. apply reference_iff. eauto. }
    intros k I. cases_in I.
    + apply (R "area" v1 x1); try assumption; try (cbn; auto 20); unfold D; gets; reflexivity.
    + apply (R "chord" v2 x2); try assumption; try (cbn; auto 20); unfold D; gets; reflexivity.
    + apply (R "span" v3 x3); try assumption; try (cbn; auto 20); unfold D; gets; reflexivity.
  - assert (R : forall k y l, In k RK -> In (k, r_xyz) (ref_schema int_ok) -> dget d0 k = Some y -> py_list y = Ok (PList l) -> dget D k = Some (np_array (PList l)) ->
        dget (dset (dset (dset (dset (dset d0 "area" (PFlt x1)) "chord" (PFlt x2)) "span" (PFlt x3)) "gcenter" (PList l4)) "rcenter" (PList l5)) k = Some (PList l) ->
        exists x w, field v k = Some x /\ point x w /\ dget D k = Some w).
    { intros k y l I IS A B C CC. pose proof (V k _ IS _ CC) as P. cbn [passes] in P. pose proof (py_list_point _ _ B P) as ->.
      exists (PList l), (np_array (PList l)). split; [apply FD; [exact A|discriminate|exact I]|]. split; [|exact C]. apply xyz_point, P. }
    intros k I. cases_in I.
    + apply (R "gcenter" v4 l4); try assumption; try (cbn; auto 20); unfold D; gets; reflexivity.
    + apply (R "rcenter" v5 l5); try assumption; try (cbn; auto 20); unfold D; gets; reflexivity.
  - intros k N. unfold D. rewrite !get_mod.
    destruct (String.eqb_spec k "rcenter"); [subst; exfalso; apply N; cbn; auto 20|].
    destruct (String.eqb_spec k "gcenter"); [subst; exfalso; apply N; cbn; auto 20|].
    destruct (String.eqb_spec k "span"); [subst; exfalso; apply N; cbn; auto 20|].
    destruct (String.eqb_spec k "chord"); [subst; exfalso; apply N; cbn; auto 20|].
    destruct (String.eqb_spec k "area"); [subst; exfalso; apply N; cbn; auto 20|]. rewrite G.
    destruct (string_dec k "comment") as [->|NC]; [apply filled_sub; cbn; auto 20|].
    rewrite !filled_out; [reflexivity|intros [|[]]; congruence|]. intro I. cases_in I; try congruence; apply N; cbn; auto 20.
  - intros k x I F. destruct I as [<-|[]]. apply passes_str. apply (V "comment"); [cbn; auto 20|]. gets. rewrite G.
    rewrite (filled_sub RK ["comment"]) by (cbn; auto 20). exact F.
Qed.

Lemma refs_inj v d d' : json v -> refs_loaded v d -> refs_loaded v d' -> d = d'.
Proof.
  intros J (_ & K & A & B & C & _) (_ & K' & A' & B' & C' & _). apply dict_ext; [congruence|rewrite K; apply listing_nodup; [nodup|exact J]|].
  intro k. destruct (in_dec string_dec k ["area"; "chord"; "span"]) as [I|N].
  { destruct (A k I) as (x & w & F & R & ->). destruct (A' k I) as (x' & w' & F' & R' & ->). rewrite F in F'. injection F' as <-. f_equal. exact (reference_inj _ _ _ R R'). }
  destruct (in_dec string_dec k ["gcenter"; "rcenter"]) as [I|N'].
  { destruct (B k I) as (x & w & F & R & ->). destruct (B' k I) as (x' & w' & F' & R' & ->). rewrite F in F'. injection F' as <-. f_equal. exact (point_inj _ _ _ R R'). }
  assert (NN : ~ In k ["area"; "chord"; "span"; "gcenter"; "rcenter"]) by (intro I; cases_in I; first [apply N; cbn; now auto 10|apply N'; cbn; now auto 10]).
  rewrite C, C' by exact NN. reflexivity.
Qed.

Lemma refs_complete v d0 d : json v -> fills RK v d0 -> refs_loaded v d -> generate_refs d0 = Ok d.
Proof.
  intros J F L. pose proof L as (O & _ & A & B & _ & EC). pose proof F as [K G].
  destruct (A "area") as (xa & wa & Fa & Ra & _); [cbn; auto|]. destruct (A "chord") as (xc & wc & Fc & Rc & _); [cbn; auto|].
  destruct (A "span") as (xs & ws & Fs & Rs & _); [cbn; auto|].
  destruct (B "gcenter") as (xg & wg & Fg & Pg & _); [cbn; auto|]. destruct (B "rcenter") as (xr & wr & Fr & Pr & _); [cbn; auto|].
  apply reference_iff in Ra as (qa & Ra & La & _). apply reference_iff in Rc as (qc & Rc & Lc & _). apply reference_iff in Rs as (qs & Rs & Ls & _).
  apply point_np in Pg as [Pg _]. apply point_np in Pr as [Pr _].
  assert (LG : exists lg, xg = PList lg) by (destruct xg; try discriminate; eauto). destruct LG as [lg ->].
  assert (LR : exists lr, xr = PList lr) by (destruct xr; try discriminate; eauto). destruct LR as [lr ->].
  assert (H : exists r, generate_refs d0 = Ok r).
  { unfold AircraftIOModel.generate_refs, modify, getitem. rewrite G, (filled_field _ _ _ _ Fa). cbn [bind]. rewrite Ra. cbn [bind].
    gets. rewrite G, (filled_field _ _ _ _ Fc). cbn [bind]. rewrite Rc. cbn [bind]. gets. rewrite G, (filled_field _ _ _ _ Fs). cbn [bind]. rewrite Rs. cbn [bind].
    gets. rewrite G, (filled_field _ _ _ _ Fg). cbn [bind py_list iter]. gets. rewrite G, (filled_field _ _ _ _ Fr). cbn [bind py_list iter]. 
    match goal with |- context [validate _ ?r ?s ?x] => assert (V : validate none_ok r s x = Ok tt) end.
    { apply validate_ok. split.
      - intros k I. cases_in I; gets; discriminate.
      - intros k r I x. cbn in I. decompose [or] I; try contradiction; match goal with X : (_, _) = (_, _) |- _ => injection X as <- <- end; gets; intro E;
          try (injection E as <-); try (apply positive_iff; eauto); try exact Pg; try exact Pr.
        apply passes_str. apply (EC "comment"); [cbn; auto|]. rewrite G in E. rewrite (filled_sub ["comment"] RK) by (cbn; auto 20). exact E. }
    rewrite V. cbn [bind]. gets. cbn [bind]. gets. cbn [bind]. eauto. }
  destruct H as [r H]. rewrite H. f_equal. apply (refs_inj v); [exact J| |exact L]. eapply refs_sound; eassumption.
Qed.

(** ** Controls *)
Notation parse_control := (parse_control none_ok int_ok).
Notation control_loaded := (control_loaded none_ok int_ok).
Definition CS := ["inner"; "outer"].
Definition CR := ["eta_inner"; "eta_outer"; "xsi_inner"; "xsi_outer"].
Definition CH := ["xsi_inner"; "xsi_outer"].

Lemma segment_uid_iff v d : fills CS v d -> (text_at none_ok d "inner" /\ text_at none_ok d "outer" <-> copied none_ok CS v d text).
Proof.
  intro F. rewrite <- seg_schema. apply copied_iff; [nodup|exact F| | |apply incl_refl].
  - intro k. cbn. split; [intros [<-|[<-|[]]]; eauto|]. intros (r & [E|[E|[]]]); injection E as <- <-; auto.
  - intros k r I x. cbn in I. destruct I as [E|[E|[]]]; injection E as <- <-; apply passes_str.
Qed.
Lemma hinge_iff v d : fills CH v d ->
  (unit_at none_ok int_ok d "xsi_inner" /\ unit_at none_ok int_ok d "xsi_outer" <-> copied none_ok CH v d (flt (between 0 1))).
Proof.
  intro F. rewrite <- hinge_schema. apply copied_iff; [nodup|exact F| | |apply incl_refl].
  - intro k. cbn. split; [intros [<-|[<-|[]]]; eauto|]. intros (r & [E|[E|[]]]); injection E as <- <-; auto.
  - intros k r I x. cbn in I. destruct I as [E|[E|[]]]; injection E as <- <-; apply passes_between.
Qed.
Lemma rel_iff v d : fills CR v d ->
  (unit_at none_ok int_ok d "eta_inner" /\ unit_at none_ok int_ok d "eta_outer" /\ unit_at none_ok int_ok d "xsi_inner" /\ unit_at none_ok int_ok d "xsi_outer" <->
   copied none_ok CR v d (flt (between 0 1))).
Proof.
  intro F. rewrite <- rel_schema. apply copied_iff; [nodup|exact F| | |apply incl_refl].
  - intro k. cbn. split; [intros [<-|[<-|[<-|[<-|[]]]]]; eauto 10|]. intros (r & [E|[E|[E|[E|[]]]]]); injection E as <- <-; auto 10.
  - intros k r I x. cbn in I. destruct I as [E|[E|[E|[E|[]]]]]; injection E as <- <-; apply passes_between.
Qed.
Lemma ctl_panels_iff n :
  (dget [("num_c", n)] "num_c" = None \/ unset none_ok [("num_c", n)] "num_c" \/ dget [("num_c", n)] "num_c" = Some (PBool true) \/
   exists z, dget [("num_c", n)] "num_c" = Some (PInt z) /\ (0 < z)%Z) <-> pass count n.
Proof.
  unfold unset, LoadSpec.pass, count. cbn. split.
  - intros [X|[[A X]|[X|(z & X & L)]]]; [discriminate|injection X as ->; auto|injection X as ->|injection X as ->].
    + right. split; [discriminate|auto].
    + right. split; [discriminate|eauto].
  - intros [[-> A]|[_ [->|(z & -> & L)]]]; eauto 10.
Qed.
Lemma num_float v q : num_val v q <-> as_float v = Some (Some q).
Proof. rewrite num_val_iff, as_float_number. reflexivity. Qed.
Lemma order_iff (r : dict pyval) :
  (exists v w a b, dget r "eta_inner" = Some v /\ dget r "eta_outer" = Some w /\ num_val v a /\ num_val w b /\ (a < b)%Q) <->
  (exists x y p q, dget r "eta_inner" = Some x /\ dget r "eta_outer" = Some y /\ as_float x = Some (Some p) /\ as_float y = Some (Some q) /\ (p < q)%Q).
Proof.
  split; intros (x & y & p & q & A & B & C & D & E); exists x, y, p, q; (split; [exact A|split; [exact B|]]); (split; [apply num_float, C|split; [apply num_float, D|exact E]]).
Qed.
Lemma angle_iff v w : LoadSpec.angle v w <-> exists q, ControlSpec.angle v q /\ w = PFlt (Some q).
Proof.
  unfold LoadSpec.angle, ControlSpec.angle. split.
  - intros (q & A & B & C & ->). exists q. split; [split; [apply num_float, A|split; assumption]|reflexivity].
  - intros (q & (A & B & C) & ->). exists q. split; [apply num_float, A|auto].
Qed.

Lemma parse_control_iff sym ctls e r : json e ->
  (parse_control sym ctls e = Ok r <-> exists c, control_loaded sym e c /\ dget ctls (cd_uid c) = None /\ cd_uid c <> "" /\ r = dset ctls (cd_uid c) c).
Proof.
  intro J. split.
  - unfold AircraftIOModel.parse_control. intro H. binds H. apply new_uid_iff in E0 as (-> & G & NE). apply set_device_ok in E2 as (DV & EV & U & S1 & S2 & S3 & S4).
    rewrite S1 in E5. rewrite S2 in E6. rewrite S3 in E7. rewrite S4 in H.
    apply (copy_items_iff CS) in E5 as [O5 F5]; [|nodup|exact J]. apply (copy_items_iff CR) in E6 as [O6 F6]; [|nodup|exact J].
    apply (copy_items_iff CH) in E7 as [O7 F7]; [|nodup|exact J]. apply get_or_iff in E4 as [Oe ->].
    apply getitem_field in E, E1, E3, E8, E9. cbn [cd_panels new_control] in H. change (dset [("num_c", PNone)] "num_c" a9) with [("num_c", a9)] in H.
    destruct (check _ _ _ _) as [c x] eqn:C. binds H. match goal with X : x = Ok ?u |- _ => destruct u; subst x end. injection H as <-.
    pose proof (check_iff none_ok int_ok sym) as KI. match type of C with check _ _ _ ?c0 = _ => specialize (KI c0) end. rewrite C in KI. cbn [snd] in KI.
    destruct (proj1 KI eq_refl) as (K1 & K2 & K3 & K4 & _ & K6 & _). cbn [cd_segment cd_rel cd_hinge cd_panels] in K1, K2, K3, K4, K6.
    destruct (check_result _ _ _ _ _ C) as ((F1 & F2 & F3 & F4 & F5' & F6') & q & A & D1 & M1 & M2 & M3). cbn [cd_uid cd_device cd_segment cd_rel cd_hinge cd_panels cd_deflection cd_mirror] in *.
    exists c. rewrite F1. split; [|split; [exact G|split; [exact NE|reflexivity]]].
    unfold LoadSpec.control_loaded. rewrite F1, F2, F3, F4, F5', F6'.
    split; [exact E|]. split. { destruct DV as [DV|DV]; rewrite DV in EV |- *; subst; eexists; (split; [|split; [exact E1|reflexivity]]); auto. }
    split. { eexists. split; [exact E3|]. apply angle_iff. rewrite D1. eauto. }
    split.
    { fold (sub e "deflection_mirror") in M1, M2, M3. destruct sym; [|apply M1; reflexivity].
      assert (X : sub e "deflection_mirror" = PNone \/ sub e "deflection_mirror" <> PNone) by (apply none_dec). destruct X as [X|X].
      - rewrite X. rewrite D1. apply M2; auto.
      - destruct (M3 eq_refl X) as (m & Am & ->). assert (Y : LoadSpec.angle (sub e "deflection_mirror") (PFlt (Some m))) by (apply angle_iff; eauto).
        destruct (sub e "deflection_mirror"); try exact Y. congruence. }
    split; [split; [exact O5|apply segment_uid_iff; assumption]|]. split; [split; [exact O6|apply rel_iff; assumption]|]. split; [split; [exact O7|apply hinge_iff; assumption]|].
    split; [|intro X; apply order_iff, K6, X]. exists a9. split; [unfold sub; rewrite E8; exact E9|]. split; [|reflexivity]. apply ctl_panels_iff, K2.
  - intros ([u dv df mi sg rl hg pn] & L & G & NE & ->). unfold LoadSpec.control_loaded in L. cbn [cd_uid cd_device cd_segment cd_rel cd_hinge cd_panels cd_deflection cd_mirror] in *.
    destruct L as (U & (t & T & FT & ->) & (x & FX & AX) & MI & [O5 C5] & [O6 C6] & [O7 C7] & (n & FN & PN & ->) & OR).
    assert (F5 : fills CS (sub e "segment_uid") sg) by (split; apply C5). assert (F6 : fills CR (sub e "rel_vertices") rl) by (split; apply C6).
    assert (F7 : fills CH (sub e "rel_hinge_vertices") hg) by (split; apply C7). pose proof (field_object _ _ _ U) as Oe.
    set (c0 := mkCD u (Some t) x (sub e "deflection_mirror") sg rl hg [("num_c", n)]).
    assert (KO : control_ok none_ok int_ok sym c0).
    { split; [apply (segment_uid_iff _ _ F5), C5|]. split; [apply ctl_panels_iff, PN|]. split; [apply (rel_iff _ _ F6), C6|]. split; [apply (hinge_iff _ _ F7), C7|].
      split; [discriminate|]. split; [intro X; apply order_iff, OR, X|]. apply angle_iff in AX as (q & AX & _). split; [eauto|].
      intros ->. cbn [cd_mirror c0]. destruct (none_dec (sub e "deflection_mirror")) as [X|X]; [left; exact X|right].
      assert (Y : LoadSpec.angle (sub e "deflection_mirror") mi) by (destruct (sub e "deflection_mirror"); try exact MI; congruence). apply angle_iff in Y as (m & Y & _). eauto. }
    apply check_iff in KO. destruct (check none_ok int_ok sym c0) as [c r] eqn:C. cbn [snd] in KO. subst r.
    assert (EC : c = mkCD u (Some t) df mi sg rl hg [("num_c", n)]).
    { destruct (check_result _ _ _ _ _ C) as ((H1 & H2 & H3 & H4 & H5 & H6) & q & A & D1 & M1 & M2 & M3). destruct c. cbn in *. subst.
      assert (DF : df = PFlt (Some q)). { apply angle_iff in AX as (q' & AX & ->). rewrite (angle_det _ _ _ A AX). reflexivity. }
      f_equal; [congruence|]. destruct sym; [|rewrite M1 by reflexivity; congruence].
      destruct (none_dec (sub e "deflection_mirror")) as [X|X].
      - rewrite M2 by auto. rewrite X in MI. congruence.
      - destruct (M3 eq_refl X) as (m & Am & ->).
        assert (Y : LoadSpec.angle (sub e "deflection_mirror") mi) by (destruct (sub e "deflection_mirror"); try exact MI; congruence).
        apply angle_iff in Y as (m' & Y & ->). rewrite (angle_det _ _ _ Am Y). reflexivity. }
    unfold AircraftIOModel.parse_control. rewrite (proj2 (getitem_field _ _ _) U). cbn [bind]. rewrite (proj2 (new_uid_iff _ _ _) (conj eq_refl (conj G NE))). cbn [bind].
    rewrite (proj2 (getitem_field _ _ _) FT). cbn [bind].
    assert (SD : set_device (new_control u) (PStr t) = Ok (mkCD u (Some t) PNone PNone (nones CS) (nones CR) (nones CH) [("num_c", PNone)])) by (destruct T as [-> | ->]; reflexivity).
    rewrite SD. cbn [bind]. rewrite (proj2 (getitem_field _ _ _) FX). cbn [bind].
    rewrite (proj2 (get_or_iff e "deflection_mirror" PNone _) (conj Oe eq_refl)). cbn [bind]. cbn [cd_segment cd_rel cd_hinge cd_panels cd_device].
    rewrite (proj2 (copy_items_iff CS _ _ _ ltac:(nodup) J) (conj O5 F5)). cbn [bind]. rewrite (proj2 (copy_items_iff CR _ _ _ ltac:(nodup) J) (conj O6 F6)). cbn [bind].
    rewrite (proj2 (copy_items_iff CH _ _ _ ltac:(nodup) J) (conj O7 F7)). cbn [bind].
    pose proof (field_object _ _ _ FN) as Op. destruct (sub_object _ _ Op) as [FP _]. rewrite (proj2 (getitem_field _ _ _) FP). cbn [bind].
    rewrite (proj2 (getitem_field _ _ _) FN). cbn [bind]. change (dset [("num_c", PNone)] "num_c" n) with [("num_c", n)].
    fold (sub e "deflection_mirror"). fold c0. rewrite C. cbn [bind]. rewrite EC. reflexivity.
Qed.

(** ** Wings *)
Notation parse_wing := (parse_wing none_ok int_ok root).
Notation generate_wing := (generate_wing none_ok int_ok derive import_airfoils finish_wing).
Notation wing_loaded := (wing_loaded none_ok int_ok root derive import_airfoils finish_wing).

Lemma iter_json v l : json v -> iter v = Ok l -> forall e, In e l -> json e.
Proof.
  intros J H e I. destruct v; try discriminate; injection H as <-.
  - revert I. clear. induction s as [|c s IH]; [intros []|]. intros [<-|I]; [constructor; intros ? X; discriminate|auto].
  - inversion J as [? X _|? X|]; subst; [exfalso; eapply X; reflexivity|exact (X _ I)].
  - apply in_map_iff in I as (kx & <- & _). constructor; intros ? X; discriminate.
Qed.
Lemma iter_elements {V} (P : pyval -> V -> Prop) v l xs : iter v = Ok l -> Forall2 P l xs -> (forall e x, P e x -> object e) -> elements v l.
Proof.
  intros H F O. destruct v; try discriminate; injection H as <-; [|left; reflexivity|]; right.
  - destruct s as [|c s]; [auto|]. exfalso. inversion F as [|? ? ? ? Px _]; subst. apply O in Px as [z X]. discriminate.
  - destruct d as [|[k x] d]; [auto|]. exfalso. inversion F as [|? ? ? ? Px _]; subst. apply O in Px as [z X]. discriminate.
Qed.
Lemma elements_iter v l : elements v l -> iter v = Ok l.
Proof. intros [->|[-> [->| ->]]]; reflexivity. Qed.

Definition named_parts {V} (name : V -> string) (P : pyval -> V -> Prop) (l : list pyval) (d : dict V) : Prop :=
  Forall2 P l (map snd d) /\ map fst d = map name (map snd d) /\ NoDup (map fst d) /\ ~ In "" (map fst d).

Lemma symmetry_iff v : symmetry_ok v = true <-> exists n q, In n [0; 1; 2; 3]%Z /\ as_float v = Some (Some q) /\ (q == inject_Z n)%Q.
Proof.
  unfold symmetry_ok. rewrite as_float_number. destruct (number_of v) as [[q|]|]; try (split; [discriminate|intros (n & q' & _ & X & _); discriminate]).
  unfold Qeqb. rewrite !orb_true_iff, !Qeq_bool_iff. split.
  - intros [[[H|H]|H]|H]; eexists; exists q; (split; [|split; [reflexivity|exact H]]); cbn; auto.
  - intros (n & q' & I & X & E). injection X as <-. cases_in I; auto.
Qed.

Definition parsed_wing (e : pyval) (w : wingdef) : Prop :=
  field e "uid" = Some (PStr (wd_uid w)) /\ field e "symmetry" = Some (wd_symmetry w) /\ symmetry_ok (wd_symmetry w) = true /\
  (exists v l, field e "segments" = Some v /\ elements v l /\ named_parts sd_uid parsed_seg l (wd_segs w)) /\
  (exists l, match field e "controls" with None => l = [] | Some v => elements v l end /\
     named_parts cd_uid (control_loaded (truthy (wd_symmetry w))) l (wd_ctls w)).

Lemma parse_wing_sound ws e r : json e -> parse_wing ws e = Ok r ->
  exists w, parsed_wing e w /\ dget ws (wd_uid w) = None /\ wd_uid w <> "" /\ r = dset ws (wd_uid w) w.
Proof.
  intros J H. unfold AircraftIOModel.parse_wing in H. binds H.
  destruct (symmetry_ok a1) eqn:SY; cbn [negb] in H; [|discriminate]. binds H. injection H as <-. apply new_uid_iff in E0 as (-> & G & NE).
  exists (mkWD a0 a1 a4 a7). split; [|split; [exact G|split; [exact NE|reflexivity]]].
  apply getitem_field in E, E1, E2. apply get_or_iff in E5 as [Oe ->].
  assert (JS := json_entry _ _ _ J E2).
  apply (parse_list_sound _ sd_uid parsed_seg) in E4 as (d & -> & F & N & NN & ND);
    [|intros acc x y Jx Hx; apply parse_segment_iff; assumption|exact (iter_json _ _ JS ltac:(eassumption))].
  apply (parse_list_sound _ cd_uid (control_loaded (truthy a1))) in E7 as (d' & -> & F' & N' & NN' & ND');
    [|intros acc x y Jx Hx; apply parse_control_iff; assumption|].
  2:{ apply (iter_json _ _) with (2 := E6). destruct (field e "controls") eqn:FC; [exact (json_entry _ _ _ J FC)|]. apply json_list. intros x []. }
  split; [exact E|]. split; [exact E1|]. split; [exact SY|]. cbn [wd_segs wd_ctls wd_symmetry app]. split.
  - exists a2, a3. split; [exact E2|]. split.
    + eapply (iter_elements parsed_seg); [eassumption|exact F|]. intros x y (U & _). exact (field_object _ _ _ U).
    + split; [exact F|]. split; [exact N|]. split; [apply ND; constructor|exact NN].
  - exists a6. split.
    + destruct (field e "controls") eqn:FC; [|injection E6 as <-; reflexivity].
      eapply (iter_elements (control_loaded (truthy a1))); [eassumption|exact F'|]. intros x y (U & _). exact (field_object _ _ _ U).
    + split; [exact F'|]. split; [exact N'|]. split; [apply ND'; constructor|exact NN'].
Qed.

Lemma elements_json v l : json v -> elements v l -> forall e, In e l -> json e.
Proof. intros J E. exact (iter_json v l J (elements_iter _ _ E)). Qed.

Lemma wing_sound e w0 w : json e -> parsed_wing e w0 -> generate_wing w0 = Ok w -> wing_loaded e w /\ wd_uid w = wd_uid w0.
Proof.
  intros J (U & S & SY & (v & l & FV & EL & F & N & ND & NN) & C) H. unfold AircraftIOModel.generate_wing in H. binds H. destruct a0. injection H as <-.
  split; [|reflexivity]. unfold LoadSpec.wing_loaded. cbn [wd_uid wd_symmetry wd_segs wd_ctls]. apply generate_list_iff in E.
  pose proof (elements_json _ _ (json_entry _ _ _ J FV) EL) as JL.
  destruct (parts_generate sd_uid parsed_seg segment_loaded _ l _ _ (fun x s0 s I => segment_sound x s0 s (JL x I)) F N E) as (F1 & N1 & K1).
  split; [exact U|]. split; [exact S|]. split; [apply symmetry_iff, SY|]. split.
  - exists v, l. split; [exact FV|]. split; [exact EL|]. split; [exact F1|]. split; [exact N1|]. rewrite K1. split; assumption.
  - split; [exact C|]. exact E0.
Qed.

Lemma wing_complete ws e w : json e -> wing_loaded e w -> dget ws (wd_uid w) = None -> wd_uid w <> "" ->
  exists w0, parse_wing ws e = Ok (dset ws (wd_uid w) w0) /\ wd_uid w0 = wd_uid w /\ generate_wing w0 = Ok w.
Proof.
  intros J (U & S & SY & (v & l & FV & EL & F & N & ND & NN) & (cl & EC & FC & NC & NDC & NNC) & FW) G NE.
  pose proof (elements_json _ _ (json_entry _ _ _ J FV) EL) as JL. pose proof (field_object _ _ _ U) as Oe.
  destruct (parse_list_complete (parse_segment root) sd_uid segment_loaded (fun x y => generate_segment x = Ok y)) with (l := l) (d := wd_segs w) (acc := @nil (string * segdef))
    as (d0 & PS & GS); auto.
  { intros acc x s Jx L Gx Nx. destruct (segment_complete x s Jx L) as (s0 & P0 & U0 & H0). exists s0. split; [|auto].
    apply parse_segment_iff; [exact Jx|]. exists s0. rewrite U0. auto. }
  assert (JC : forall x, In x cl -> json x).
  { destruct (field e "controls") eqn:X; [exact (elements_json _ _ (json_entry _ _ _ J X) EC)|subst cl; intros x []]. }
  destruct (parse_list_complete (parse_control (truthy (wd_symmetry w))) cd_uid (control_loaded (truthy (wd_symmetry w))) eq) with (l := cl) (d := wd_ctls w) (acc := @nil (string * ctldef))
    as (d1 & PC & GC); auto.
  { intros acc x c Jx L Gx Nx. exists c. split; [|auto]. apply parse_control_iff; [exact Jx|]. exists c. auto. }
  assert (d1 = wd_ctls w) as ->.
  { revert GC. generalize (wd_ctls w). clear. induction d1 as [|[k x] d IH]; intros d' H; inversion H as [|? [k' x'] ? ? [A B] R]; subst; [reflexivity|]. cbn in *. subst. f_equal. apply IH. assumption. }
  cbn [app] in *.
  exists (mkWD (wd_uid w) (wd_symmetry w) d0 (wd_ctls w)). split; [|split; [reflexivity|]].
  - unfold AircraftIOModel.parse_wing. rewrite (proj2 (getitem_field _ _ _) U). cbn [bind]. rewrite (proj2 (new_uid_iff _ _ _) (conj eq_refl (conj G NE))). cbn [bind].
    rewrite (proj2 (getitem_field _ _ _) S). cbn [bind]. rewrite (proj2 (symmetry_iff _) SY). cbn [negb].
    rewrite (proj2 (getitem_field _ _ _) FV). cbn [bind]. rewrite (elements_iter _ _ EL). cbn [bind]. rewrite PS. cbn [bind].
    rewrite (proj2 (get_or_iff e "controls" (PList []) _) (conj Oe eq_refl)). cbn [bind].
    assert (IC : iter match field e "controls" with Some v => v | None => PList [] end = Ok cl).
    { destruct (field e "controls"); [apply elements_iter, EC|subst; reflexivity]. }
    rewrite IC. cbn [bind]. rewrite PC. reflexivity.
  - unfold AircraftIOModel.generate_wing. cbn [wd_segs wd_uid wd_symmetry wd_ctls].
    assert (GL : generate_list generate_segment d0 = Ok (wd_segs w)) by (apply generate_list_iff; exact GS). rewrite GL. cbn [bind].
    unfold dvalues. rewrite FW. cbn [bind]. destruct w; reflexivity.
Qed.

(** ** Aircraft *)
Notation load := (load none_ok int_ok root parse_float derive import_airfoils finish_wing).
Notation loaded := (loaded none_ok int_ok root parse_float derive import_airfoils finish_wing).

Theorem load_iff doc a : json doc -> (load doc = Ok a <-> loaded doc a).
Proof.
  intro J. split.
  - unfold AircraftIOModel.load, AircraftIOModel.parse, AircraftIOModel.generate. intro H. binds H. binds E. injection E as <-. injection H as <-.
    cbn [ad_uid ad_refs ad_wings] in *.
    repeat match goal with X : getitem _ _ = Ok _ |- _ => apply getitem_field in X end.
    match goal with X : str_uid ?u = Ok _ |- _ => destruct u; try discriminate; injection X as -> end.
    match goal with X : copy_items new_refs _ _ = Ok _ |- _ => change new_refs with (nones RK) in X; apply copy_items_iff in X as [OR FR]; [|nodup|exact J] end.
    match goal with X : field doc "wings" = Some ?wv, I : iter ?wv = Ok ?l, P : parse_list _ [] ?l = Ok _ |- _ => rename X into FW; rename I into IW; rename P into PW end.
    pose proof (json_entry _ _ _ J FW) as JW. pose proof (iter_json _ _ JW IW) as JL.
    apply (parse_list_sound _ wd_uid parsed_wing) in PW as (d & -> & F & N & NN & ND); [|intros acc x y Jx Hx; apply parse_wing_sound; assumption|exact JL].
    cbn [app] in *. match goal with X : generate_list _ _ = Ok _ |- _ => apply generate_list_iff in X; rename X into GL end.
    destruct (parts_generate wd_uid parsed_wing wing_loaded _ _ _ _ (fun x s0 s I => wing_sound x s0 s (JL x I)) F N GL) as (F1 & N1 & K1).
    split; [eassumption|]. split; [eapply refs_sound; try eassumption; apply json_sub, J|].
    eexists. eexists. split; [exact FW|]. split; [|split; [exact F1|split; [exact N1|cbn [ad_wings]; rewrite K1; split; [apply ND; constructor|exact NN]]]].
    eapply (iter_elements parsed_wing); [exact IW|exact F|]. intros x y (U & _). exact (field_object _ _ _ U).
  - intros (U & R & v & l & FV & EL & F & N & ND & NN). pose proof (elements_json _ _ (json_entry _ _ _ J FV) EL) as JL.
    pose proof R as (OR & _).
    destruct (parse_list_complete parse_wing wd_uid wing_loaded (fun x y => generate_wing x = Ok y)) with (l := l) (d := ad_wings a) (acc := @nil (string * wingdef))
      as (d0 & PW & GW); auto.
    { intros acc x w Jx L Gx Nx. destruct (wing_complete acc x w Jx L Gx Nx) as (w0 & A & B & C). eauto. }
    cbn [app] in PW. unfold AircraftIOModel.load, AircraftIOModel.parse. rewrite (proj2 (getitem_field _ _ _) U). cbn [bind str_uid].
    change new_refs with (nones RK).
    rewrite (proj2 (copy_items_iff RK doc "refs" _ ltac:(nodup) J) (conj OR (fills_dupdate RK _ (json_sub doc "refs" J)))). cbn [bind].
    rewrite (proj2 (getitem_field _ _ _) FV). cbn [bind]. rewrite (elements_iter _ _ EL). cbn [bind]. rewrite PW. cbn [bind].
    unfold AircraftIOModel.generate. cbn [ad_uid ad_refs ad_wings].
    rewrite (refs_complete _ _ _ (json_sub doc "refs" J) (fills_dupdate RK _ (json_sub doc "refs" J)) R). cbn [bind].
    assert (GL : generate_list generate_wing d0 = Ok (ad_wings a)) by (apply generate_list_iff; exact GW). rewrite GL. cbn [bind]. destruct a; reflexivity.
Qed.
End IO.

(** Shows that a concrete document has no repeated names. *)
Ltac json_check :=
  lazymatch goal with
  | |- json (PDict _) =>
    apply json_dict; [repeat constructor; cbn; intuition discriminate|
      let k := fresh "k" in let x := fresh "x" in let I := fresh "I" in
      intros k x I; cbn in I; repeat (destruct I as [I|I]; [injection I as <- <-; json_check|]); contradiction]
  | |- json (PList _) =>
    apply json_list; let x := fresh "x" in let I := fresh "I" in
      intros x I; cbn in I; repeat (destruct I as [I|I]; [rewrite <- I; clear I; json_check|]); contradiction
  | _ => apply json_atom; intros ? X; discriminate X
  end.
