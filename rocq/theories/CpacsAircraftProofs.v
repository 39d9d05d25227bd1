(** Proofs for aircraft read from CPACS documents (C77-C84). *)
From Coq Require Import List String Ascii ZArith QArith Bool Lia Lqa Decimal DecimalString DecimalNat.
From Verif Require Import PyBase PyFacts PyVal SchemaModel ControlModel ControlSpec ControlProofs AircraftIOModel AircraftIOSpec StrFacts
  AircraftIOProofs CpacsAircraftModel CpacsAircraftSpec.
Import ListNotations.
Open Scope nat_scope.
Open Scope string_scope.

(** ** Names *)

Lemma plain_char_iff c : plain_char c <-> kept_char c = true.
Proof.
  split.
  - intros (p & q & E).
    assert (H : forall p s, s = p ++ String c q -> Forall (fun c => kept_char c = true) (list_ascii_of_string s) -> kept_char c = true).
    { clear. induction p as [|x p IH]; intros s -> F; cbn in F; inversion F; subst; [assumption|]. apply (IH _ eq_refl). assumption. }
    apply (H _ _ E). repeat constructor.
  - destruct c as [b0 b1 b2 b3 b4 b5 b6 b7]. intro H.
    destruct b0, b1, b2, b3, b4, b5, b6, b7; vm_compute in H; try discriminate; clear H;
    match goal with |- plain_char ?c =>
      let rec go p s :=
        match s with
        | String c ?q => exists p, q; vm_compute; reflexivity
        | String ?x ?q => let p' := eval vm_compute in (p ++ String x "") in go p' q
        end in
      go "" "abcdefghijklmnopqrstuvwxyzABCDEFGHIJKLMNOPQRSTUVWXYZ0123456789-_"
    end.
Qed.

Lemma stripped_iff s t : stripped s t <-> parse_str s = t.
Proof.
  split.
  - induction 1 as [|c s t K H IH|c s t K H IH]; cbn; [reflexivity| |].
    + apply plain_char_iff in K. rewrite K, IH. reflexivity.
    + destruct (kept_char c) eqn:E; [|exact IH]. apply plain_char_iff in E. contradiction.
  - revert t. induction s as [|c s IH]; cbn; intros t <-; [constructor|].
    destruct (kept_char c) eqn:E.
    + constructor; [apply plain_char_iff; exact E|auto].
    + constructor; [intro K; apply plain_char_iff in K; congruence|auto].
Qed.

Lemma plain_parse s : plain s <-> parse_str s = s.
Proof.
  split.
  - induction 1 as [|c s K H IH]; cbn; [reflexivity|]. apply plain_char_iff in K. rewrite K, IH. reflexivity.
  - intro E. assert (P : forall s, plain (parse_str s)).
    { clear. induction s as [|c s IH]; cbn; [constructor|]. destruct (kept_char c) eqn:E; [|exact IH].
      constructor; [apply plain_char_iff; exact E|exact IH]. }
    rewrite <- E. apply P.
Qed.

Lemma decimal_app u : forall s n, decimal s n -> decimal (s ++ NilEmpty.string_of_uint u) (Nat.of_uint_acc u n).
Proof.
  induction u as [|u IH|u IH|u IH|u IH|u IH|u IH|u IH|u IH|u IH|u IH]; intros s n D; cbn [NilEmpty.string_of_uint Nat.of_uint_acc];
    [rewrite app_nil_s; exact D|..].
  all: rewrite Nat.tail_mul_spec;
    match goal with |- decimal (?s ++ String ?c ?r) ?g =>
      replace (s ++ String c r) with ((s ++ String c "") ++ r) by (rewrite app_assoc_s; reflexivity) end;
    apply IH.
  all: match goal with D : decimal ?s ?n |- decimal (?s ++ String ?c "") ?g =>
      let m := eval vm_compute in (nat_of_ascii c - 48) in replace g with (10 * n + m) by lia;
      apply dec_more; [exact D|split; [lia|reflexivity]] end.
Qed.
Lemma decimal_uint u : u <> Nil -> decimal (NilEmpty.string_of_uint u) (Nat.of_uint u).
Proof.
  assert (Z : forall c m, digit c m -> forall u, decimal (String c (NilEmpty.string_of_uint u)) (Nat.of_uint_acc u m)).
  { intros c m H v. apply (decimal_app v (String c "") m). constructor. exact H. }
  destruct u as [|u|u|u|u|u|u|u|u|u|u]; intro N; [congruence|..]; unfold Nat.of_uint; cbn [NilEmpty.string_of_uint Nat.of_uint_acc]; apply Z;
    (split; [cbn; lia|reflexivity]).
Qed.
Lemma to_uint_nz n : Nat.to_uint n <> Nil.
Proof. intro E. assert (U := DecimalNat.Unsigned.of_to n). assert (V := DecimalNat.Unsigned.to_of (Nat.to_uint n)). rewrite U, E in V. discriminate. Qed.
Lemma to_uint_unorm n : unorm (Nat.to_uint n) = Nat.to_uint n.
Proof. rewrite <- (DecimalNat.Unsigned.to_of (Nat.to_uint n)), DecimalNat.Unsigned.of_to. reflexivity. Qed.

Lemma numeral2_two_digits n : numeral2 (two_digits n) n.
Proof.
  assert (D := decimal_uint _ (to_uint_nz n)). rewrite DecimalNat.Unsigned.of_to in D.
  unfold two_digits. destruct (Nat.ltb n 10) eqn:L.
  - apply Nat.ltb_lt in L.
    assert (S1 : String.length (NilEmpty.string_of_uint (Nat.to_uint n)) = 1) by (do 10 (destruct n as [|n]; [reflexivity|]); lia).
    split; [|split; [cbn [String.append String.length]; lia|left; cbn [String.append String.length]; lia]].
    change (decimal (String "0" (NilEmpty.string_of_uint (Nat.to_uint n))) n).
    replace n with (Nat.of_uint_acc (Nat.to_uint n) 0) at 2 by (apply DecimalNat.Unsigned.of_to).
    apply (decimal_app _ "0"). constructor. split; [lia|reflexivity].
  - apply Nat.ltb_ge in L. split; [exact D|].
    assert (NF := DecimalNat.Unsigned.of_to n). assert (U := to_uint_unorm n).
    destruct (Nat.to_uint n) as [|u|u|u|u|u|u|u|u|u|u] eqn:E; [exfalso; apply (to_uint_nz n); exact E|..].
    1: { exfalso. destruct u as [|u|u|u|u|u|u|u|u|u|u]; [vm_compute in NF; lia|..]; cbn in U; try discriminate.
         unfold unorm in U. cbn [nzhead] in U. destruct (nzhead u) eqn:Z; try discriminate.
         assert (X := DecimalFacts.nzhead_nonzero u). rewrite Z in X. injection U as ->. exact (X _ eq_refl). }
    all: destruct u as [|v|v|v|v|v|v|v|v|v|v]; [vm_compute in NF; lia|..].
    all: (split; [cbn [NilEmpty.string_of_uint String.length]; lia|right; intros (r & R); cbn in R; discriminate]).
Qed.

Lemma component_name_iff given prefix n :
  component_name given prefix n (match given with Some u => parse_str u | None => prefix ++ two_digits n end).
Proof. destruct given; cbn; [apply stripped_iff; reflexivity|]. exists (two_digits n). split; [apply numeral2_two_digits|reflexivity]. Qed.

(** ** Vertices *)

Lemma against_iff p q : against_span p q = true <-> before q p.
Proof.
  unfold against_span, before. rewrite orb_true_iff, andb_true_iff, !Qltb_true, Qeqb_true. split; intros [H|[H1 H2]].
  - left; lra. - right; split; [exact H1|lra]. - left; lra. - right; split; [exact H1|lra].
Qed.
Lemma before_asym p q : before p q -> against_span p q = false.
Proof. intro H. destruct (against_span p q) eqn:E; [|reflexivity]. apply against_iff in E. destruct H as [H|[H1 H2]], E as [E|[E1 E2]]; lra. Qed.
Lemma before_against p q : before q p -> against_span p q = true.
Proof. apply against_iff. Qed.

Lemma reorder_proper v : same_sense v -> proper (reorder v) /\ same_quad v (reorder v).
Proof.
  destruct v as [a b c d]. unfold same_sense, proper, same_quad, flip_span, flip_chord. cbn [qa qb qc qd].
  intros [S X]. unfold reorder. cbn [qa qb qc qd].
  assert (LT : forall x y : Q, (x < y)%Q -> Qltb (y - x) 0 = false /\ Qltb (x - y) 0 = true).
  { intros x y H. split; [apply Qltb_false|apply Qltb_true]; lra. }
  destruct S as [[S1 S2]|[S1 S2]].
  - rewrite (before_asym _ _ S1). cbn [qa qb qc qd]. rewrite (before_asym _ _ S2). cbn [qa qb qc qd].
    destruct X as [[X1 X2]|[X1 X2]]; destruct (LT _ _ X1) as [A1 A2]; destruct (LT _ _ X2) as [B1 B2];
      rewrite ?A1, ?A2; cbn [qa qb qc qd]; rewrite ?B1, ?B2; cbn [qa qb qc qd]; cbn [In]; tauto.
  - rewrite (before_against _ _ S1). cbn [qa qb qc qd]. rewrite (before_against _ _ S2). cbn [qa qb qc qd].
    destruct X as [[X1 X2]|[X1 X2]]; destruct (LT _ _ X1) as [A1 A2]; destruct (LT _ _ X2) as [B1 B2];
      rewrite ?A1, ?A2, ?B1, ?B2; cbn [qa qb qc qd]; rewrite ?A1, ?A2, ?B1, ?B2; cbn [qa qb qc qd]; cbn [In]; tauto.
Qed.

Lemma proper_sense v w : proper w -> same_quad v w -> same_sense v.
Proof.
  destruct v as [a b c d]. unfold same_sense, proper, same_quad, flip_span, flip_chord. cbn [qa qb qc qd In].
  intros P [<-|[<-|[<-|[<-|[]]]]]; cbn [qa qb qc qd] in P; tauto.
Qed.
Lemma reorder_front v : (px (qa (reorder v)) <= px (qd (reorder v)))%Q /\ (px (qb (reorder v)) <= px (qc (reorder v)))%Q.
Proof.
  unfold reorder.
  match goal with |- context [if ?c then mkQuad _ _ _ _ else v] => set (v1 := if c then _ else v) end. clearbody v1. clear v.
  match goal with |- context [if ?c then mkQuad _ _ _ _ else v1] => set (v2 := if c then _ else v1) end. clearbody v2. clear v1.
  destruct v2 as [a b c d]. cbn [qa qb qc qd].
  destruct (Qltb (px d - px a) 0) eqn:E; cbn [qa qb qc qd]; destruct (Qltb (px c - px b) 0) eqn:F; cbn [qa qb qc qd];
    (first [apply Qltb_true in E|apply Qltb_false in E]); (first [apply Qltb_true in F|apply Qltb_false in F]); split; lra.
Qed.

Lemma corners_raw s : corners s (raw_quad s).
Proof. unfold corners, raw_quad, mid_point, halfway. cbn [qa qb qc qd px py pz]. repeat split; field. Qed.
Lemma corners_unique s v w : corners s v -> corners s w -> 
  forall f, In f [qa; qb; qc; qd] -> (px (f v) == px (f w))%Q /\ (py (f v) == py (f w))%Q /\ (pz (f v) == pz (f w))%Q.
Proof.
  intros (A1 & B1 & C1 & D1) (A2 & B2 & C2 & D2). unfold halfway in *. cbn zeta in *.
  intros f [<-|[<-|[<-|[<-|[]]]]]; repeat split; lra.
Qed.

Local Opaque reorder raw_quad.

(** ** Segments *)
Section Load.
Variable none_ok int_ok : bool.
Variable root : string.
Variable locate : string -> Q -> Q -> res (string * Q * Q).
Let read_segment := read_segment root.
Let read_segments := read_segments root.
Let segment_airfoil := segment_airfoil root.
Let device_turn := device_turn locate.
Let read_devices := read_devices locate.
Let read_comps := read_comps locate.
Let check_all := check_all none_ok int_ok.
Let check_controls := check_controls none_ok int_ok.
Let read_wing := read_wing none_ok int_ok root locate.
Let read_wings := read_wings none_ok int_ok root locate.
Let read_aircraft := read_aircraft none_ok int_ok root locate.

(** The segment of the aircraft for the k-th segment of the wing. *)
Definition seg_of (wu : string) (k : nat) (s : cseg) (fi fo : string) : segdef :=
  let v := reorder (raw_quad s) in
  mkSD (segment_uid wu k s) [("a", py_point (qa v)); ("b", py_point (qb v)); ("c", py_point (qc v)); ("d", py_point (qd v))]
    new_geometry [("inner", PStr fi); ("outer", PStr fo)] new_seg_panels.
Definition seg_rel (foils : list cfoil) (wu : string) (k : nat) (s : cseg) (ks : string * segdef) : Prop :=
  exists fi fo, segment_airfoil foils (cs_inner s) = Ok fi /\ segment_airfoil foils (cs_outer s) = Ok fo /\
    ks = (segment_uid wu k s, seg_of wu k s fi fo) /\ segment_uid wu k s <> "".

Lemma read_segment_ok foils wu segs k s segs' : read_segment foils wu segs k s = Ok segs' ->
  exists x, seg_rel foils wu k s x /\ segs' = (segs ++ [x])%list /\ dget segs (fst x) = None.
Proof.
  unfold read_segment, CpacsAircraftModel.read_segment. intro H. binds H. apply new_uid_ok in E as (U & G & NE). injection U as <-.
  injection H as <-. exists (segment_uid wu k s, seg_of wu k s a0 a1). split; [exists a0, a1; auto|]. split; [|exact G].
  rewrite dset_fresh by exact G. reflexivity.
Qed.

(** One entry after another, each with a new key. *)
Inductive numbered {A V} (R : nat -> A -> string * V -> Prop) : nat -> list A -> dict V -> Prop :=
| nb_nil n : numbered R n [] []
| nb_cons n x l e d : R n x e -> numbered R (S n) l d -> numbered R n (x :: l) (e :: d).
Lemma numbered_nth {A V} (R : nat -> A -> string * V -> Prop) n l d : numbered R n l d ->
  List.length d = List.length l /\ forall i x, nth_error l i = Some x -> exists e, nth_error d i = Some e /\ R (n + i) x e.
Proof.
  induction 1 as [|n x l e d H N [IH1 IH2]]; cbn; [split; [reflexivity|intros i x E; destruct i; discriminate]|].
  split; [congruence|]. intros [|i] y E; cbn in *.
  - injection E as <-. exists e. rewrite Nat.add_0_r. auto.
  - destruct (IH2 _ _ E) as (e' & E' & R'). exists e'. replace (n + S i) with (S n + i) by lia. auto.
Qed.

Lemma NoDup_snoc {V} (d : dict V) x : NoDup (dkeys d) -> dget d (fst x) = None -> NoDup (dkeys (d ++ [x])%list).
Proof.
  intros N G. unfold dkeys in *. rewrite map_app. apply NoDup_Add with (a := fst x) (l := map fst d).
  - rewrite <- (app_nil_r (map fst d)) at 1. apply Add_app.
  - split; [exact N|]. apply dget_None. exact G.
Qed.

Lemma read_segments_ok foils wu l : forall segs k segs', read_segments foils wu segs k l = Ok segs' ->
  exists d, segs' = (segs ++ d)%list /\ numbered (seg_rel foils wu) k l d /\ (NoDup (dkeys segs) -> NoDup (dkeys segs')).
Proof.
  unfold read_segments. induction l as [|s l IH]; cbn; intros segs k segs' H.
  - injection H as <-. exists []. rewrite app_nil_r. repeat split; [constructor|auto].
  - apply bind_ok in H as (segs1 & E & H). destruct (read_segment_ok _ _ _ _ _ _ E) as (x & R & -> & G).
    destruct (IH _ _ _ H) as (d & -> & N & ND). exists (x :: d). rewrite <- app_assoc in *. cbn [app] in *. split; [reflexivity|].
    split; [constructor; assumption|]. intro N0. apply ND, NoDup_snoc; assumption.
Qed.

(** ** Deflections and checks change deflections only *)
Definition bare (c : ctldef) : ctldef := set_deflections c PNone PNone.
Definition bare_ctls (d : dict ctldef) : dict ctldef := map (fun kc => (fst kc, bare (snd kc))) d.
Definition bare_wing (w : wingdef) : wingdef := mkWD (wd_uid w) (wd_symmetry w) (wd_segs w) (bare_ctls (wd_ctls w)).
Definition bare_wings (ws : dict wingdef) : dict wingdef := map (fun kw => (fst kw, bare_wing (snd kw))) ws.

Lemma bare_dset d u c x y : dget d u = Some c -> bare_ctls (dset d u (set_deflections c x y)) = bare_ctls d.
Proof.
  unfold bare_ctls. induction d as [|[k c'] d IH]; cbn; [discriminate|]. destruct (String.eqb u k) eqn:E; intro G.
  - injection G as ->. reflexivity.
  - cbn. rewrite IH by exact G. reflexivity.
Qed.
Lemma set_deflection_bare u x y ws : forall ws', set_deflection u x y ws = Some ws' -> bare_wings ws' = bare_wings ws.
Proof.
  induction ws as [|[k w] ws IH]; cbn; intros ws' H; [discriminate|].
  destruct (dget (wd_ctls w) u) eqn:G.
  - injection H as <-. unfold bare_wings. cbn. unfold bare_wing at 1. cbn. rewrite (bare_dset _ _ _ _ _ G). reflexivity.
  - destruct (set_deflection u x y ws) as [r|] eqn:S; [|discriminate]. injection H as <-. cbn. f_equal. apply IH. reflexivity.
Qed.
Lemma read_deflections_bare l : forall ws ws', read_deflections l ws = Ok ws' -> bare_wings ws' = bare_wings ws.
Proof.
  induction l as [|t l IH]; cbn; intros ws ws' H; [congruence|]. apply bind_ok in H as (u & _ & H).
  destruct (set_deflection u (tool_deflection t) (tool_mirror t) ws) as [ws1|] eqn:S; [|discriminate].
  rewrite (IH _ _ H). apply (set_deflection_bare _ _ _ _ _ S).
Qed.
Lemma check_bare sym c c' r : check none_ok int_ok sym c = (c', r) -> bare c' = bare c.
Proof.
  unfold check. intro H. destruct (bind _ _); [|injection H as <- _; reflexivity].
  destruct (cd_mirror c); [injection H as <- _; reflexivity|..];
    (destruct sym; [match type of H with context [check_angle ?m] => destruct (check_angle m) end|]; injection H as <- _; reflexivity).
Qed.
Lemma check_controls_ok sym d : forall d', check_controls sym d = Ok d' ->
  Forall2 (fun x y => fst x = fst y /\ check none_ok int_ok sym (snd x) = (snd y, Ok tt)) d d'.
Proof.
  unfold check_controls. induction d as [|[k c] d IH]; cbn; intros d' H; [injection H as <-; constructor|].
  destruct (check none_ok int_ok sym c) as [c' o] eqn:E. apply bind_ok in H as ([] & -> & H). apply bind_ok in H as (r & R & H).
  injection H as <-. constructor; [split; [reflexivity|exact E]|auto].
Qed.
Lemma check_controls_bare sym d d' : check_controls sym d = Ok d' -> bare_ctls d' = bare_ctls d.
Proof.
  intro H. apply check_controls_ok in H. unfold bare_ctls.
  induction H as [|[k c] [k' c'] d d' [E K] H IH]; cbn in *; [reflexivity|]. rewrite IH, (check_bare _ _ _ _ K), E. reflexivity.
Qed.
Lemma check_all_bare ws : forall ws', check_all ws = Ok ws' -> bare_wings ws' = bare_wings ws.
Proof.
  unfold check_all, bare_wings. induction ws as [|[k w] ws IH]; cbn; intros ws' H; [injection H as <-; reflexivity|].
  apply bind_ok in H as (c & C & H). apply bind_ok in H as (r & R & H). injection H as <-. cbn [map fst snd]. rewrite (IH _ R).
  unfold bare_wing. cbn [wd_uid wd_symmetry wd_segs wd_ctls]. rewrite (check_controls_bare _ _ _ C). reflexivity.
Qed.

Lemma bare_wings_app a b : bare_wings (a ++ b)%list = (bare_wings a ++ bare_wings b)%list.
Proof. apply map_app. Qed.
Lemma bare_wings_keys ws : dkeys (bare_wings ws) = dkeys ws.
Proof. unfold bare_wings, dkeys. rewrite map_map. reflexivity. Qed.

(** ** Wings *)

(** The (bare) wing of the aircraft for the i-th wing of the document. *)
Definition wing_rel (d : cdoc) (i : nat) (w : cwing) (kw : string * wingdef) : Prop :=
  exists sl segs st, cw_segments w = Some sl /\ symmetry_ok (PInt (cw_symmetry w)) = true /\ wing_uid i w <> "" /\
    read_segments (cd_foils d) (wing_uid i w) [] 1 sl = Ok segs /\ read_comps (cw_comps w) ([], None) = Ok st /\
    kw = (wing_uid i w, mkWD (wing_uid i w) (PInt (cw_symmetry w)) segs (bare_ctls (fst st))).

Lemma read_wing_ok d ws i w ws' : read_wing d ws i w = Ok ws' ->
  exists x, wing_rel d i w x /\ bare_wings ws' = (bare_wings ws ++ [x])%list /\ dget ws (fst x) = None.
Proof.
  unfold read_wing, CpacsAircraftModel.read_wing. intro H. apply bind_ok in H as (u & U & H).
  apply new_uid_ok in U as (U & G & NE). injection U as <-.
  destruct (symmetry_ok (PInt (cw_symmetry w))) eqn:SY; cbn [negb] in H; [|discriminate].
  destruct (cw_segments w) as [sl|] eqn:SL; [|discriminate]. binds H.
  eexists. split; [exists sl, a, a0; repeat split; auto|]. split; [|exact G].
  rewrite (check_all_bare _ _ H), (read_deflections_bare _ _ _ E1), dset_fresh by exact G. rewrite bare_wings_app. reflexivity.
Qed.

Lemma read_wings_ok d l : forall ws i ws', read_wings d ws i l = Ok ws' ->
  exists r, bare_wings ws' = (bare_wings ws ++ r)%list /\ numbered (wing_rel d) i l r /\ (NoDup (dkeys ws) -> NoDup (dkeys ws')).
Proof.
  unfold read_wings. induction l as [|w l IH]; cbn; intros ws i ws' H.
  - injection H as <-. exists []. rewrite app_nil_r. repeat split; [constructor|auto].
  - apply bind_ok in H as (ws1 & E & H). destruct (read_wing_ok _ _ _ _ _ E) as (x & R & B & G).
    destruct (IH _ _ _ H) as (r & B' & N & ND). exists (x :: r). rewrite B', B, <- app_assoc. split; [reflexivity|].
    split; [constructor; assumption|]. intro N0. apply ND. rewrite <- bare_wings_keys, B. apply NoDup_snoc.
    + rewrite bare_wings_keys. exact N0.
    + apply dget_None. rewrite bare_wings_keys. apply dget_None. exact G.
Qed.

Lemma read_aircraft_ok d ac files : read_aircraft d = Ok (ac, files) ->
  exists l r, cd_wings d = Some l /\ bare_wings (ad_wings ac) = r /\ numbered (wing_rel d) 1 l r /\ NoDup (dkeys (ad_wings ac)) /\
    aircraft_name d = Ok (ad_uid ac) /\ read_refs (cd_refs d) = Ok (ad_refs ac) /\ files = airfoil_files root [] 1 (cd_foils d).
Proof.
  unfold read_aircraft, CpacsAircraftModel.read_aircraft. intro H. binds H. injection H as <- <-. cbn [ad_uid ad_refs ad_wings].
  unfold aircraft_wings in E0. destruct (cd_wings d) as [l|]; [|discriminate].
  destruct (read_wings_ok _ _ _ _ _ E0) as (r & B & N & ND). exists l, r. repeat split; auto. apply ND. constructor.
Qed.

(** The wing at a place, with its document. *)
Lemma wing_at_rel d ac files i w w' : read_aircraft d = Ok (ac, files) -> wing_at d ac i w w' ->
  wing_rel d (S i) w (wd_uid w', bare_wing w').
Proof.
  intros H (l & D & N1 & N2). destruct (read_aircraft_ok _ _ _ H) as (l' & r & D' & B & NB & _).
  assert (l' = l) by congruence. subst l'. destruct (numbered_nth _ _ _ _ NB) as [_ K]. destruct (K _ _ N1) as (e & E & R).
  rewrite <- B in E. unfold bare_wings in E. rewrite nth_error_map, N2 in E. injection E as <-. exact R.
Qed.
Lemma wing_exists d ac files l i w : read_aircraft d = Ok (ac, files) -> cd_wings d = Some l -> nth_error l i = Some w ->
  exists w', wing_at d ac i w w'.
Proof.
  intros H D N. destruct (read_aircraft_ok _ _ _ H) as (l' & r & D' & B & NB & _). assert (l' = l) by congruence. subst l'.
  destruct (numbered_nth _ _ _ _ NB) as [_ K]. destruct (K _ _ N) as (e & E & R). rewrite <- B in E. unfold bare_wings in E.
  rewrite nth_error_map in E. destruct (nth_error (ad_wings ac) i) as [[k w']|] eqn:W; [|discriminate]. injection E as <-.
  destruct R as (? & ? & ? & ? & ? & ? & ? & ? & Q). cbn in Q. injection Q as Qk Qu _ _ _. exists w', l. repeat split; auto. congruence.
Qed.
Lemma wing_count d ac files l : read_aircraft d = Ok (ac, files) -> cd_wings d = Some l -> List.length (ad_wings ac) = List.length l.
Proof.
  intros H D. destruct (read_aircraft_ok _ _ _ H) as (l' & r & D' & B & NB & _). assert (l' = l) by congruence. subst l'.
  destruct (numbered_nth _ _ _ _ NB) as [L _]. rewrite <- B in L. unfold bare_wings in L. rewrite map_length in L. exact L.
Qed.

(** The segments of a wing. *)
Lemma wing_segments d i w kw : wing_rel d i w kw -> exists sl, cw_segments w = Some sl /\
  numbered (seg_rel (cd_foils d) (wd_uid (snd kw))) 1 sl (wd_segs (snd kw)) /\ NoDup (dkeys (wd_segs (snd kw))).
Proof.
  intros (sl & segs & st & S & _ & _ & R & _ & ->). cbn [snd wd_uid wd_segs]. exists sl. split; [exact S|].
  destruct (read_segments_ok _ _ _ _ _ _ R) as (x & -> & N & ND). cbn [app] in *. split; [exact N|]. apply ND. constructor.
Qed.

(** ** The aircraft as a whole *)
Hypothesis Droot : directory root.

Lemma airfoil_file_eq n : airfoil_file root n = root ++ "/airfoils/blade." ++ n.
Proof.
  unfold airfoil_file.
  change (path_join AIRFOILS ("blade." ++ n)) with ("airfoils/blade." ++ n). rewrite join_root; [reflexivity|exact Droot|reflexivity].
Qed.
Lemma airfoil_file_inj n m : airfoil_file root n = airfoil_file root m -> n = m.
Proof. rewrite !airfoil_file_eq. intro E. apply app_inj_s in E. apply (app_inj_s "/airfoils/blade."). exact E. Qed.

Lemma segment_airfoil_ok d i path : segment_airfoil (cd_foils d) i = Ok path ->
  exists n pts name, profile d i n pts /\ stripped n name /\ name <> "" /\ blade root name path.
Proof.
  unfold segment_airfoil, CpacsAircraftModel.segment_airfoil, profile_name. intro H.
  destruct (nth_error (cd_foils d) i) as [f|] eqn:F; [|discriminate]. cbn [bind] in H.
  destruct (cf_name f) as [n|] eqn:N; [|discriminate].
  destruct (String.eqb_spec (parse_str n) "") as [E|E]; [discriminate|]. injection H as <-.
  exists n, (cf_points f), (parse_str n). split; [exists f; auto|]. split; [apply stripped_iff; reflexivity|]. split; [exact E|]. apply airfoil_file_eq.
Qed.

Lemma seg_rel_spec d w' k s ks : seg_rel (cd_foils d) (wd_uid w') k s ks ->
  fst ks = sd_uid (snd ks) /\ component_name (cs_uid s) (wd_uid w' ++ "_SEGMENT") k (sd_uid (snd ks)) /\
  has_airfoil root d (snd ks) "inner" (cs_inner s) /\ has_airfoil root d (snd ks) "outer" (cs_outer s) /\
  has_vertices (snd ks) (reorder (raw_quad s)).
Proof.
  intros (fi & fo & A & B & -> & NE). cbn [fst snd]. split; [reflexivity|]. split.
  { unfold seg_of. cbn [sd_uid]. unfold segment_uid. assert (C := component_name_iff (cs_uid s) (wd_uid w' ++ "_SEGMENT") k).
    destruct (cs_uid s); [exact C|]. rewrite app_assoc_s in C. exact C. }
  apply segment_airfoil_ok in A as (n & pts & name & P & S & N & Bl). apply segment_airfoil_ok in B as (n' & pts' & name' & P' & S' & N' & Bl').
  split; [exists n, pts, name, fi; auto|]. split; [exists n', pts', name', fo; auto|].
  do 4 eexists. split; [unfold seg_of; cbn [sd_vertices]; reflexivity|]. repeat split.
Qed.

Lemma segment_at_rel d i w w' k s s' : wing_rel d i w (wd_uid w', bare_wing w') -> segment_at w w' k s s' ->
  seg_rel (cd_foils d) (wd_uid w') (S k) s (sd_uid s', s').
Proof.
  intros R (sl & S & N1 & N2). destruct (wing_segments _ _ _ _ R) as (sl' & S' & NB & _). cbn [snd bare_wing wd_uid wd_segs] in NB.
  assert (sl' = sl) by congruence. subst sl'. destruct (numbered_nth _ _ _ _ NB) as [_ K]. destruct (K _ _ N1) as (e & E & Q).
  assert (e = (sd_uid s', s')) by congruence. subst e. exact Q.
Qed.

Theorem structure_thm d ac files : read_aircraft d = Ok (ac, files) ->
  exists l, cd_wings d = Some l /\ List.length (ad_wings ac) = List.length l /\ NoDup (dkeys (ad_wings ac)) /\
  match cd_model d with None => ad_uid ac = "NAME_NOT_FOUND" | Some None => False | Some (Some u) => stripped u (ad_uid ac) end /\
  (forall i w, nth_error l i = Some w -> exists w' sl, wing_at d ac i w w' /\
     component_name (cw_uid w) "WING" (S i) (wd_uid w') /\ wd_symmetry w' = PInt (cw_symmetry w) /\ In (cw_symmetry w) [0; 1; 2; 3]%Z /\
     cw_segments w = Some sl /\ List.length (wd_segs w') = List.length sl /\ NoDup (dkeys (wd_segs w')) /\
     forall k s, nth_error sl k = Some s -> exists s', segment_at w w' k s s' /\
       component_name (cs_uid s) (wd_uid w' ++ "_SEGMENT") (S k) (sd_uid s') /\
       has_airfoil root d s' "inner" (cs_inner s) /\ has_airfoil root d s' "outer" (cs_outer s)) /\
  exists x y z area len p, cr_x (cd_refs d) = Some x /\ cr_y (cd_refs d) = Some y /\ cr_z (cd_refs d) = Some z /\
    cr_area (cd_refs d) = Some area /\ cr_length (cd_refs d) = Some len /\ at_point p (mkPt x y z) /\
    dget (ad_refs ac) "gcenter" = Some p /\ dget (ad_refs ac) "rcenter" = Some p /\
    dget (ad_refs ac) "area" = Some (PFlt (Some area)) /\ dget (ad_refs ac) "span" = Some (PFlt (Some len)) /\
    dget (ad_refs ac) "chord" = Some (PFlt (Some len)).
Proof.
  intro H. destruct (read_aircraft_ok _ _ _ H) as (l & r & D & B & NB & ND & AN & RR & _). exists l. split; [exact D|].
  split; [apply (wing_count _ _ _ _ H D)|]. split; [exact ND|]. split; [|split].
  - unfold aircraft_name in AN. destruct (cd_model d) as [[u|]|]; [|discriminate|congruence]. cbn in AN. injection AN as <-.
    apply stripped_iff. reflexivity.
  - intros i w N. destruct (wing_exists _ _ _ _ _ _ H D N) as [w' WA]. assert (R := wing_at_rel _ _ _ _ _ _ H WA).
    destruct (wing_segments _ _ _ _ R) as (sl & SL & NS & NDS). cbn [snd bare_wing wd_uid wd_segs] in NS, NDS.
    exists w', sl. split; [exact WA|]. destruct R as (sl' & segs & st & _ & SY & NE & _ & _ & Q). injection Q as Q1 _ Q2 _ _.
    split; [rewrite Q1; unfold wing_uid; apply (component_name_iff (cw_uid w) "WING" (S i))|].
    split; [exact Q2|]. split.
    { unfold symmetry_ok in SY. cbn in SY. unfold Qeqb in SY. rewrite !orb_true_iff, !Qeq_bool_iff in SY. unfold Qeq in SY. cbn in SY. cbn. lia. }
    split; [exact SL|]. destruct (numbered_nth _ _ _ _ NS) as [L K]. split; [exact L|]. split; [exact NDS|].
    intros k s Nk. destruct (K _ _ Nk) as ([u s'] & E & SR). destruct (seg_rel_spec _ _ _ _ _ SR) as (U & C & A1 & A2 & _).
    cbn [fst snd] in *. subst u. exists s'. split; [exists sl; auto|]. auto.
  - unfold read_refs in RR. destruct (cd_refs d) as [[x|] [y|] [z|] [area|] [len|]]; cbn [tixi bind cr_x cr_y cr_z cr_area cr_length] in RR; try discriminate.
    injection RR as <-. exists x, y, z, area, len, (py_point (mkPt x y z)). cbn [cr_x cr_y cr_z cr_area cr_length].
    repeat split; reflexivity.
Qed.

Theorem vertices_thm d ac files i w w' k s s' : read_aircraft d = Ok (ac, files) -> wing_at d ac i w w' -> segment_at w w' k s s' ->
  exists raw v, corners s raw /\ has_vertices s' v /\ (same_sense raw <-> proper v /\ same_quad raw v) /\
    (px (qa v) <= px (qd v))%Q /\ (px (qb v) <= px (qc v))%Q.
Proof.
  intros H WA SA. assert (R := segment_at_rel _ _ _ _ _ _ _ (wing_at_rel _ _ _ _ _ _ H WA) SA).
  destruct (seg_rel_spec _ _ _ _ _ R) as (_ & _ & _ & _ & V). cbn [snd] in V.
  exists (raw_quad s), (reorder (raw_quad s)). split; [apply corners_raw|]. split; [exact V|].
  split; [split; [apply reorder_proper|intros [P S]; apply (proper_sense _ _ P S)]|apply reorder_front].
Qed.

(** Root and tip of a segment that runs against the span. *)
Lemma reorder_forward v : forward v -> reorder v = v \/ reorder v = mkQuad (qd v) (qb v) (qc v) (qa v) \/
  reorder v = mkQuad (qa v) (qc v) (qb v) (qd v) \/ reorder v = flip_chord v.
Proof.
  Transparent reorder. destruct v as [a b c d]. intros [S1 S2]. cbn [qa qb qc qd] in *. unfold reorder, flip_chord. cbn [qa qb qc qd].
  rewrite (before_asym _ _ S1). cbn [qa qb qc qd]. rewrite (before_asym _ _ S2). cbn [qa qb qc qd].
  destruct (Qltb (px d - px a) 0); cbn [qa qb qc qd]; destruct (Qltb (px c - px b) 0); auto. Opaque reorder.
Qed.
Lemma reorder_backward v : backward v -> reorder v = reorder (flip_span v).
Proof.
  Transparent reorder. destruct v as [a b c d]. intros [S1 S2]. cbn [qa qb qc qd] in *. unfold reorder, flip_span. cbn [qa qb qc qd].
  rewrite (before_against _ _ S1), (before_asym _ _ S1). cbn [qa qb qc qd].
  rewrite (before_against _ _ S2), (before_asym _ _ S2). reflexivity. Opaque reorder.
Qed.
Lemma root_edge v : forward v -> (qa (reorder v) = qa v /\ qd (reorder v) = qd v) \/ (qa (reorder v) = qd v /\ qd (reorder v) = qa v).
Proof. intro F. destruct (reorder_forward v F) as [->|[->|[->| ->]]]; unfold flip_chord; cbn; auto. Qed.

Theorem airfoil_side_thm d ac files i w w' k s s' : read_aircraft d = Ok (ac, files) -> wing_at d ac i w w' -> segment_at w w' k s s' ->
  exists raw v, corners s raw /\ has_vertices s' v /\
    has_airfoil root d s' "inner" (cs_inner s) /\ has_airfoil root d s' "outer" (cs_outer s) /\
    (forward raw -> (qa v = qa raw /\ qd v = qd raw) \/ (qa v = qd raw /\ qd v = qa raw)) /\
    (backward raw -> (qa v = qb raw /\ qd v = qc raw) \/ (qa v = qc raw /\ qd v = qb raw)).
Proof.
  intros H WA SA. assert (R := segment_at_rel _ _ _ _ _ _ _ (wing_at_rel _ _ _ _ _ _ H WA) SA).
  destruct (seg_rel_spec _ _ _ _ _ R) as (_ & _ & A1 & A2 & V). cbn [snd] in *.
  exists (raw_quad s), (reorder (raw_quad s)). split; [apply corners_raw|]. split; [exact V|]. split; [exact A1|]. split; [exact A2|].
  split; [apply root_edge|]. intro B. rewrite (reorder_backward _ B). destruct B as [B1 B2].
  apply (root_edge (flip_span (raw_quad s))). split; assumption.
Qed.

(** ** Controls *)
Definition devs (name : string) (l : list cdev) : list (string * string * devpos) :=
  flat_map (fun t => match dv_pos t, dv_uid t with Some p, Some u => [(name, u, p)] | _, _ => [] end) l.
Definition dev_rel (x : string * string * devpos) (kc : string * ctldef) : Prop :=
  let '(name, u, p) := x in fst kc = u /\ flap_at locate name u p (snd kc).

Lemma device_turn_none name b u st : device_turn name b u None st = Ok st.
Proof. reflexivity. Qed.
Lemma device_turn_flap name u p ctls te st' : device_turn name false u (Some p) (ctls, te) = Ok st' ->
  exists c, fst st' = (ctls ++ [(u, c)])%list /\ flap_at locate name u p c /\ dget ctls u = None.
Proof.
  unfold device_turn, CpacsAircraftModel.device_turn. intro H. apply bind_ok in H as ([[[i o] h1] h2] & L & H). binds L.
  injection L as <- <- <- <-. apply bind_ok in H as (v & U & H). apply new_uid_ok in U as (U & G & NE). injection U as <-. injection H as <-.
  destruct a as [[si ei] xi], a0 as [[so eo] xo], a1 as [[s1 e1] y1], a2 as [[s2 e2] y2].
  exists (device_control u false (si, ei, xi) (so, eo, xo) y1 y2). cbn [fst snd]. rewrite dset_fresh by exact G.
  split; [reflexivity|]. split; [|exact G]. exists si, ei, xi, so, eo, xo, s1, e1, y1, s2, e2, y2. repeat split; assumption.
Qed.

Lemma read_devices_ok name trail : forall lead ctls te st', Forall (fun t => dv_pos t = None) lead ->
  read_devices name lead trail (ctls, te) = Ok st' ->
  exists d, fst st' = (ctls ++ d)%list /\ Forall2 dev_rel (devs name trail) d /\ (NoDup (dkeys ctls) -> NoDup (dkeys (fst st'))).
Proof.
  unfold read_devices. induction trail as [|t trail IH]; intros lead ctls te st' F H.
  - cbn in H. injection H as <-. exists []. rewrite app_nil_r. repeat split; [constructor|auto].
  - cbn [CpacsAircraftModel.read_devices] in H. apply bind_ok in H as (u & U & H). apply bind_ok in H as (st1 & T1 & H).
    assert (st1 = (ctls, te)).
    { destruct lead as [|l lead]; [cbn in T1; congruence|]. inversion F as [|? ? F1 F2]; subst. rewrite F1 in T1. cbn in T1. congruence. }
    subst st1. apply bind_ok in H as (st2 & T2 & H).
    assert (F' : Forall (fun t => dv_pos t = None) (tl lead)) by (destruct lead; [constructor|inversion F; assumption]).
    destruct (dv_uid t) as [u'|] eqn:DU; [|discriminate]. cbn in U. injection U as ->.
    destruct (dv_pos t) as [p|] eqn:DP.
    + destruct (device_turn_flap _ _ _ _ _ _ T2) as (c & E & FL & G). destruct st2 as [ctls2 te2]. cbn in E. subst ctls2.
      destruct (IH _ _ _ _ F' H) as (d & E & R & ND). exists ((u, c) :: d). rewrite E, <- app_assoc. split; [reflexivity|]. split.
      * unfold devs. cbn [flat_map]. rewrite DP, DU. cbn [app]. constructor; [split; [reflexivity|exact FL]|exact R].
      * intro N. rewrite <- app_assoc in E. cbn [app] in E. rewrite <- E. apply ND, NoDup_snoc; assumption.
    + cbn in T2. injection T2 as <-. destruct (IH _ _ _ _ F' H) as (d & E & R & ND). exists d. split; [exact E|]. split; [|exact ND].
      unfold devs. cbn [flat_map]. rewrite DP. exact R.
Qed.

Definition comp_devs (l : list ccomp) : list (string * string * devpos) := flat_map (fun c => devs (cc_uid c) (cc_trailing c)) l.
Lemma read_comps_ok l : forall ctls te st', Forall (fun c => Forall (fun t => dv_pos t = None) (cc_leading c)) l ->
  read_comps l (ctls, te) = Ok st' ->
  exists d, fst st' = (ctls ++ d)%list /\ Forall2 dev_rel (comp_devs l) d /\ (NoDup (dkeys ctls) -> NoDup (dkeys (fst st'))).
Proof.
  unfold read_comps. induction l as [|c l IH]; intros ctls te st' F H.
  - cbn in H. injection H as <-. exists []. rewrite app_nil_r. repeat split; [constructor|auto].
  - inversion F as [|? ? F1 F2]; subst. cbn [CpacsAircraftModel.read_comps] in H. apply bind_ok in H as ([ctls1 te1] & H1 & H).
    destruct (read_devices_ok _ _ _ _ _ _ F1 H1) as (d1 & E1 & R1 & N1). cbn [fst] in *. subst ctls1.
    destruct (IH _ _ _ F2 H) as (d2 & E2 & R2 & N2). exists (d1 ++ d2)%list. rewrite E2, app_assoc. split; [reflexivity|].
    split; [unfold comp_devs; cbn [flat_map]; apply Forall2_app; assumption|]. intro N. rewrite <- E2. auto.
Qed.

Lemma trailing_uids_devs w : trailing_uids w = map (fun x => snd (fst x)) (comp_devs (cw_comps w)).
Proof.
  unfold trailing_uids, comp_devs. induction (cw_comps w) as [|c l IH]; cbn; [reflexivity|]. rewrite IH, map_app. f_equal.
  unfold devs. induction (cc_trailing c) as [|t tr IHt]; cbn; [reflexivity|]. rewrite IHt, map_app. f_equal.
  destruct (dv_pos t), (dv_uid t); reflexivity.
Qed.
Lemma trailing_device_in w name u p : trailing_device w name u p -> In (name, u, p) (comp_devs (cw_comps w)).
Proof.
  intros (c & t & IC & IT & <- & U & P). unfold comp_devs. apply in_flat_map. exists c. split; [exact IC|].
  unfold devs. apply in_flat_map. exists t. split; [exact IT|]. rewrite U, P. left. reflexivity.
Qed.

Lemma bare_ctls_keys d : dkeys (bare_ctls d) = dkeys d.
Proof. unfold bare_ctls, dkeys. rewrite map_map. reflexivity. Qed.
Lemma bare_ctls_get d u c : dget (bare_ctls d) u = Some c <-> exists c0, dget d u = Some c0 /\ c = bare c0.
Proof.
  unfold bare_ctls. induction d as [|[k x] d IH]; cbn; [split; [discriminate|intros (? & ? & _); discriminate]|].
  destruct (String.eqb u k); [|exact IH]. split; [intro H; injection H as <-; eauto|intros (c0 & H & ->); congruence].
Qed.
Lemma flap_at_bare name u p c c' : bare c = bare c' -> flap_at locate name u p c -> flap_at locate name u p c'.
Proof.
  intro E. unfold bare, set_deflections in E. injection E as E1 E2 E3 E4 E5 E6. unfold flap_at.
  rewrite E1, E2, E3, E4, E5. intro H. exact H.
Qed.

Lemma Forall2_in_l {A B} (R : A -> B -> Prop) l l' x : Forall2 R l l' -> In x l -> exists y, In y l' /\ R x y.
Proof. induction 1 as [|a b l l' H F IH]; intros I; [destruct I|]. destruct I as [<-|I]; [exists b; split; [left|]; auto|].
  destruct (IH I) as (y & Y & Q). exists y. split; [right|]; auto. Qed.

Lemma no_leading w : (forall name u p, ~ leading_device w name u p) -> Forall (fun c => Forall (fun t => dv_pos t = None) (cc_leading c)) (cw_comps w).
Proof.
  intro N. apply Forall_forall. intros c I. apply Forall_forall. intros t J. destruct (dv_pos t) as [p|] eqn:P; [|reflexivity].
  exfalso. apply (N (cc_uid c) (dv_uid t) p). exists c, t. auto.
Qed.

Theorem controls_thm d ac files i w w' : read_aircraft d = Ok (ac, files) -> wing_at d ac i w w' ->
  (forall name u p, ~ leading_device w name u p) ->
  dkeys (wd_ctls w') = trailing_uids w /\ NoDup (trailing_uids w) /\
  forall name u p, trailing_device w name u p -> exists c, dget (wd_ctls w') u = Some c /\ flap_at locate name u p c.
Proof.
  intros H WA NL. destruct (wing_at_rel _ _ _ _ _ _ H WA) as (sl & segs & st & _ & _ & _ & _ & RC & Q).
  unfold bare_wing in Q. injection Q as _ _ _ _ Q. destruct (read_comps_ok _ _ _ _ (no_leading w NL) RC) as (x & E & R & ND). change (fst st = x) in E.
  assert (K : dkeys (wd_ctls w') = trailing_uids w).
  { rewrite <- bare_ctls_keys, Q, bare_ctls_keys, E, trailing_uids_devs. clear - R. unfold dkeys. induction R as [|[[n u] p] kc l l' [H _] R IH]; cbn [map]; [reflexivity|].
    rewrite IH, H. reflexivity. }
  assert (N : NoDup (trailing_uids w)).
  { rewrite <- K, <- bare_ctls_keys, Q, bare_ctls_keys. apply ND. constructor. }
  split; [exact K|]. split; [exact N|]. intros name u p T. apply trailing_device_in in T.
  destruct (Forall2_in_l _ _ _ _ R T) as ([u' c] & I & U & FL). cbn [fst snd] in *. subst u'.
  assert (G : dget (bare_ctls (wd_ctls w')) u = Some (bare c)).
  { rewrite Q. apply bare_ctls_get. exists c. split; [|reflexivity]. apply dget_In_NoDup; [apply ND; constructor|rewrite E; exact I]. }
  apply bare_ctls_get in G as (c0 & G & B). exists c0. split; [exact G|]. apply (flap_at_bare _ _ _ _ _ B FL).
Qed.

(** ** Deflections *)
Definition with_ctls (w : wingdef) (c : dict ctldef) : wingdef := mkWD (wd_uid w) (wd_symmetry w) (wd_segs w) c.
Definition upd (ctls : dict ctldef) (t : ctool) : dict ctldef :=
  match ct_uid t with
  | Some u => match dget ctls u with Some c => dset ctls u (set_deflections c (tool_deflection t) (tool_mirror t)) | None => ctls end
  | None => ctls
  end.
Definition has_all (l : list ctool) (ctls : dict ctldef) : Prop :=
  forall t, In t l -> exists u, ct_uid t = Some u /\ In u (dkeys ctls).

Lemma upd_keys ctls t : dkeys (upd ctls t) = dkeys ctls.
Proof.
  unfold upd. destruct (ct_uid t) as [u|]; [|reflexivity]. destruct (dget ctls u) eqn:G; [|reflexivity].
  apply dset_keys_mem. congruence.
Qed.
Lemma fold_upd_keys l : forall ctls, dkeys (fold_left upd l ctls) = dkeys ctls.
Proof. induction l as [|t l IH]; intro ctls; cbn [fold_left]; [reflexivity|]. rewrite IH. apply upd_keys. Qed.

Lemma in_keys_get {V} (d : dict V) u : In u (dkeys d) -> exists c, dget d u = Some c.
Proof. intro I. destruct (dget d u) eqn:G; [eauto|]. apply dget_None in G. contradiction. Qed.

Lemma first_only l k r : forall w, has_all l (wd_ctls w) ->
  read_deflections l ((k, w) :: r) = Ok ((k, with_ctls w (fold_left upd l (wd_ctls w))) :: r).
Proof.
  induction l as [|t l IH]; intros w A.
  - cbn. destruct w; reflexivity.
  - destruct (A t (or_introl eq_refl)) as (u & U & I). destruct (in_keys_get _ _ I) as [c G].
    cbn [read_deflections]. rewrite U. cbn [tixi bind set_deflection]. rewrite G.
    rewrite (IH (mkWD (wd_uid w) (wd_symmetry w) (wd_segs w) (dset (wd_ctls w) u (set_deflections c (tool_deflection t) (tool_mirror t))))).
    + cbn [wd_uid wd_symmetry wd_segs wd_ctls with_ctls fold_left]. unfold with_ctls. cbn [wd_uid wd_symmetry wd_segs]. unfold upd at 3. rewrite U, G. reflexivity.
    + cbn [wd_ctls]. intros t' I'. destruct (A t' (or_intror I')) as (u' & U' & I''). exists u'. split; [exact U'|].
      rewrite dset_keys_mem by congruence. exact I''.
Qed.

(** With a single wing, all devices are there if there is no exception. *)
Lemma alone l : forall k w ws', read_deflections l [(k, w)] = Ok ws' -> has_all l (wd_ctls w).
Proof.
  induction l as [|t l IH]; intros k w ws' H x I; [destruct I|]. cbn [read_deflections] in H.
  apply bind_ok in H as (u & U & H). cbn [set_deflection] in H. destruct (ct_uid t) as [u'|] eqn:CU; [|discriminate]. cbn in U. injection U as ->.
  destruct (dget (wd_ctls w) u) as [c|] eqn:G; [|discriminate].
  destruct I as [<-|I].
  - exists u. split; [exact CU|]. destruct (in_dec String.string_dec u (dkeys (wd_ctls w))) as [J|J]; [exact J|].
    apply dget_None in J. congruence.
  - destruct (IH _ _ _ H x I) as (v & V & J). cbn [wd_ctls] in J. rewrite dset_keys_mem in J by congruence. eauto.
Qed.

Lemma get_fold l : forall ctls u, dget (fold_left upd l ctls) u =
  match dget ctls u with
  | None => None
  | Some c => Some (match entry l u with Some t => set_deflections c (tool_deflection t) (tool_mirror t) | None => c end)
  end.
Proof.
  induction l as [|t l IH]; intros ctls u; cbn [fold_left entry]; [destruct (dget ctls u); reflexivity|].
  rewrite IH. unfold upd. destruct (ct_uid t) as [v|] eqn:CU.
  - destruct (String.eqb_spec v u) as [->|NE].
    + destruct (dget ctls u) as [c|] eqn:G; [|rewrite G; reflexivity]. rewrite dget_dset_same. destruct (entry l u); reflexivity.
    + destruct (dget ctls v) as [c|] eqn:G; [rewrite dget_dset_other by congruence|]; destruct (dget ctls u), (entry l u); reflexivity.
  - destruct (dget ctls u), (entry l u); reflexivity.
Qed.

Definition rawd (t : option ctool) : pyval := match t with Some t => tool_deflection t | None => PInt 0 end.
Definition rawm (t : option ctool) : pyval := match t with Some t => tool_mirror t | None => PNone end.
Definition pend (t : option ctool) (sym : bool) (c : ctldef) : Prop :=
  deflected t sym c \/ (cd_deflection c = rawd t /\ cd_mirror c = rawm t).

Lemma check_pend t sym c c' : pend t sym c -> check none_ok int_ok sym c = (c', Ok tt) -> deflected t sym c'.
Proof.
  intros P K. destruct (check_result none_ok int_ok sym c c' K) as (_ & q & A & D & M0 & M1 & M2).
  assert (Q : q = given_deflection t).
  { destruct A as [A _]. destruct P as [[P _]|[P _]]; rewrite P in A; [inversion A; reflexivity|].
    unfold rawd, tool_deflection, given_deflection in *. destruct t as [t|]; [destruct (ct_deflection t)|]; inversion A; reflexivity. }
  subst q. split; [exact D|].
  assert (X : cd_mirror c = match given_mirror t with Some m => PFlt (Some m) | None => PNone end \/
              (given_mirror t = None /\ sym = true /\ cd_mirror c = PFlt (Some (given_deflection t)))).
  { destruct P as [[_ P]|[_ P]].
    - destruct (given_mirror t); [left; exact P|]. destruct sym; [right; auto|left; exact P].
    - left. rewrite P. unfold rawm, tool_mirror, given_mirror. destruct t as [t|]; [destruct (ct_mirror t)|]; reflexivity. }
  destruct sym.
  - destruct X as [X|(X1 & _ & X2)].
    + destruct (given_mirror t) as [m|].
      * destruct (M2 eq_refl) as (m' & [N _] & E); [rewrite X; discriminate|]. rewrite X in N. inversion N; subst. exact E.
      * apply M1; auto.
    + rewrite X1. destruct (M2 eq_refl) as (m' & [N _] & E); [rewrite X2; discriminate|]. rewrite X2 in N. inversion N; subst. exact E.
  - rewrite (M0 eq_refl). destruct X as [X|(_ & X & _)]; [exact X|discriminate].
Qed.

(** Controls just read have the default deflection. *)
Definition fresh_ctls (d : dict ctldef) : Prop := forall u c, dget d u = Some c -> pend None false c /\ cd_mirror c = PNone /\ cd_deflection c = PInt 0.
Lemma device_turn_fresh name b u p st st' : device_turn name b u p st = Ok st' -> fresh_ctls (fst st) -> fresh_ctls (fst st').
Proof.
  unfold device_turn, CpacsAircraftModel.device_turn. destruct p as [p|]; [|intro H; injection H as <-; auto].
  destruct st as [ctls te]. intros H F. apply bind_ok in H as ([[[i o] h1] h2] & _ & H). apply bind_ok in H as (v & _ & H). injection H as <-.
  cbn [fst] in *. intros w c. destruct (String.string_dec w v) as [->|NE].
  - rewrite dget_dset_same. intro E. injection E as <-. destruct i as [[? ?] ?], o as [[? ?] ?]. cbn. split; [right; auto|auto].
  - rewrite dget_dset_other by exact NE. apply F.
Qed.
Lemma read_devices_fresh name trail : forall lead st st', read_devices name lead trail st = Ok st' -> fresh_ctls (fst st) -> fresh_ctls (fst st').
Proof.
  unfold read_devices. induction trail as [|t trail IH]; intros lead st st' H F; cbn [CpacsAircraftModel.read_devices] in H; [injection H as <-; exact F|].
  binds H. apply (IH _ _ _ H). apply (device_turn_fresh _ _ _ _ _ _ E1). apply (device_turn_fresh _ _ _ _ _ _ E0 F).
Qed.
Lemma read_comps_fresh l : forall st st', read_comps l st = Ok st' -> fresh_ctls (fst st) -> fresh_ctls (fst st').
Proof.
  unfold read_comps. induction l as [|c l IH]; intros st st' H F; cbn [CpacsAircraftModel.read_comps] in H; [injection H as <-; exact F|].
  binds H. apply (IH _ _ H). apply (read_devices_fresh _ _ _ _ _ E F).
Qed.

Lemma check_controls_get sym d d' u c' : check_controls sym d = Ok d' -> dget d' u = Some c' ->
  exists c, dget d u = Some c /\ check none_ok int_ok sym c = (c', Ok tt).
Proof.
  intro H. apply check_controls_ok in H. induction H as [|[k c] [k' c0] d d' [E K] H IH]; cbn in *; [discriminate|]. subst k'.
  destruct (String.eqb u k); [|exact IH]. intro G. injection G as <-. eauto.
Qed.
Lemma check_all_nth ws : forall ws' j k w', check_all ws = Ok ws' -> nth_error ws' j = Some (k, w') ->
  exists w, nth_error ws j = Some (k, w) /\ wd_symmetry w' = wd_symmetry w /\
    check_controls (truthy (wd_symmetry w)) (wd_ctls w) = Ok (wd_ctls w').
Proof.
  unfold check_all. induction ws as [|[k0 w0] ws IH]; intros ws' j k w' H N.
  - cbn in H. injection H as <-. destruct j; discriminate.
  - cbn [CpacsAircraftModel.check_all] in H. apply bind_ok in H as (c & C & H). apply bind_ok in H as (r & R & H). injection H as <-.
    destruct j as [|j]; cbn [nth_error] in *; [|exact (IH _ _ _ _ R N)]. injection N as <- <-. exists w0. auto.
Qed.

(** All controls have their deflections; the first wing has all devices. *)
Definition expected (tools : list ctool) (j : nat) (u : string) : option ctool := match j with O => entry tools u | S _ => None end.
Definition settled (tools : list ctool) (ws : dict wingdef) : Prop :=
  (forall k w r, ws = (k, w) :: r -> has_all tools (wd_ctls w)) /\
  forall j k w u c, nth_error ws j = Some (k, w) -> dget (wd_ctls w) u = Some c -> deflected (expected tools j u) (truthy (wd_symmetry w)) c.

Lemma read_deflections_settled tools ws k w ws1 :
  settled tools ws -> fresh_ctls (wd_ctls w) -> read_deflections tools (ws ++ [(k, w)])%list = Ok ws1 ->
  (forall k0 w0 r, ws1 = (k0, w0) :: r -> has_all tools (wd_ctls w0)) /\
  forall j k0 w0 u c, nth_error ws1 j = Some (k0, w0) -> dget (wd_ctls w0) u = Some c -> pend (expected tools j u) (truthy (wd_symmetry w0)) c.
Proof.
  intros [S1 S2] F H.
  assert (X : exists k0 w0 r, (ws ++ [(k, w)])%list = (k0, w0) :: r /\ has_all tools (wd_ctls w0)).
  { destruct ws as [|[k0 w0] r]; [exists k, w, []; split; [reflexivity|apply (alone _ _ _ _ H)]|].
    exists k0, w0, (r ++ [(k, w)])%list. split; [reflexivity|]. apply (S1 _ _ _ eq_refl). }
  assert (P : forall j k0 w0 u c, nth_error (ws ++ [(k, w)])%list j = Some (k0, w0) -> dget (wd_ctls w0) u = Some c ->
     deflected (expected tools j u) (truthy (wd_symmetry w0)) c \/ (cd_deflection c = PInt 0 /\ cd_mirror c = PNone)).
  { intros j k0 w0 u c N G. destruct (Nat.lt_ge_cases j (List.length ws)) as [L|L].
    - rewrite nth_error_app1 in N by exact L. left. apply (S2 _ _ _ _ _ N G).
    - rewrite nth_error_app2 in N by exact L. destruct (j - List.length ws) as [|n]; [|destruct n; discriminate].
      injection N as <- <-. right. destruct (F _ _ G) as (_ & A & B). auto. }
  destruct X as (k0 & w0 & r & E & A). rewrite E in H, P. rewrite (first_only _ _ _ _ A) in H. injection H as <-. split.
  - intros k1 w1 r1 Q. injection Q as <- <- <-. cbn [with_ctls wd_ctls]. intros t I. destruct (A t I) as (u & U & J). exists u.
    rewrite fold_upd_keys. auto.
  - intros [|j] k1 w1 u c N G; cbn [nth_error] in N.
    + injection N as <- <-. cbn [with_ctls wd_ctls wd_symmetry] in *. rewrite get_fold in G.
      destruct (dget (wd_ctls w0) u) as [c0|] eqn:G0; [|discriminate]. injection G as <-. cbn [expected].
      destruct (entry tools u) as [t|] eqn:EN.
      * right. split; reflexivity.
      * destruct (P 0 k0 w0 u c0 eq_refl G0) as [D|[D M]]; cbn [expected] in *; [rewrite EN in D; left; exact D|right; split; assumption].
    + destruct (P (S j) k1 w1 u c N G) as [D|[D M]]; cbn [expected] in *; [left; exact D|right; split; assumption].
Qed.

Lemma check_all_settled tools ws ws' : check_all ws = Ok ws' ->
  (forall k0 w0 r, ws = (k0, w0) :: r -> has_all tools (wd_ctls w0)) ->
  (forall j k0 w0 u c, nth_error ws j = Some (k0, w0) -> dget (wd_ctls w0) u = Some c -> pend (expected tools j u) (truthy (wd_symmetry w0)) c) ->
  settled tools ws'.
Proof.
  intros H A P. split.
  - intros k w' r E. destruct (check_all_nth _ _ 0 k w' H) as (w & N & _ & C); [rewrite E; reflexivity|].
    destruct ws as [|[k0 w0] r0]; [discriminate|]. cbn in N. injection N as -> ->.
    intros t I. destruct (A _ _ _ eq_refl t I) as (u & U & J). exists u. split; [exact U|].
    rewrite <- bare_ctls_keys in *. rewrite (check_controls_bare _ _ _ C). exact J.
  - intros j k w' u c' N G. destruct (check_all_nth _ _ _ _ _ H N) as (w & N' & SY & C). rewrite SY.
    destruct (check_controls_get _ _ _ _ _ C G) as (c & G' & K). apply (check_pend _ _ _ _ (P _ _ _ _ _ N' G') K).
Qed.

Lemma read_wings_settled d l : forall ws i ws', settled (cd_tools d) ws -> read_wings d ws i l = Ok ws' -> settled (cd_tools d) ws'.
Proof.
  unfold read_wings. induction l as [|w l IH]; intros ws i ws' S H; cbn [CpacsAircraftModel.read_wings] in H; [injection H as <-; exact S|].
  apply bind_ok in H as (ws1 & E & H). apply (IH _ _ _) in H; [exact H|]. clear H IH.
  unfold CpacsAircraftModel.read_wing in E. apply bind_ok in E as (u & U & E). apply new_uid_ok in U as (_ & G & _).
  destruct (symmetry_ok _); cbn [negb] in E; [|discriminate]. destruct (cw_segments w); [|discriminate]. binds E.
  rewrite dset_fresh in E2 by exact G.
  assert (F : fresh_ctls (fst a0)) by (apply (read_comps_fresh _ _ _ E1); intros x c X; discriminate).
  destruct (read_deflections_settled _ _ _ (mkWD u (PInt (cw_symmetry w)) a (fst a0)) _ S F E2) as [A P]. apply (check_all_settled _ _ _ E A P).
Qed.

Theorem deflections_thm d ac files : read_aircraft d = Ok (ac, files) -> settled (cd_tools d) (ad_wings ac).
Proof.
  unfold read_aircraft, CpacsAircraftModel.read_aircraft. intro H. binds H. injection H as <- <-. cbn [ad_wings].
  unfold aircraft_wings in E0. destruct (cd_wings d) as [l|]; [|discriminate].
  apply (read_wings_settled _ _ _ _ _) in E0; [exact E0|]. split; [intros k w r X; discriminate|intros [|j]; discriminate].
Qed.

Theorem deflections_spec d ac files : read_aircraft d = Ok (ac, files) ->
  (forall k w r, ad_wings ac = (k, w) :: r ->
     (forall t, In t (cd_tools d) -> exists u c, ct_uid t = Some u /\ dget (wd_ctls w) u = Some c) /\
     (forall u c, dget (wd_ctls w) u = Some c -> deflected (entry (cd_tools d) u) (negb (match wd_symmetry w with PInt 0 => true | _ => false end)) c) /\
     (forall k' w' u c, In (k', w') r -> dget (wd_ctls w') u = Some c ->
        deflected None (negb (match wd_symmetry w' with PInt 0 => true | _ => false end)) c)).
Proof.
  intros H k w r E. destruct (deflections_thm _ _ _ H) as [A P].
  assert (SY : forall j k w, nth_error (ad_wings ac) j = Some (k, w) ->
     truthy (wd_symmetry w) = negb (match wd_symmetry w with PInt 0 => true | _ => false end)).
  { intros j k0 w0 N. destruct (read_aircraft_ok _ _ _ H) as (l & q & D & B & NB & _).
    destruct (numbered_nth _ _ _ _ NB) as [L K]. assert (Lj : j < List.length l).
    { rewrite <- L, <- B. unfold bare_wings. rewrite map_length. apply nth_error_Some. congruence. }
    apply nth_error_Some in Lj. destruct (nth_error l j) as [cw|] eqn:NL; [|congruence]. destruct (K _ _ NL) as (e & Ne & R).
    rewrite <- B in Ne. unfold bare_wings in Ne. rewrite nth_error_map, N in Ne. injection Ne as <-.
    destruct R as (? & ? & ? & ? & ? & ? & ? & ? & Q). injection Q as _ _ Q _ _. cbn [snd bare_wing wd_symmetry] in Q. rewrite Q.
    destruct (cw_symmetry cw); reflexivity. }
  split; [|split].
  - intros t I. destruct (A _ _ _ E t I) as (u & U & J). destruct (in_keys_get _ _ J) as [c G]. eauto.
  - intros u c G. assert (N : nth_error (ad_wings ac) 0 = Some (k, w)) by (rewrite E; reflexivity).
    rewrite <- (SY _ _ _ N). apply (P 0 k w u c N G).
  - intros k' w' u c I G. destruct (In_nth_error _ _ I) as [j N].
    assert (N' : nth_error (ad_wings ac) (S j) = Some (k', w')) by (rewrite E; exact N).
    rewrite <- (SY _ _ _ N'). apply (P (S j) k' w' u c N' G).
Qed.

(** ** Airfoil files *)
Lemma airfoil_files_get l : forall files i path e, dget (airfoil_files root files i l) path = Some e ->
  dget files path = Some e \/ exists k f, nth_error l k = Some f /\ path = airfoil_file root (foil_name (i + k) f) /\ e = (foil_name (i + k) f, cf_points f).
Proof.
  induction l as [|f l IH]; intros files i path e H; cbn [airfoil_files] in H; [auto|].
  destruct (IH _ _ _ _ H) as [G|(k & g & N & P & E)].
  - destruct (String.string_dec path (airfoil_file root (foil_name i f))) as [->|NE].
    + rewrite dget_dset_same in G. injection G as <-. right. exists 0, f. rewrite Nat.add_0_r. auto.
    + rewrite dget_dset_other in G by exact NE. auto.
  - right. exists (S k), g. replace (i + S k) with (S i + k) by lia. auto.
Qed.
Lemma airfoil_files_keep l : forall files i path e, dget files path = Some e ->
  (forall k f, nth_error l k = Some f -> airfoil_file root (foil_name (i + k) f) <> path) ->
  dget (airfoil_files root files i l) path = Some e.
Proof.
  induction l as [|f l IH]; intros files i path e G N; cbn [airfoil_files]; [exact G|]. apply IH.
  - rewrite dget_dset_other; [exact G|]. intro E. apply (N 0 f eq_refl). rewrite Nat.add_0_r. auto.
  - intros k g E. replace (S i + k) with (i + S k) by lia. apply (N (S k) g E).
Qed.
Lemma airfoil_files_has l : forall files i k f, nth_error l k = Some f ->
  (forall j g, nth_error l j = Some g -> foil_name (i + j) g = foil_name (i + k) f -> j = k) ->
  dget (airfoil_files root files i l) (airfoil_file root (foil_name (i + k) f)) = Some (foil_name (i + k) f, cf_points f).
Proof.
  induction l as [|g l IH]; intros files i [|k] f N U; cbn [nth_error airfoil_files] in *; try discriminate.
  - injection N as ->. rewrite Nat.add_0_r in *. apply airfoil_files_keep; [apply dget_dset_same|].
    intros j h Nj E. apply airfoil_file_inj in E. assert (S j = 0); [|discriminate].
    apply (U (S j) h Nj). replace (i + S j) with (S i + j) by lia. exact E.
  - replace (i + S k) with (S i + k) by lia. apply IH; [exact N|]. intros j h Nj E.
    assert (S j = S k); [|congruence]. apply (U (S j) h Nj). replace (i + S j) with (S i + j) by lia. replace (i + S k) with (S i + k) by lia. exact E.
Qed.

Lemma foil_name_spec f i : component_name (cf_name f) "AIRFOIL" i (foil_name i f).
Proof. unfold foil_name. apply component_name_iff. Qed.

Lemma digit_unique c n m : digit c n -> digit c m -> n = m.
Proof. intros [_ A] [_ B]. lia. Qed.
Lemma snoc_inj a b c d : a ++ String c "" = b ++ String d "" -> a = b /\ c = d.
Proof.
  revert b. induction a as [|x a IH]; intros [|y b] E; cbn in E.
  - injection E as ->. auto.
  - injection E as -> E. destruct b; discriminate.
  - injection E as -> E. destruct a; discriminate.
  - injection E as -> E. destruct (IH _ E) as [-> ->]. auto.
Qed.
Lemma decimal_nonempty s n : decimal s n -> s <> "".
Proof. intros H E. destruct H as [|s c n m H D]; [discriminate|]. destruct s; discriminate. Qed.
Lemma decimal_unique s n : decimal s n -> forall m, decimal s m -> n = m.
Proof.
  induction 1 as [c n D|s c n m H IH D]; intros k K.
  - inversion K as [c' k' D' E|s' c' n' m' H' D' E]; subst; [eapply digit_unique; eassumption|].
    destruct s' as [|x s']; [exfalso; exact (decimal_nonempty _ _ H' eq_refl)|]. cbn in E. destruct s'; discriminate.
  - remember (s ++ String c "") as t eqn:Et. destruct K as [c' k' D'|s' c' n' m' H' D'].
    + destruct s as [|x s]; [exfalso; exact (decimal_nonempty _ _ H eq_refl)|]. cbn in Et. destruct s; discriminate.
    + apply snoc_inj in Et as [-> ->]. rewrite (IH _ H'), (digit_unique _ _ _ D D'). reflexivity.
Qed.

Theorem files_thm d ac files : read_aircraft d = Ok (ac, files) -> airfoils_distinct d ->
  (forall i f, nth_error (cd_foils d) i = Some f -> exists name path, foil_file f i name /\ blade root name path /\
     dget files path = Some (name, cf_points f)) /\
  (forall path e, dget files path = Some e -> exists i f name, nth_error (cd_foils d) i = Some f /\ foil_file f i name /\ blade root name path /\
     e = (name, cf_points f)).
Proof.
  intros H U. destruct (read_aircraft_ok _ _ _ H) as (l & r & _ & _ & _ & _ & _ & _ & ->). split.
  - intros i f N. exists (foil_name (S i) f), (airfoil_file root (foil_name (S i) f)). split; [apply foil_name_spec|]. split; [apply airfoil_file_eq|].
    apply (airfoil_files_has (cd_foils d) [] 1 i f N). intros j g Nj E. apply (U j i g f (foil_name (1 + i) f) Nj N); [|apply foil_name_spec].
    rewrite <- E. apply foil_name_spec.
  - intros path e G. destruct (airfoil_files_get _ _ _ _ _ G) as [X|(k & f & N & -> & ->)]; [discriminate|].
    exists k, f, (foil_name (1 + k) f). split; [exact N|]. split; [apply foil_name_spec|]. split; [apply airfoil_file_eq|reflexivity].
Qed.

(** The file a segment refers to holds the points of its profile. *)
Theorem segment_file_thm d ac files i w w' k s s' : read_aircraft d = Ok (ac, files) -> wing_at d ac i w w' -> segment_at w w' k s s' ->
  airfoils_distinct d -> forall pos idx, In (pos, idx) [("inner", cs_inner s); ("outer", cs_outer s)] ->
  exists path f name, dget (sd_airfoils s') pos = Some (PStr path) /\ nth_error (cd_foils d) idx = Some f /\ dget files path = Some (name, cf_points f).
Proof.
  intros H WA SA U pos idx I. assert (R := segment_at_rel _ _ _ _ _ _ _ (wing_at_rel _ _ _ _ _ _ H WA) SA).
  destruct (seg_rel_spec _ _ _ _ _ R) as (_ & _ & A1 & A2 & _). cbn [snd] in *.
  assert (A : has_airfoil root d s' pos idx) by (destruct I as [I|[I|[]]]; injection I as <- <-; assumption). clear A1 A2.
  destruct A as (n & pts & name & path & (f & N & NM & PT) & S & NE & B & G).
  exists path, f, name. split; [exact G|]. split; [exact N|]. destruct (proj1 (files_thm _ _ _ H U) _ _ N) as (name' & path' & FF & B' & G').
  unfold foil_file, component_name in FF. rewrite NM in FF. apply stripped_iff in S, FF. assert (name' = name) by congruence. subst name'.
  unfold blade in *. congruence.
Qed.

(** ** Conversion to a native file *)
Section Native.
Variable parse_float : string -> res (option Q).
Variable derive : list pyval -> pyval -> pyval -> res (string -> option Q).
Variable import_airfoils : string -> string -> res unit.
Variable finish_wing : list segdef -> res unit.

Lemma truthy_sym z : symmetry_ok (PInt z) = true -> truthy (PInt z) = negb (Z.eqb z 0).
Proof. intros _. destruct z; reflexivity. Qed.

Definition shaped (c : ctldef) : Prop :=
  shape ["inner"; "outer"] (cd_segment c) /\ shape ["eta_inner"; "eta_outer"; "xsi_inner"; "xsi_outer"] (cd_rel c) /\
  shape ["xsi_inner"; "xsi_outer"] (cd_hinge c) /\ dkeys (cd_panels c) = ["num_c"] /\ (cd_device c = Some "slat" \/ cd_device c = Some "flap").
Definition well (kc : string * ctldef) : Prop := cd_uid (snd kc) = fst kc /\ fst kc <> "" /\ shaped (snd kc).

Lemma device_turn_well name b u p st st' : device_turn name b u p st = Ok st' ->
  Forall well (fst st) /\ NoDup (dkeys (fst st)) -> Forall well (fst st') /\ NoDup (dkeys (fst st')).
Proof.
  unfold device_turn, CpacsAircraftModel.device_turn. destruct p as [p|]; [|intro H; injection H as <-; auto].
  destruct st as [ctls te]. intros H [F N]. apply bind_ok in H as ([[[i o] h1] h2] & _ & H). apply bind_ok in H as (v & U & H). injection H as <-.
  apply new_uid_ok in U as (U & G & NE). injection U as <-. cbn [fst] in *. rewrite dset_fresh by exact G. split; [|apply NoDup_snoc; assumption].
  apply Forall_app. split; [exact F|]. constructor; [|constructor]. destruct i as [[? ?] ?], o as [[? ?] ?].
  unfold well, shaped, device_control. cbn [fst snd cd_uid cd_segment cd_rel cd_hinge cd_panels cd_device dkeys map].
  split; [reflexivity|]. split; [exact NE|].
  assert (SH : forall ks (d : dict pyval), dkeys d = ks -> NoDup ks -> shape ks d).
  { intros ks d0 <- ND. split; [exists []; rewrite app_nil_r; reflexivity|exact ND]. }
  split; [apply SH; [reflexivity|repeat (constructor; [cbn; intuition discriminate|]); constructor]|].
  split; [apply SH; [reflexivity|repeat (constructor; [cbn; intuition discriminate|]); constructor]|].
  split; [apply SH; [reflexivity|repeat (constructor; [cbn; intuition discriminate|]); constructor]|].
  split; [reflexivity|]. destruct b; auto.
Qed.
Lemma read_devices_well name trail : forall lead st st', read_devices name lead trail st = Ok st' ->
  Forall well (fst st) /\ NoDup (dkeys (fst st)) -> Forall well (fst st') /\ NoDup (dkeys (fst st')).
Proof.
  unfold read_devices. induction trail as [|t trail IH]; intros lead st st' H F; cbn [CpacsAircraftModel.read_devices] in H; [injection H as <-; exact F|].
  binds H. apply (IH _ _ _ H). apply (device_turn_well _ _ _ _ _ _ E1). apply (device_turn_well _ _ _ _ _ _ E0 F).
Qed.
Lemma read_comps_well l : forall st st', read_comps l st = Ok st' ->
  Forall well (fst st) /\ NoDup (dkeys (fst st)) -> Forall well (fst st') /\ NoDup (dkeys (fst st')).
Proof.
  unfold read_comps. induction l as [|c l IH]; intros st st' H F; cbn [CpacsAircraftModel.read_comps] in H; [injection H as <-; exact F|].
  binds H. apply (IH _ _ H). apply (read_devices_well _ _ _ _ _ E F).
Qed.
Lemma well_bare kc : well (fst kc, bare (snd kc)) <-> well kc.
Proof. destruct kc as [k c]. unfold well, shaped, bare. cbn. tauto. Qed.

(** After reading, every control has passed the check. *)
Definition checked (w : wingdef) : Prop := forall u c, In (u, c) (wd_ctls w) -> check none_ok int_ok (truthy (wd_symmetry w)) c = (c, Ok tt).
Lemma check_all_checked ws : forall ws', check_all ws = Ok ws' -> Forall (fun kw => checked (snd kw)) ws'.
Proof.
  unfold check_all. induction ws as [|[k w] ws IH]; intros ws' H; cbn [CpacsAircraftModel.check_all] in H; [injection H as <-; constructor|].
  apply bind_ok in H as (c & C & H). apply bind_ok in H as (r & R & H). injection H as <-. constructor; [|apply IH; exact R].
  cbn [snd]. unfold checked. cbn [wd_ctls wd_symmetry]. intros u x I. apply check_controls_ok in C.
  induction C as [|[k1 c1] [k2 c2] d d' [E K] C IHC]; [destruct I|]. destruct I as [I|I]; [|apply IHC; exact I].
  cbn [fst snd] in *. injection I as <- <-. apply (check_again none_ok int_ok _ _ _ K).
Qed.
Lemma read_wings_checked d l : forall ws i ws', Forall (fun kw => checked (snd kw)) ws -> read_wings d ws i l = Ok ws' -> Forall (fun kw => checked (snd kw)) ws'.
Proof.
  unfold read_wings. induction l as [|w l IH]; intros ws i ws' F H; cbn [CpacsAircraftModel.read_wings] in H; [injection H as <-; exact F|].
  apply bind_ok in H as (ws1 & E & H). apply (IH _ _ _) in H; [exact H|]. unfold CpacsAircraftModel.read_wing in E.
  apply bind_ok in E as (u & _ & E). destruct (symmetry_ok _); cbn [negb] in E; [|discriminate]. destruct (cw_segments w); [|discriminate]. binds E.
  apply (check_all_checked _ _ E).
Qed.

Lemma seg_rel_wf foils wu k s x : seg_rel foils wu k s x -> sd_uid (snd x) = fst x /\ fst x <> "" /\ wf_seg (snd x).
Proof.
  intros (fi & fo & _ & _ & -> & NE). cbn [fst snd]. split; [reflexivity|]. split; [exact NE|].
  assert (SH : forall ks (d : dict pyval), dkeys d = ks -> NoDup ks -> shape ks d).
  { intros ks d0 <- ND. split; [exists []; rewrite app_nil_r; reflexivity|exact ND]. }
  unfold wf_seg, seg_of. cbn [sd_vertices sd_geometry sd_airfoils sd_panels].
  split; [|split; [|split]].
  all: apply SH; [reflexivity|repeat (constructor; [cbn; intuition discriminate|]); constructor].
Qed.
Lemma numbered_in {A V} (R : nat -> A -> string * V -> Prop) n l d e : numbered R n l d -> In e d -> exists k x, R k x e.
Proof. induction 1 as [|n x l e0 d H N IH]; intros I; [destruct I|]. destruct I as [<-|I]; eauto. Qed.

Lemma read_aircraft_wf d ac files : read_aircraft d = Ok (ac, files) -> wf none_ok int_ok ac.
Proof.
  intro H. destruct (read_aircraft_ok _ _ _ H) as (l & r & D & B & NB & ND & _ & RR & _). split.
  - unfold read_refs in RR. binds RR. injection RR as <-. split; [exists []; reflexivity|]. cbn [dkeys map fst].
    repeat (constructor; [cbn; intuition discriminate|]); constructor.
  - split; [exact ND|]. intros k w I.
    assert (IB : In (k, bare_wing w) r) by (rewrite <- B; unfold bare_wings; apply (in_map (fun kw => (fst kw, bare_wing (snd kw))) _ _ I)).
    destruct (numbered_in _ _ _ _ _ NB IB) as (i & cw & R).
    destruct (wing_segments _ _ _ _ R) as (sl & _ & NS & NDS). cbn [snd bare_wing wd_uid wd_segs] in NS, NDS.
    destruct R as (sl' & segs & st & _ & SY & NE & _ & RC & Q). unfold bare_wing in Q. injection Q as Q0 Q1 Q2 Q3 Q4.
    split; [congruence|]. split; [congruence|]. unfold wf_wing. rewrite Q2. split; [exact SY|]. split.
    + split; [exact NDS|]. intros ks s J. destruct (numbered_in _ _ _ _ _ NS J) as (n & cs & SR). apply (seg_rel_wf _ _ _ _ _ SR).
    + destruct (read_comps_well _ _ _ RC) as [W N]; [split; constructor|]. split.
      * rewrite <- bare_ctls_keys, Q4, bare_ctls_keys. exact N.
      * intros u c J.
        assert (Wc : well (u, c)).
        { apply (proj1 (well_bare (u, c))). cbn [fst snd]. assert (JB : In (u, bare c) (bare_ctls (wd_ctls w))) by (unfold bare_ctls; apply (in_map (fun kc => (fst kc, bare (snd kc))) _ _ J)).
          rewrite Q4 in JB. unfold bare_ctls in JB. apply in_map_iff in JB as ([u' c'] & E & J'). cbn [fst snd] in E. apply pair_equal_spec in E as [<- E].
          rewrite <- E. apply (proj2 (well_bare (u', c'))). rewrite Forall_forall in W. apply (W _ J'). }
        destruct Wc as (U & UE & S1 & S2 & S3 & S4 & S5). cbn [fst snd] in *. split; [exact U|]. split; [exact UE|].
        repeat (split; [assumption|]).
        unfold read_aircraft, CpacsAircraftModel.read_aircraft in H. binds H. injection H as <- <-. cbn [ad_wings] in I.
        unfold aircraft_wings in E0. rewrite D in E0. apply read_wings_checked in E0; [|constructor].
        rewrite Forall_forall in E0. specialize (E0 _ I). cbn [snd] in E0. rewrite <- Q2. apply (E0 _ _ J).
Qed.

Lemma kept_no_slash n : has_slash (parse_str n) = false.
Proof.
  induction n as [|c n IH]; cbn; [reflexivity|]. destruct (kept_char c) eqn:K; [|exact IH]. cbn [has_slash]. rewrite IH, orb_false_r.
  unfold is_slash. destruct (Ascii.eqb_spec c "/") as [->|NE]; [discriminate|reflexivity].
Qed.
Lemma blade_kept n name path : stripped n name -> blade root name path -> airfoil_kept root (PStr path).
Proof.
  intros S B. apply stripped_iff in S. unfold blade in B. subst path. exists (root ++ "/airfoils/blade." ++ name). split; [reflexivity|]. right. split.
  - exists (root ++ "/airfoils/"), name. rewrite app_assoc_s. reflexivity.
  - exists ("blade." ++ name). split; [|reflexivity]. intro C. apply has_slash_iff in C. change ("blade." ++ name) with ("blade." ++ name) in C.
    rewrite has_slash_app in C. rewrite <- S, kept_no_slash in C. discriminate.
Qed.

Lemma generate_keeps_airfoils none' int' a a' : generate none' int' parse_float derive import_airfoils finish_wing a = Ok a' ->
  each_segment (airfoils_kept root) a -> each_segment (airfoils_kept root) a'.
Proof.
  unfold generate. intros H K. binds H. injection H as <-. intros ku w ks s I J. cbn [ad_wings] in I.
  destruct (generate_list_keys _ _ _ E0) as [_ A]. destruct (A _ _ I) as (w0 & I0 & G).
  unfold generate_wing in G. binds G. injection G as <-. cbn [wd_segs] in J. destruct (generate_list_keys _ _ _ E1) as [_ A']. destruct (A' _ _ J) as (s0 & J0 & G').
  assert (X : sd_airfoils s = sd_airfoils s0).
  { unfold generate_segment in G'. binds G'. match type of G' with (if ?b then _ else _) = _ => destruct b; [discriminate|] end. binds G'.
    match type of G' with (if ?b then _ else _) = _ => destruct b; [discriminate|] end. binds G'. injection G' as <-. reflexivity. }
  specialize (K _ _ _ _ I0 J0). unfold airfoils_kept in *. rewrite X. exact K.
Qed.

Theorem convert_thm d ac : load_cpacs none_ok int_ok root locate parse_float derive import_airfoils finish_wing d = Ok ac ->
  ((exists j, save ac = Ok j /\ load none_ok int_ok root parse_float derive import_airfoils finish_wing j = Ok ac) <-> each_segment angles_kept ac).
Proof.
  unfold load_cpacs. intro H. apply bind_ok in H as ([a0 files] & R & G). cbn [fst] in G.
  assert (W0 := read_aircraft_wf _ _ _ R).
  assert (K0 : each_segment (airfoils_kept root) a0).
  { intros ku w ks s I J. destruct (read_aircraft_ok _ _ _ R) as (l & r & D & B & NB & _).
    assert (IB : In (ku, bare_wing w) r) by (rewrite <- B; unfold bare_wings; apply (in_map (fun kw => (fst kw, bare_wing (snd kw))) _ _ I)).
    destruct (numbered_in _ _ _ _ _ NB IB) as (i & cw & WR). destruct (wing_segments _ _ _ _ WR) as (sl & _ & NS & _). cbn [snd bare_wing wd_uid wd_segs] in NS.
    destruct (numbered_in _ _ _ _ _ NS J) as (n & cs & SR). destruct (seg_rel_spec d w n cs _ SR) as (_ & _ & A1 & A2 & _). cbn [snd] in *.
    destruct SR as (fi & fo & _ & _ & Q & _). injection Q as _ ->. unfold seg_of in A1, A2 |- *. unfold has_airfoil in A1, A2. cbn [sd_airfoils dget String.eqb Ascii.eqb Bool.eqb] in A1, A2.
    destruct A1 as (n1 & ? & nm1 & p1 & _ & S1 & _ & B1 & E1), A2 as (n2 & ? & nm2 & p2 & _ & S2 & _ & B2 & E2).
    injection E1 as ->. injection E2 as ->.
    intros k v [I'|[I'|[]]]; injection I' as <- <-; [apply (blade_kept _ _ _ S1 B1)|apply (blade_kept _ _ _ S2 B2)]. }
  destruct (generate_again none_ok int_ok parse_float derive import_airfoils finish_wing _ _ G) as (I & _ & W). specialize (W W0).
  assert (KA := generate_keeps_airfoils _ _ _ _ G K0). split.
  - intros (j & S & L). unfold load in L. apply bind_ok in L as (b & Pb & Gb). apply I.
    rewrite (parse_saved none_ok int_ok root _ _ W S) in Pb. injection Pb as <-.
    assert (T := generate_trip _ _ _ _ _ _ _ _ Gb). rewrite T in Gb. exact Gb.
  - intro KG. destruct (save_kept root ac KA) as [j S]. exists j. split; [exact S|]. unfold load.
    rewrite (parse_saved none_ok int_ok root _ _ W S). cbn [bind].
    rewrite (proj2 (trip_ac_iff root Droot ac j S) KA). apply I, KG.
Qed.
End Native.

(** ** Leading edge devices are never read beside complete trailing edge devices *)
Lemma lead_trail name u p q st st1 st2 : device_turn name true u (Some p) st = Ok st1 -> device_turn name false u (Some q) st1 = Ok st2 -> False.
Proof.
  unfold device_turn, CpacsAircraftModel.device_turn. destruct st as [ctls te]. intros H1 H2.
  apply bind_ok in H1 as ([[[i o] h1] h2] & _ & H1). apply bind_ok in H1 as (v & U & H1). injection H1 as <-.
  apply new_uid_ok in U as (U & _ & _). injection U as <-.
  apply bind_ok in H2 as ([[[i' o'] h1'] h2'] & _ & H2). apply bind_ok in H2 as (v' & U & _).
  apply new_uid_ok in U as (U & G & _). injection U as <-. rewrite dget_dset_same in G. discriminate.
Qed.

(** Without the leading edge devices. *)
Definition no_lead (c : ccomp) : ccomp := mkComp (cc_uid c) [] (cc_trailing c).
Lemma read_devices_no_lead name trail : forall lead st st', (forall t, In t trail -> dv_pos t <> None) ->
  read_devices name lead trail st = Ok st' -> read_devices name [] trail st = Ok st'.
Proof.
  unfold read_devices. induction trail as [|t trail IH]; intros lead st st' C H; [exact H|].
  cbn [CpacsAircraftModel.read_devices] in *. apply bind_ok in H as (u & U & H). apply bind_ok in H as (st1 & T1 & H).
  apply bind_ok in H as (st2 & T2 & H). rewrite U. cbn [bind]. unfold CpacsAircraftModel.device_turn at 1. cbn [bind].
  assert (st1 = st).
  { destruct lead as [|l lead]; [cbn in T1; congruence|]. destruct (dv_pos l) as [p|] eqn:P; [|cbn in T1; congruence].
    exfalso. destruct (dv_pos t) as [q|] eqn:Q; [exact (lead_trail _ _ _ _ _ _ _ T1 T2)|]. exact (C t (or_introl eq_refl) Q). }
  subst st1. rewrite T2. cbn [bind tl]. apply (IH (tl lead)); [|exact H]. intros x I. apply C. right. exact I.
Qed.
Lemma read_comps_no_lead l : forall st st', (forall c t, In c l -> In t (cc_trailing c) -> dv_pos t <> None) ->
  read_comps l st = Ok st' -> read_comps (map no_lead l) st = Ok st'.
Proof.
  unfold read_comps. induction l as [|c l IH]; intros st st' C H; [exact H|]. cbn [map CpacsAircraftModel.read_comps] in *.
  apply bind_ok in H as (st1 & H1 & H). cbn [no_lead cc_uid cc_leading cc_trailing].
  apply (read_devices_no_lead _ _ _ _ _ (fun t => C c t (or_introl eq_refl))) in H1. unfold read_devices in H1. rewrite H1. cbn [bind]. apply IH; [|exact H].
  intros x t I. apply C. right. exact I.
Qed.

Theorem no_slats_thm d ac files i w w' : read_aircraft d = Ok (ac, files) -> wing_at d ac i w w' ->
  (forall c t, In c (cw_comps w) -> In t (cc_trailing c) -> dv_pos t <> None) ->
  dkeys (wd_ctls w') = trailing_uids w /\ forall u c, dget (wd_ctls w') u = Some c -> cd_device c = Some "flap".
Proof.
  intros H WA C. destruct (wing_at_rel _ _ _ _ _ _ H WA) as (sl & segs & st & _ & _ & _ & _ & RC & Q).
  unfold bare_wing in Q. injection Q as _ _ _ _ Q. apply (read_comps_no_lead _ _ _ C) in RC.
  assert (F : Forall (fun c => Forall (fun t => dv_pos t = None) (cc_leading c)) (map no_lead (cw_comps w))).
  { apply Forall_forall. intros c I. apply in_map_iff in I as (c0 & <- & _). constructor. }
  destruct (read_comps_ok _ _ _ _ F RC) as (x & E & R & ND). change (fst st = x) in E. split.
  - rewrite <- bare_ctls_keys, Q, bare_ctls_keys, E, trailing_uids_devs.
    assert (X : comp_devs (map no_lead (cw_comps w)) = comp_devs (cw_comps w)).
    { unfold comp_devs. induction (cw_comps w) as [|c l IH]; [reflexivity|]. cbn [map flat_map no_lead cc_uid cc_trailing]. f_equal. clear. induction l as [|x l IH]; [reflexivity|]. cbn [map flat_map]. rewrite IH. reflexivity. }
    rewrite X in R. clear - R. unfold dkeys. induction R as [|[[n u] p] kc l l' [H _] R IH]; cbn [map]; [reflexivity|]. rewrite IH, H. reflexivity.
  - intros u c G. assert (G' : dget (bare_ctls (wd_ctls w')) u = Some (bare c)) by (apply bare_ctls_get; eauto).
    rewrite Q in G'. apply bare_ctls_get in G' as (c0 & G0 & B). rewrite E in G0. apply dget_In in G0.
    assert (K : forall kc, In kc x -> cd_device (snd kc) = Some "flap").
    { clear - R. induction R as [|[[n u] p] kc l l' [_ H] R IH]; intros k I; [destruct I|]. destruct I as [<-|I]; [|apply IH; exact I].
      destruct H as (? & ? & ? & ? & ? & ? & ? & ? & ? & ? & ? & ? & _ & _ & _ & _ & _ & D & _). exact D. }
    specialize (K _ G0). cbn [snd] in K. unfold bare, set_deflections in B. injection B as _ B _ _ _ _. congruence.
Qed.

(** ** Controls and segments *)
Theorem control_segments_thm d ac files i w w' : read_aircraft d = Ok (ac, files) -> wing_at d ac i w w' ->
  (forall name e x u a b, locate name e x = Ok (u, a, b) -> (exists c, In c (cw_comps w) /\ cc_uid c = name) ->
     exists sl s, cw_segments w = Some sl /\ In s sl /\ cs_uid s = Some u) ->
  (forall name u p, ~ leading_device w name u p) ->
  forall u c pos, dget (wd_ctls w') u = Some c -> In pos ["inner"; "outer"] ->
  exists su sl s, dget (cd_segment c) pos = Some (PStr su) /\ cw_segments w = Some sl /\ In s sl /\ cs_uid s = Some su /\
    (plain su -> exists s', dget (wd_segs w') su = Some s' /\ sd_uid s' = su).
Proof.
  intros H WA L NL u c pos G P.
  assert (R := wing_at_rel _ _ _ _ _ _ H WA). destruct (wing_segments _ _ _ _ R) as (sl & SL & NS & NDS). cbn [snd bare_wing wd_uid wd_segs] in NS, NDS.
  destruct R as (sl' & segs & st & _ & _ & _ & _ & RC & Q). unfold bare_wing in Q. injection Q as _ _ _ _ Q.
  destruct (read_comps_ok _ _ _ _ (no_leading w NL) RC) as (x & E & RR & ND). change (fst st = x) in E.
  assert (G' : dget (bare_ctls (wd_ctls w')) u = Some (bare c)) by (apply bare_ctls_get; eauto).
  rewrite Q in G'. apply bare_ctls_get in G' as (c0 & G0 & B). rewrite E in G0. apply dget_In in G0.
  assert (K : exists name v p, In (name, v, p) (comp_devs (cw_comps w)) /\ flap_at locate name v p c0).
  { clear - RR G0. induction RR as [|[[n v] p] kc l l' [_ H] R IH]; [destruct G0|]. destruct G0 as [->|I].
    - exists n, v, p. split; [left; reflexivity|exact H].
    - destruct (IH I) as (n' & v' & p' & J & F). exists n', v', p'. split; [right; exact J|exact F]. }
  destruct K as (name & v & p & J & F).
  assert (CN : exists cc, In cc (cw_comps w) /\ cc_uid cc = name).
  { unfold comp_devs in J. apply in_flat_map in J as (cc & I & J). exists cc. split; [exact I|]. unfold devs in J. apply in_flat_map in J as (t & _ & J).
    destruct (dv_pos t); [|destruct J]. destruct (dv_uid t); [|destruct J]. destruct J as [J|J]; [|destruct J]. injection J as <- _ _. reflexivity. }
  destruct F as (si & ei & xi & so & eo & xo & s1 & e1 & h1 & s2 & e2 & h2 & L1 & L2 & _ & _ & _ & _ & D1 & D2 & _).
  unfold bare, set_deflections in B. injection B as _ _ B _ _ _. rewrite <- B in D1, D2.
  assert (Z : exists su, dget (cd_segment c) pos = Some (PStr su) /\ exists sl s, cw_segments w = Some sl /\ In s sl /\ cs_uid s = Some su).
  { destruct P as [<-|[<-|[]]]; [exists si; split; [exact D1|exact (L _ _ _ _ _ _ L1 CN)]|exists so; split; [exact D2|exact (L _ _ _ _ _ _ L2 CN)]]. }
  destruct Z as (su & DS & sl0 & s & SL0 & IS & US). exists su, sl0, s. repeat (split; [assumption|]).
  intro PL. assert (sl0 = sl) by congruence. subst sl0. destruct (In_nth_error _ _ IS) as [k N].
  destruct (numbered_nth _ _ _ _ NS) as [_ KK]. destruct (KK _ _ N) as ([ku s'] & N' & SR). destruct SR as (fi & fo & _ & _ & QQ & _).
  unfold segment_uid in QQ at 1. rewrite US in QQ. rewrite (proj1 (plain_parse su) PL) in QQ. apply pair_equal_spec in QQ as [-> ->].
  exists (seg_of (wd_uid w') (1 + k) s fi fo). split; [apply dget_In_NoDup; [exact NDS|apply (nth_error_In _ _ N')]|].
  unfold seg_of, segment_uid. cbn [sd_uid]. rewrite US. apply plain_parse. exact PL.
Qed.
End Load.

Lemma wing_at_intro d ac i w w' l k : cd_wings d = Some l -> nth_error l i = Some w -> nth_error (ad_wings ac) i = Some (k, w') ->
  wd_uid w' = k -> wing_at d ac i w w'.
Proof. intros D N M <-. exists l. auto. Qed.
Lemma segment_at_intro w w' i s s' l k : cw_segments w = Some l -> nth_error l i = Some s -> nth_error (wd_segs w') i = Some (k, s') ->
  sd_uid s' = k -> segment_at w w' i s s'.
Proof. intros D N M <-. exists l. auto. Qed.
