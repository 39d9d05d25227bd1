(** Sessions of calls that build an aircraft (C110). *)
From Coq Require Import List String ZArith QArith Bool Lia.
From Verif Require Import PyBase PyFacts StripModel AircraftModel BuildSpec.
Import ListNotations.

Definition mem (l : list string) (u : string) : bool := existsb (String.eqb u) l.
Lemma mem_app l k u : mem (l ++ k) u = (mem l u || mem k u)%bool.
Proof. apply existsb_app. Qed.
Lemma mem_cons a l u : mem (a :: l) u = (String.eqb u a || mem l u)%bool.
Proof. reflexivity. Qed.
Lemma mem_In l u : mem l u = true <-> In u l.
Proof.
  unfold mem. rewrite existsb_exists. split.
  - intros (x & I & E). apply String.eqb_eq in E. subst x. exact I.
  - intros I. exists u. split; [exact I|apply String.eqb_refl].
Qed.

Lemma first_seen_app l u : forall seen, first_seen seen (l ++ [u]) = first_seen seen l ++ (if (String.eqb u "" || mem (seen ++ l) u)%bool then [] else [u]).
Proof.
  induction l as [|a l IH]; intros seen; cbn [app first_seen].
  - rewrite app_nil_r. fold (mem seen u). destruct (String.eqb u "" || mem seen u)%bool; reflexivity.
  - fold (mem seen a). destruct (String.eqb a "" || mem seen a)%bool eqn:A.
    + rewrite IH. f_equal. replace (mem (seen ++ a :: l) u) with (mem (seen ++ l) u || String.eqb u a)%bool.
      2:{ rewrite !mem_app, mem_cons. destruct (mem seen u), (String.eqb u a), (mem l u); reflexivity. }
      destruct (String.eqb_spec u a) as [->|N]; [|rewrite orb_false_r; reflexivity].
      apply orb_true_iff in A. destruct A as [A|A]; rewrite ?A, ?orb_true_r, ?mem_app, ?A, ?orb_true_r; reflexivity.
    + rewrite IH. cbn [app]. do 2 f_equal. replace (mem (a :: seen ++ l) u) with (mem (seen ++ a :: l) u); [reflexivity|].
      rewrite mem_cons, !mem_app, mem_cons. destruct (mem seen u), (String.eqb u a), (mem l u); reflexivity.
Qed.
Lemma names_app l u : names (l ++ [u]) = names l ++ (if (String.eqb u "" || mem l u)%bool then [] else [u]).
Proof. apply first_seen_app. Qed.
Lemma mem_names l u : mem (names l) u = (negb (String.eqb u "") && mem l u)%bool.
Proof.
  induction l as [|a l IH] using rev_ind; [cbn; rewrite andb_false_r; reflexivity|].
  rewrite names_app, !mem_app, IH. cbn [mem existsb]. destruct (String.eqb a "" || mem l a)%bool eqn:A; cbn [mem existsb]; rewrite ?orb_false_r.
  - destruct (String.eqb_spec u a) as [->|N]; [|rewrite orb_false_r; reflexivity]. apply orb_true_iff in A. destruct A as [A|A]; rewrite A; cbn; rewrite ?orb_true_r; reflexivity.
  - destruct (String.eqb_spec u a) as [->|N]; [|rewrite !orb_false_r; reflexivity]. apply orb_false_iff in A. destruct A as [A1 A2]. rewrite A1, A2. reflexivity.
Qed.
Lemma names_NoDup l : NoDup (names l).
Proof.
  induction l as [|a l IH] using rev_ind; [constructor|]. rewrite names_app. destruct (String.eqb a "" || mem l a)%bool eqn:A; [rewrite app_nil_r; exact IH|].
  apply orb_false_iff in A. destruct A as [A1 A2]. rewrite <- (rev_involutive (names l ++ [a])). apply NoDup_rev. rewrite rev_app_distr. cbn. constructor; [|apply NoDup_rev; exact IH].
  rewrite <- in_rev. intros I. apply mem_In in I. rewrite mem_names, A2, andb_false_r in I. discriminate.
Qed.

(** ** Dictionaries given by a function *)
Definition table {V} (f : string -> V) (l : list string) : dict V := map (fun u => (u, f u)) l.
Lemma table_get {V} (f : string -> V) l u : dget (table f l) u = if mem l u then Some (f u) else None.
Proof.
  induction l as [|a l IH]; [reflexivity|]. cbn [table map dget mem existsb]. destruct (String.eqb_spec u a) as [->|N]; [reflexivity|]. exact IH.
Qed.
Lemma table_mem {V} (f : string -> V) l u : dmem (table f l) u = mem l u.
Proof. unfold dmem. rewrite table_get. destruct (mem l u); reflexivity. Qed.
Lemma table_set_new {V} (f : string -> V) l u : mem l u = false -> dset (table f l) u (f u) = table f (l ++ [u]).
Proof.
  induction l as [|a l IH]; intro M; [reflexivity|]. cbn [mem existsb] in M. apply orb_false_iff in M. destruct M as [A M].
  cbn [table map app dset]. rewrite A. f_equal. apply IH. exact M.
Qed.
Lemma table_ext {V} (f g : string -> V) l : (forall u, In u l -> f u = g u) -> table f l = table g l.
Proof. intros H. apply map_ext_in. intros u U. rewrite (H u U). reflexivity. Qed.
Lemma table_set {V} (f g : string -> V) l u : NoDup l -> In u l -> (forall v, v <> u -> f v = g v) -> dset (table f l) u (g u) = table g l.
Proof.
  induction l as [|a l IH]; intros N I H; [destruct I|]. apply NoDup_cons_iff in N. destruct N as [Na N]. cbn [table map dset].
  destruct (String.eqb_spec u a) as [<-|E].
  - f_equal. apply table_ext. intros v V'. apply H. intros ->. exact (Na V').
  - rewrite (H a) by congruence. f_equal. apply IH; [exact N| |exact H]. destruct I as [<-|I]; [congruence|exact I].
Qed.

(** ** Histories *)
Lemma calls_app bs b : wing_calls (bs ++ [b]) = wing_calls bs ++ match b with BWing u => [u] | _ => [] end.
Proof. unfold wing_calls. rewrite flat_map_app. cbn [flat_map]. rewrite app_nil_r. reflexivity. Qed.
Lemma seg_app w bs b : segment_calls w (bs ++ [b]) = segment_calls w bs ++ match b with BSegment w' u => if String.eqb w' w then [u] else [] | _ => [] end.
Proof. unfold segment_calls. rewrite flat_map_app. cbn [flat_map]. rewrite app_nil_r. reflexivity. Qed.
Lemma ctl_app w bs b : control_calls w (bs ++ [b]) = control_calls w bs ++ match b with BControl w' u => if String.eqb w' w then [u] else [] | _ => [] end.
Proof. unfold control_calls. rewrite flat_map_app. cbn [flat_map]. rewrite app_nil_r. reflexivity. Qed.
Lemma sym_app w bs b : symmetry_calls w (bs ++ [b]) = symmetry_calls w bs ++ match b with BSymmetry w' s => if (String.eqb w' w && (0 <=? s)%Z && (s <=? 3)%Z)%bool then [s] else [] | _ => [] end.
Proof. unfold symmetry_calls. rewrite flat_map_app. cbn [flat_map]. rewrite app_nil_r. reflexivity. Qed.
Lemma since_app w bs b : since w (bs ++ [b]) = if mem (wing_calls bs) w then since w bs ++ [b] else [].
Proof.
  induction bs as [|a bs IH]; cbn [app since].
  - destruct b; try reflexivity. destruct (String.eqb _ _); reflexivity.
  - destruct a as [u|w' u|w' u|w' s]; cbn [wing_calls flat_map app mem existsb]; fold (wing_calls bs); try exact IH.
    rewrite (String.eqb_sym w u). destruct (String.eqb u w); [reflexivity|]. exact IH.
Qed.

(** A wing after a call. *)
Lemma wing_same w bs b : match b with BWing _ => True | BSegment w' _ | BControl w' _ | BSymmetry w' _ => w' <> w end ->
  described_wing w (bs ++ [b]) = described_wing w bs.
Proof.
  intros H. unfold described_wing. rewrite seg_app, ctl_app, sym_app. destruct b; rewrite ?app_nil_r; try reflexivity.
  - apply String.eqb_neq in H. rewrite H, app_nil_r. reflexivity.
  - apply String.eqb_neq in H. rewrite H, app_nil_r. reflexivity.
  - apply String.eqb_neq in H. rewrite H. cbn [andb]. rewrite app_nil_r. reflexivity.
Qed.
Lemma mem_first l u : (String.eqb u "" = false) -> mem (names l) u = mem l u.
Proof. intros H. rewrite mem_names, H. reflexivity. Qed.

Definition add_outcome (l : list string) (u : string) : res unit :=
  if String.eqb u "" then Err ComponentDefinitionError else if mem l u then Err ValueError else Ok tt.
Lemma add_segment_step w bs u : add_segment (described_wing w bs) u = (described_wing w (bs ++ [BSegment w u]), add_outcome (segment_calls w bs) u).
Proof.
  unfold add_segment, add_outcome, described_wing. cbn [w_segs w_ctls w_uid w_symmetry]. rewrite seg_app, ctl_app, sym_app, !app_nil_r, String.eqb_refl, names_app.
  fold (table described_segment (names (segment_calls w bs))). rewrite table_mem.
  destruct (String.eqb u "") eqn:E; [cbn [orb]; rewrite app_nil_r; reflexivity|]. rewrite mem_first by exact E. cbn [orb].
  destruct (mem (segment_calls w bs) u) eqn:M; [rewrite app_nil_r; reflexivity|]. f_equal. f_equal.
  change (new_wsegment u) with (described_segment u). apply table_set_new. rewrite mem_first by exact E. exact M.
Qed.
Lemma add_control_step w bs u : add_control (described_wing w bs) u = (described_wing w (bs ++ [BControl w u]), add_outcome (control_calls w bs) u).
Proof.
  unfold add_control, add_outcome, described_wing. cbn [w_segs w_ctls w_uid w_symmetry]. rewrite seg_app, ctl_app, sym_app, !app_nil_r, String.eqb_refl, names_app.
  fold (table described_control (names (control_calls w bs))). rewrite table_mem.
  destruct (String.eqb u "") eqn:E; [cbn [orb]; rewrite app_nil_r; reflexivity|]. rewrite mem_first by exact E. cbn [orb].
  destruct (mem (control_calls w bs) u) eqn:M; [rewrite app_nil_r; reflexivity|]. f_equal. f_equal.
  change (new_wcontrol u) with (described_control u). apply table_set_new. rewrite mem_first by exact E. exact M.
Qed.
Lemma sym_bool s : (Z.eqb s 0 || Z.eqb s 1 || Z.eqb s 2 || Z.eqb s 3)%bool = ((0 <=? s) && (s <=? 3))%Z.
Proof.
  destruct ((0 <=? s) && (s <=? 3))%Z eqn:E.
  - apply andb_true_iff in E. destruct E as [A B]. apply Z.leb_le in A, B. assert (H : (s = 0 \/ s = 1 \/ s = 2 \/ s = 3)%Z) by lia.
    destruct H as [->|[->|[->| ->]]]; reflexivity.
  - apply andb_false_iff in E. assert (H : (s < 0 \/ 3 < s)%Z) by (destruct E as [E|E]; apply Z.leb_gt in E; lia).
    repeat (apply orb_false_iff; split); apply Z.eqb_neq; lia.
Qed.
Lemma set_symmetry_step w bs s : set_symmetry (described_wing w bs) s =
  (described_wing w (bs ++ [BSymmetry w s]), if ((0 <=? s) && (s <=? 3))%Z then Ok tt else Err ValueError).
Proof.
  unfold set_symmetry. rewrite sym_bool. unfold described_wing. cbn [w_segs w_ctls w_uid w_symmetry]. rewrite seg_app, ctl_app, sym_app, !app_nil_r, String.eqb_refl. cbn [andb].
  destruct ((0 <=? s) && (s <=? 3))%Z; [rewrite last_last; reflexivity|rewrite app_nil_r; reflexivity].
Qed.

Lemma described_get bs w : dget (a_wings (described bs)) w = if (negb (String.eqb w "") && mem (wing_calls bs) w)%bool then Some (described_wing w (since w bs)) else None.
Proof.
  unfold described. cbn [a_wings]. change (map _ (names (wing_calls bs))) with (table (fun w => described_wing w (since w bs)) (names (wing_calls bs))).
  rewrite table_get, mem_names. reflexivity.
Qed.
(** A call on an existing wing changes this wing only; other calls change nothing. *)
Lemma on_wing_step bs b w (f : wing -> wing * res unit) (r : res unit) :
  match b with BWing _ => False | BSegment w' _ | BControl w' _ | BSymmetry w' _ => w' = w end ->
  f (described_wing w (since w bs)) = (described_wing w (since w bs ++ [b]), r) ->
  on_wing (described bs) w f = (described (bs ++ [b]), if (negb (String.eqb w "") && mem (wing_calls bs) w)%bool then r else Err KeyError).
Proof.
  intros B F. unfold on_wing. rewrite described_get.
  assert (C : wing_calls (bs ++ [b]) = wing_calls bs) by (rewrite calls_app; destruct b; [destruct B| | |]; apply app_nil_r).
  destruct (negb (String.eqb w "") && mem (wing_calls bs) w)%bool eqn:E.
  - rewrite F. f_equal. unfold described. cbn [a_uid a_wings]. rewrite C. f_equal.
    change (dset (table (fun w => described_wing w (since w bs)) (names (wing_calls bs))) w (described_wing w (since w bs ++ [b])) = table (fun w => described_wing w (since w (bs ++ [b]))) (names (wing_calls bs))).
    apply andb_true_iff in E. destruct E as [E1 E2].
    replace (described_wing w (since w bs ++ [b])) with (described_wing w (since w (bs ++ [b]))) by (rewrite since_app, E2; reflexivity).
    transitivity (dset (table (fun v => described_wing v (since v bs)) (names (wing_calls bs))) w ((fun v => if String.eqb v w then described_wing v (since v (bs ++ [b])) else described_wing v (since v bs)) w)); [cbn beta; rewrite String.eqb_refl; reflexivity|].
    rewrite (table_set _ (fun v => if String.eqb v w then described_wing v (since v (bs ++ [b])) else described_wing v (since v bs))).
    + apply table_ext. intros v V. destruct (String.eqb_spec v w) as [|N]; [reflexivity|].
      rewrite since_app. apply mem_In in V. rewrite mem_names in V. apply andb_true_iff in V. rewrite (proj2 V).
      symmetry. apply wing_same. destruct b; [destruct B| | |]; congruence.
    + apply names_NoDup.
    + apply mem_In. rewrite mem_names, E1, E2. reflexivity.
    + intros v V. apply String.eqb_neq in V. rewrite V. reflexivity.
  - f_equal. unfold described. rewrite C. f_equal. apply map_ext_in. intros v V. f_equal.
    apply mem_In in V. rewrite mem_names in V. rewrite since_app. pose proof V as V'. apply andb_true_iff in V. rewrite (proj2 V). symmetry. apply wing_same.
    assert (N : w <> v) by (intros ->; congruence). destruct b; [destruct B| | |]; congruence.
Qed.
Lemma step_described bs b : build_step (described bs) b = (described (bs ++ [b]), outcome bs b).
Proof.
  destruct b as [u|w u|w u|w s]; cbn [build_step].
  - unfold add_wing, outcome. cbn [a_wings a_uid described].
    change (map _ (names (wing_calls bs))) with (table (fun w => described_wing w (since w bs)) (names (wing_calls bs))). rewrite table_mem.
    assert (K : forall l, (forall v, mem l v = true -> mem (names (wing_calls bs)) v = true) -> table (fun w => described_wing w (since w (bs ++ [BWing u]))) l = table (fun w => described_wing w (since w bs)) l).
    { intros l Hl. apply table_ext. intros v V. apply mem_In in V. pose proof (Hl v V) as V'. rewrite mem_names in V'. apply andb_true_iff in V'.
      rewrite since_app, (proj2 V'). apply wing_same. exact I. }
    destruct (String.eqb u "") eqn:E.
    + f_equal. unfold described. rewrite calls_app, names_app, E. cbn [orb]. rewrite app_nil_r. f_equal. symmetry. apply K. auto.
    + rewrite mem_first by exact E. fold (mem (wing_calls bs) u). destruct (mem (wing_calls bs) u) eqn:M.
      * f_equal. unfold described. rewrite calls_app, names_app, E, M. cbn [orb]. rewrite app_nil_r. f_equal. symmetry. apply K. auto.
      * f_equal. unfold described. rewrite calls_app, names_app, E, M. cbn [orb]. f_equal. rewrite dset_fresh.
        -- rewrite map_app. cbn [map]. f_equal; [symmetry; apply (K (names (wing_calls bs))); auto|]. rewrite since_app, M. reflexivity.
        -- rewrite table_get, mem_first, M by exact E. reflexivity.
  - unfold outcome. cbv zeta. apply on_wing_step; [reflexivity|]. apply add_segment_step.
  - unfold outcome. cbv zeta. apply on_wing_step; [reflexivity|]. apply add_control_step.
  - unfold outcome. cbv zeta. apply on_wing_step; [reflexivity|]. apply set_symmetry_step.
Qed.
Lemma built_described bs : built bs = described bs.
Proof.
  induction bs as [|b bs IH] using rev_ind; [reflexivity|]. unfold built in *. rewrite fold_left_app. cbn [fold_left]. rewrite IH, step_described. reflexivity.
Qed.

From Verif Require EnumProofs.
Lemma on_wing_refused a w f e : (forall x e, snd (f x) = Err e -> fst (f x) = x) -> snd (on_wing a w f) = Err e -> fst (on_wing a w f) = a.
Proof.
  intros F. unfold on_wing. destruct (dget (a_wings a) w) as [x|] eqn:G; [|reflexivity]. destruct (f x) as [x' r] eqn:E. cbn [fst snd]. intros ->.
  pose proof (F x e) as H. rewrite E in H. cbn [fst snd] in H. rewrite (H eq_refl), EnumProofs.dset_same by exact G. destruct a; reflexivity.
Qed.
Lemma refused a b e : snd (build_step a b) = Err e -> fst (build_step a b) = a.
Proof.
  destruct b as [u|w u|w u|w s]; cbn [build_step]; [|apply on_wing_refused; intros x e'..].
  - unfold add_wing. destruct (String.eqb u EmptyString); [reflexivity|]. destruct (dmem _ _); [reflexivity|discriminate].
  - unfold add_segment. destruct (String.eqb u EmptyString); [reflexivity|]. destruct (dmem _ _); [reflexivity|discriminate].
  - unfold add_control. destruct (String.eqb u EmptyString); [reflexivity|]. destruct (dmem _ _); [reflexivity|discriminate].
  - unfold set_symmetry. destruct (_ || _)%bool; [discriminate|reflexivity].
Qed.
