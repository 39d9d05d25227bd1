(** Facts about names and paths of [StartModel]. *)
From Coq Require Import List String Ascii ZArith QArith Bool Lia.
From Verif Require Import PyBase PyVal PyFacts AircraftIOModel AircraftIOSpec StrFacts CliModel RunSpec StartModel StartSpec.
From Verif Require CliProofs RunModel RunProofs.
Import List ListNotations.
Open Scope string_scope.

Lemma components_cons s : exists x l, components s = x :: l.
Proof. induction s as [|c r (x & l & E)]; cbn; [eauto|]. destruct (is_slash c); [eauto|]. rewrite E. eauto. Qed.
Lemma components_app a b : components (a ++ "/" ++ b) = (components a ++ components b)%list.
Proof.
  induction a as [|c a IH]; [reflexivity|]. change (String c a ++ "/" ++ b) with (String c (a ++ "/" ++ b)).
  cbn [components]. rewrite IH. destruct (is_slash c); [reflexivity|].
  destruct (components_cons a) as (x & l & E). rewrite E. reflexivity.
Qed.
Lemma components_plain s : has_slash s = false -> components s = [s].
Proof.
  induction s as [|c s IH]; [reflexivity|]. cbn. destruct (is_slash c); [discriminate|]. cbn. intro H. rewrite (IH H). reflexivity.
Qed.
Lemma plain_slash c : plain c -> has_slash c = false.
Proof. intros (_ & _ & _ & H). destruct (has_slash c) eqn:E; [|reflexivity]. apply has_slash_iff in E. contradiction. Qed.
Lemma step_plain acc c : plain c -> step acc c = (acc ++ [c])%list.
Proof.
  intros (A & B & D & _). unfold step. apply String.eqb_neq in A, B, D. rewrite A, B, D. reflexivity.
Qed.
Lemma fold_plain l : Forall plain l -> forall acc, fold_left step l acc = (acc ++ l)%list.
Proof.
  induction 1 as [|c l P F IH]; intro acc; cbn [fold_left]; [rewrite app_nil_r; reflexivity|].
  rewrite (step_plain acc c P), IH, <- app_assoc. reflexivity.
Qed.
Lemma prefix_slash_of s : has_slash s = false -> String.prefix "/" s = false.
Proof. apply prefix_slash. Qed.

Lemma joined_comps p : real p -> p <> [] -> components (joined p) = "" :: p.
Proof.
  induction p as [|c p IH]; intros F N; [congruence|]. inversion F as [|? ? P F']; subst. cbn [joined].
  change ("/" ++ c ++ joined p) with ("" ++ "/" ++ (c ++ joined p)). rewrite components_app. cbn [components app]. f_equal.
  destruct p as [|d p]; [cbn [joined]; rewrite app_nil_s; exact (components_plain c (plain_slash c P))|].
  assert (J := IH F' ltac:(discriminate)). cbn [joined] in *.
  change ("/" ++ d ++ joined p) with ("" ++ "/" ++ (d ++ joined p)) in J. rewrite components_app in J. cbn [components app] in J.
  injection J as J. change (c ++ "/" ++ d ++ joined p) with (c ++ "/" ++ (d ++ joined p)).
  rewrite components_app, (components_plain c (plain_slash c P)). cbn [app]. f_equal. exact J.
Qed.
Lemma prefix_joined c p : String.prefix "/" (joined (c :: p)) = true.
Proof. apply prefix_iff. eexists. reflexivity. Qed.

Lemma join_render root s : real root -> String.prefix "/" s = false -> s <> "" ->
  exists pre, path_join (render root) s = String "/" (pre ++ s) /\ components (path_join (render root) s) = ("" :: root ++ components s)%list.
Proof.
  intros F P N. destruct root as [|c root].
  - exists "". unfold render, path_join. rewrite P. cbn. split; reflexivity.
  - unfold render. assert (D : directory (joined (c :: root))).
    { clear - F. revert c F. induction root as [|d root IH]; intros c F; inversion F as [|? ? P F']; subst.
      - cbn [joined]. rewrite app_nil_s. clear F. destruct P as (A & _ & _ & S).
        assert (X : exists r e, c = r ++ String e "").
        { clear S. induction c as [|x c IH]; [congruence|]. destruct c as [|y c]; [exists "", x; reflexivity|].
          destruct (IH ltac:(discriminate)) as (r & e & E). exists (String x r), e. rewrite E. reflexivity. }
        destruct X as (r & e & ->). exists ("/" ++ r), e. split; [reflexivity|]. intros ->. apply S. exists r, "". reflexivity.
      - destruct (IH d F') as (r & e & E & Ne). exists ("/" ++ c ++ r), e. split; [|exact Ne]. cbn [joined].
        cbn [joined] in E. rewrite E. cbn [append]. rewrite !app_assoc_s. reflexivity. }
    assert (J : path_join (joined (c :: root)) s = joined (c :: root) ++ "/" ++ s).
    { unfold path_join. rewrite P. destruct D as (r & e & E & Ne). rewrite E.
      assert (X : String.eqb (r ++ String e "") "" = false) by (apply String.eqb_neq; destruct r; discriminate).
      rewrite X, ends_slash_app. unfold is_slash. apply Ascii.eqb_neq in Ne. rewrite Ne. reflexivity. }
    rewrite J. exists (c ++ joined root ++ "/"). split.
    + cbn [joined append]. rewrite !app_assoc_s. reflexivity.
    + rewrite components_app, (joined_comps _ F ltac:(discriminate)). reflexivity.
Qed.

Lemma resolve_abs d s l : components s = "" :: l -> s <> "" -> resolve d s = fold_left step l [].
Proof.
  intros Cs N. unfold resolve. rewrite Cs. destruct s as [|c s]; [congruence|]. cbn [components] in Cs.
  destruct (is_slash c) eqn:S.
  - unfold is_slash in S. apply Ascii.eqb_eq in S as ->. assert (X : String.prefix "/" (String "/" s) = true) by (apply prefix_iff; exists s; reflexivity). rewrite X. reflexivity.
  - destruct (components_cons s) as (x & l' & E). rewrite E in Cs. discriminate.
Qed.
Lemma resolve_rel d s l : components s = l -> Forall plain l -> resolve d s = (d ++ l)%list.
Proof.
  intros Cs F. unfold resolve. assert (X : String.prefix "/" s = false).
  { destruct s as [|c s]; [reflexivity|]. apply prefix_slash_no. intros ->. cbn in Cs. subst l. inversion F as [|? ? P _]. destruct P as (A & _). congruence. }
  rewrite X, Cs. apply fold_plain. exact F.
Qed.

(** Names of result files. *)
Lemma plain_us a b : ~ has_part "/" a -> ~ has_part "/" b -> plain (a ++ "_" ++ b).
Proof.
  intros P N. unfold plain. split; [destruct a; discriminate|].
  assert (L : forall x, a ++ "_" ++ b = x -> (exists y z, x = y ++ "_" ++ z)) by (intros x <-; eauto).
  assert (U : forall x, (x = "." \/ x = "..") -> ~ exists y z, x = y ++ "_" ++ z).
  { intros x [-> | ->] (y & z & H); destruct y as [|c [|d [|e y]]]; cbn in H; try discriminate; injection H; try discriminate; destruct y; discriminate. }
  split; [intro H; exact (U _ (or_introl eq_refl) (L _ H))|]. split; [intro H; exact (U _ (or_intror eq_refl) (L _ H))|].
  rewrite <- has_slash_iff. rewrite has_slash_app. rewrite <- has_slash_iff in P, N. destruct (has_slash a); [congruence|]. cbn. exact N.
Qed.

(** ** Projects and extensions *)

Lemma name_last r x : name_of (r ++ [x])%list = x.
Proof. unfold SetupModel.name_of. apply last_last. Qed.
Lemma project_dir p root name : project_of p root name -> working_dir p = root /\ name_of p = name.
Proof.
  unfold working_dir. intros [r n|r n N].
  - change (r ++ ["settings"; n])%list with (r ++ ["settings"] ++ [n])%list. rewrite app_assoc, removelast_last, !name_last. cbn [String.eqb].
    replace (String.eqb "settings" "settings") with true by reflexivity. rewrite removelast_last. auto.
  - rewrite removelast_last, name_last. split; [|reflexivity]. destruct (String.eqb (name_of r) "settings") eqn:E; [|reflexivity].
    apply String.eqb_eq in E. destruct r as [|x r] using rev_ind; [discriminate E|]. rewrite name_last in E. subst x. exfalso. exact (N r eq_refl).
Qed.
Lemma project_exists p : p <> [] -> exists root name, project_of p root name.
Proof.
  intro N. destruct p as [|name dir _] using rev_ind; [congruence|].
  destruct dir as [|x r _] using rev_ind.
  - exists [], name. apply (po_beside []). intros [|? ?]; discriminate.
  - destruct (string_dec x "settings") as [->|D].
    + exists r, name. rewrite <- app_assoc. apply po_settings.
    + exists (r ++ [x])%list, name. apply po_beside. intros r' E. apply app_inj_tail in E as [_ E]. congruence.
Qed.

Lemma has_dot_part s : has_dot s = true <-> has_part "." s.
Proof. rewrite CliProofs.has_dot_iff. reflexivity. Qed.
Lemma no_dot s : ~ has_part "." s -> has_dot s = false.
Proof. rewrite <- has_dot_part. destruct (has_dot s); congruence. Qed.
Lemma dots_tail c s : only_dots (String c s) -> c = "."%char /\ only_dots s.
Proof.
  intro H. split; [exact (H "" c s eq_refl)|]. intros a d b ->. exact (H (String c a) d b eq_refl).
Qed.
Lemma dots_cons s : only_dots s -> only_dots (String "." s).
Proof.
  intros H a c b E. destruct a as [|x a]; [injection E as <- _; reflexivity|]. injection E as _ E. exact (H a c b E).
Qed.
Lemma is_dot_true c : is_dot c = true <-> c = "."%char.
Proof. apply Ascii.eqb_eq. Qed.

Lemma base_split name base : base_of name base -> splitext name = base.
Proof.
  intros [(ext & -> & ND & NO)|[-> H]].
  - apply no_dot in ND. induction base as [|c base IH]; [exfalso; apply NO; intros [|? ?] ? ? ?; discriminate|].
    change (String c base ++ "." ++ ext) with (String c (base ++ String "." ext)). cbn [SetupModel.splitext].
    destruct (is_dot c) eqn:D.
    + apply is_dot_true in D as ->. f_equal. apply IH. intro O. apply NO. exact (dots_cons _ O).
    + assert (HD : has_dot (String c (base ++ String "." ext)) = true) by (apply has_dot_part; exists (String c base), ext; reflexivity).
      rewrite HD. change (String c (base ++ String "." ext)) with (String c base ++ String "." ext). apply CliProofs.before_dot_app. exact ND.
  - induction name as [|c name IH]; [reflexivity|]. cbn [SetupModel.splitext]. destruct (is_dot c) eqn:D.
    + f_equal. apply IH. intros a ext E. assert (K := H (String c a) ext ltac:(rewrite E; reflexivity)). exact (proj2 (dots_tail _ _ K)).
    + destruct (has_dot (String c name)) eqn:HD; [|reflexivity]. exfalso. apply has_dot_part in HD as (a & b & E).
      destruct a as [|x a]; cbn in E; injection E as -> E; [discriminate D|].
      assert (K := H (String x a) b ltac:(cbn; rewrite E; reflexivity)). destruct (dots_tail _ _ K) as [-> _]. discriminate D.
Qed.
Lemma last_dot s : has_dot s = true -> exists a e, s = a ++ "." ++ e /\ ~ has_part "." e.
Proof.
  induction s as [|c s IH]; [discriminate|]. cbn [has_dot]. destruct (has_dot s) eqn:D.
  - intros _. destruct (IH eq_refl) as (a & e & -> & N). exists (String c a), e. auto.
  - rewrite orb_false_r. intro H. apply is_dot_true in H as ->. exists "", s. split; [reflexivity|]. rewrite <- has_dot_part. congruence.
Qed.
Lemma last_dot_unique a e a' e' : a ++ "." ++ e = a' ++ "." ++ e' -> ~ has_part "." e -> ~ has_part "." e' -> a = a' /\ e = e'.
Proof.
  intros H N N'. apply no_dot in N, N'. cbn [append] in H. assert (X := f_equal before_dot H). rewrite !CliProofs.before_dot_app in X by assumption. subst a'.
  split; [reflexivity|]. apply app_inj_s in H. congruence.
Qed.
Lemma only_dots_dec s : only_dots s \/ ~ only_dots s.
Proof.
  induction s as [|c s IH]; [left; intros [|? ?] ? ? ?; discriminate|].
  destruct (ascii_dec c ".") as [->|N]; [|right; intro H; exact (N (proj1 (dots_tail _ _ H)))].
  destruct IH as [I|I]; [left; exact (dots_cons _ I)|right; intro H; exact (I (proj2 (dots_tail _ _ H)))].
Qed.
Lemma dots_app a b : only_dots (a ++ b) -> only_dots a.
Proof. intros H x c y ->. apply (H x c (y ++ b)). rewrite app_assoc_s. reflexivity. Qed.
Lemma base_exists name : base_of name (splitext name).
Proof.
  assert (X : exists b, base_of name b).
  { destruct (has_dot name) eqn:D.
    - destruct (last_dot name D) as (a & e & E & N). destruct (only_dots_dec a) as [O|O].
      + exists name. right. split; [reflexivity|]. intros a' e' E'. destruct (has_dot e') eqn:D'.
        * destruct (last_dot e' D') as (x & y & -> & N'). rewrite E in E'.
          assert (Y : a ++ "." ++ e = (a' ++ "." ++ x) ++ "." ++ y) by (rewrite E', !app_assoc_s; reflexivity).
          apply last_dot_unique in Y as [-> _]; [|assumption|assumption]. exact (dots_app _ _ O).
        * rewrite E in E'. apply last_dot_unique in E' as [-> _]; [exact O|exact N|]. rewrite <- has_dot_part. congruence.
      + exists a. left. exists e. auto.
    - exists name. right. split; [reflexivity|]. intros a e E. exfalso. assert (has_dot name = true) by (apply has_dot_part; exists a, e; exact E). congruence. }
  destruct X as [b B]. rewrite (base_split _ _ B). exact B.
Qed.
Lemma base_no_slash name base : base_of name base -> ~ has_part "/" name -> ~ has_part "/" base.
Proof.
  intros [(ext & -> & _)|[-> _]]; [|auto]. intros N (x & y & ->). apply N. exists x, (y ++ "." ++ ext). rewrite !app_assoc_s. reflexivity.
Qed.

Lemma after_dot_app a e : has_dot e = false -> after_dot (a ++ String "." e) = e.
Proof.
  intro N. induction a as [|c a IH]; [cbn; rewrite N; reflexivity|]. cbn [append after_dot].
  assert (H : has_dot (a ++ String "." e) = true) by (rewrite CliProofs.has_dot_app; cbn; apply orb_true_r). rewrite H, andb_false_r. exact IH.
Qed.
Lemma ends_dot_app a c r : ends_dot (a ++ String c r) = ends_dot (String c r).
Proof. induction a as [|x a IH]; [reflexivity|]. cbn [append ends_dot]. destruct a; cbn [append] in *; exact IH. Qed.
Lemma ends_dot_has s : ends_dot s = true -> has_dot s = true.
Proof.
  induction s as [|c s IH]; [discriminate|]. cbn [ends_dot has_dot]. destruct s as [|d s]; [intros ->; reflexivity|]. intro H. rewrite (IH H). apply orb_true_r.
Qed.
Lemma suffix_ext name ext : extension name ext -> suffix name = "." ++ ext.
Proof.
  intros (st & e & N1 & N2 & ND & -> & ->). apply no_dot in ND. unfold suffix. cbn [append].
  rewrite CliProofs.has_dot_app. cbn [has_dot]. replace (is_dot ".") with true by reflexivity. rewrite orb_true_r.
  rewrite ends_dot_app. destruct e as [|c e]; [congruence|].
  assert (ED : ends_dot (String "." (String c e)) = false).
  { change (ends_dot (String "." (String c e))) with (ends_dot (String c e)). destruct (ends_dot (String c e)) eqn:X; [|reflexivity]. apply ends_dot_has in X. congruence. }
  rewrite ED, CliProofs.before_dot_app, after_dot_app by exact ND. destruct st; [congruence|reflexivity].
Qed.
Lemma suffix_none name : (forall ext, ~ extension name ext) -> suffix name = "".
Proof.
  intro H. unfold suffix. destruct (has_dot name) eqn:D; [|reflexivity]. destruct (last_dot name D) as (a & e & -> & N).
  destruct e as [|c e]; [|destruct a as [|x a]].
  - cbn [append]. rewrite ends_dot_app. reflexivity.
  - cbn [append]. destruct (ends_dot (String "." (String c e))); [reflexivity|].
    change (String "." (String c e)) with ("" ++ String "." (String c e)). rewrite (CliProofs.before_dot_app "" _ (no_dot _ N)). reflexivity.
  - exfalso. apply (H (String c e)). exists (String x a), (String c e). repeat split; try discriminate. exact N.
Qed.
Lemma extension_unique name e e' : extension name e -> extension name e' -> e = e'.
Proof. intros H H'. apply suffix_ext in H, H'. rewrite H in H'. injection H' as ->. reflexivity. Qed.
Lemma extension_dec name : (exists e, extension name e) \/ (forall e, ~ extension name e).
Proof.
  destruct (has_dot name) eqn:D.
  - destruct (last_dot name D) as (a & e & -> & N). destruct e as [|c e]; [|destruct a as [|x a]].
    + right. intros e' (st & e2 & _ & N2 & ND & E & _). apply last_dot_unique in E as [_ <-]; [congruence| |assumption]. exact N.
    + right. intros e' (st & e2 & N1 & _ & ND & E & _). apply last_dot_unique in E as [<- _]; [congruence| |assumption]. exact N.
    + left. exists (String c e), (String x a), (String c e). repeat split; try discriminate. exact N.
  - right. intros e (st & e2 & _ & _ & _ & E & _). assert (has_dot name = true) by (apply has_dot_part; exists st, e2; exact E). congruence.
Qed.

(** ** Upper and lower case *)

Lemma code c : (nat_of_ascii c < 256)%nat.
Proof. apply nat_ascii_bounded. Qed.
Lemma code_inj c d : nat_of_ascii c = nat_of_ascii d -> c = d.
Proof. intro H. rewrite <- (ascii_nat_embedding c), <- (ascii_nat_embedding d), H. reflexivity. Qed.
Lemma lower_code c : nat_of_ascii (lower_char c) =
  (let n := nat_of_ascii c in if (65 <=? n) && (n <=? 90) then n + 32 else n)%nat.
Proof.
  unfold lower_char. cbv zeta. destruct ((65 <=? nat_of_ascii c) && (nat_of_ascii c <=? 90))%nat eqn:E; [|reflexivity].
  apply nat_ascii_embedding. apply andb_true_iff in E as [_ E]. apply Nat.leb_le in E. lia.
Qed.
Lemma upper_code c : nat_of_ascii (upper_char c) =
  (let n := nat_of_ascii c in if (97 <=? n) && (n <=? 122) then n - 32 else n)%nat.
Proof.
  unfold upper_char. cbv zeta. destruct ((97 <=? nat_of_ascii c) && (nat_of_ascii c <=? 122))%nat eqn:E; [|reflexivity].
  apply nat_ascii_embedding. apply andb_true_iff in E as [_ E]. apply Nat.leb_le in E. lia.
Qed.
Ltac letters := repeat match goal with
  | H : context [(?a <=? ?b)%nat] |- _ => destruct (Nat.leb_spec a b)
  | |- context [(?a <=? ?b)%nat] => destruct (Nat.leb_spec a b)
  end; cbn [andb] in *; try lia.
Lemma letter_low c d n : (n < 26)%nat -> nat_of_ascii c = (97 + n)%nat -> nat_of_ascii d = (65 + n)%nat -> same_letter c d.
Proof. intros L A B. replace d with (ascii_of_nat (65 + n)) by (rewrite <- B; apply ascii_nat_embedding). exact (sl_low c n L A). Qed.
Lemma letter_up c d n : (n < 26)%nat -> nat_of_ascii c = (65 + n)%nat -> nat_of_ascii d = (97 + n)%nat -> same_letter c d.
Proof. intros L A B. replace d with (ascii_of_nat (97 + n)) by (rewrite <- B; apply ascii_nat_embedding). exact (sl_up c n L A). Qed.
Lemma letter_lower c d : same_letter c d <-> lower_char c = lower_char d.
Proof.
  split.
  - intros [x|x n L H|x n L H]; [reflexivity| |]; apply code_inj; rewrite !lower_code, nat_ascii_embedding, H by lia; cbv zeta; letters.
  - intro H. apply (f_equal nat_of_ascii) in H. rewrite !lower_code in H. cbv zeta in H.
    destruct (Nat.eq_dec (nat_of_ascii c) (nat_of_ascii d)) as [X|X]; [rewrite (code_inj _ _ X); constructor|].
    letters; solve [apply (letter_up c d (nat_of_ascii c - 65)); lia|apply (letter_low c d (nat_of_ascii d - 65)); lia].
Qed.
Lemma letter_upper c d : same_letter c d <-> upper_char c = upper_char d.
Proof.
  split.
  - intros [x|x n L H|x n L H]; [reflexivity| |]; apply code_inj; rewrite !upper_code, nat_ascii_embedding, H by lia; cbv zeta; letters.
  - intro H. apply (f_equal nat_of_ascii) in H. rewrite !upper_code in H. cbv zeta in H.
    destruct (Nat.eq_dec (nat_of_ascii c) (nat_of_ascii d)) as [X|X]; [rewrite (code_inj _ _ X); constructor|].
    letters; solve [apply (letter_up c d (nat_of_ascii c - 65)); lia|apply (letter_low c d (nat_of_ascii d - 65)); lia].
Qed.
Lemma text_map f : (forall c d, same_letter c d <-> f c = f d) -> forall s t, same_text s t <-> map_string f s = map_string f t.
Proof.
  intros H s t. split.
  - induction 1 as [|c d r s L _ IH]; [reflexivity|]. cbn. rewrite IH. f_equal. apply H. exact L.
  - revert t. induction s as [|c s IH]; intros [|d t]; cbn; try discriminate; intro E; [constructor|]. injection E as A B. constructor; [apply H; exact A|exact (IH _ B)].
Qed.
Lemma text_lower s t : same_text s t <-> lower s = lower t.
Proof. apply text_map. exact letter_lower. Qed.
Lemma text_upper s t : same_text s t <-> upper s = upper t.
Proof. apply text_map. exact letter_upper. Qed.

(** ** NACA names *)

Definition digits (s : string) : Prop := forall a c b, s = a ++ String c b -> digit c <> None.
Lemma digits_cons c s : digits (String c s) -> digit c <> None /\ digits s.
Proof. intro H. split; [exact (H "" c s eq_refl)|]. intros a d b ->. exact (H (String c a) d b eq_refl). Qed.
Lemma digit_code c : digit c <> None -> (48 <= nat_of_ascii c <= 57)%nat.
Proof. unfold digit. cbv zeta. letters; try congruence. Qed.
Lemma digit_upper c : digit c <> None -> upper_char c = c.
Proof. intro H. apply digit_code in H. apply code_inj. rewrite upper_code. cbv zeta. letters. Qed.
Lemma digit_no_letter c : digit c <> None -> naca_letter c = false.
Proof.
  intro H. apply digit_code in H. unfold naca_letter.
  assert (X : forall d, (57 < nat_of_ascii d)%nat -> Ascii.eqb c d = false) by (intros d L; apply Ascii.eqb_neq; intros ->; lia).
  rewrite !X by (cbv; lia). reflexivity.
Qed.
Lemma digits_upper s : digits s -> upper s = s.
Proof.
  induction s as [|c s IH]; [reflexivity|]. intro H. destruct (digits_cons _ _ H) as [A B]. cbn. rewrite (digit_upper c A). f_equal. exact (IH B).
Qed.
Lemma digits_rstrip s : digits s -> rstrip s = s.
Proof.
  induction s as [|c s IH]; [reflexivity|]. intro H. destruct (digits_cons _ _ H) as [A B]. cbn. rewrite (IH B), (digit_no_letter c A).
  destruct s; reflexivity.
Qed.
Lemma digits_lstrip s : digits s -> lstrip s = s.
Proof. destruct s as [|c s]; [reflexivity|]. intro H. destruct (digits_cons _ _ H) as [A _]. cbn. rewrite (digit_no_letter c A). reflexivity. Qed.
Lemma naca_upper name d : digits d -> same_text name ("NACA" ++ d) -> upper name = "NACA" ++ d.
Proof. intros D H. apply text_upper in H. rewrite H. cbn. rewrite (digits_upper d D). reflexivity. Qed.
Lemma naca_strip d : digits d -> strip_naca ("NACA" ++ d) = d.
Proof. intro D. unfold strip_naca. cbn. rewrite (digits_lstrip d D). exact (digits_rstrip d D). Qed.
