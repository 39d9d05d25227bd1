(** Lemmas about strings and path names. *)
From Coq Require Import List String Ascii ZArith QArith Bool Lia.
From Verif Require Import PyBase AircraftIOModel AircraftIOSpec.
Import ListNotations.
Open Scope string_scope.

Lemma app_assoc_s (a b c : string) : (a ++ b) ++ c = a ++ (b ++ c).
Proof. induction a as [|x a IH]; cbn; [reflexivity|]. rewrite IH. reflexivity. Qed.
Lemma app_nil_s (a : string) : a ++ "" = a.
Proof. induction a as [|x a IH]; cbn; [reflexivity|]. rewrite IH. reflexivity. Qed.
Lemma app_inj_s (a b c : string) : a ++ b = a ++ c -> b = c.
Proof. induction a as [|x a IH]; cbn; intro H; [exact H|]. injection H. exact IH. Qed.
Lemma length_app_s (a b : string) : String.length (a ++ b) = (String.length a + String.length b)%nat.
Proof. induction a as [|x a IH]; cbn; [reflexivity|]. rewrite IH. reflexivity. Qed.

Lemma prefix_iff p s : String.prefix p s = true <-> begins p s.
Proof.
  unfold begins. revert s. induction p as [|c p IH]; intros s; cbn.
  - split; [intros _; exists s; reflexivity|destruct s; reflexivity].
  - destruct s as [|d s]; [split; [discriminate|intros [y H]; discriminate]|].
    cbn [String.prefix]. destruct (ascii_dec c d) as [->|N].
    + rewrite IH. split; intros [y H]; exists y; [congruence|injection H; auto].
    + split; [discriminate|]. intros [y H]. injection H as E _. congruence.
Qed.

Lemma contains_iff p s : p <> "" -> (contains p s = true <-> has_part p s).
Proof.
  intro NE. unfold contains, has_part. induction s as [|c s IH].
  - destruct p; [congruence|]. cbn. split; [discriminate|]. intros (x & y & H). destruct x; discriminate.
  - cbn [String.index]. destruct (String.prefix p (String c s)) eqn:P.
    + split; [|reflexivity]. intros _. apply prefix_iff in P as [y ->]. exists "", y. reflexivity.
    + destruct p as [|pc p']; [congruence|].
      destruct (String.index 0 (String pc p') s) as [n|].
      * split; [|reflexivity]. intros _. destruct (proj1 IH eq_refl) as (x & y & E). exists (String c x), y. rewrite E. reflexivity.
      * split; [discriminate|]. intros (x & y & H). destruct x as [|d x].
        { assert (T : String.prefix (String pc p') (String c s) = true) by (apply prefix_iff; exists y; exact H). congruence. }
        cbn in H. injection H as _ H. apply IH. eauto.
Qed.

Lemma has_slash_iff s : has_slash s = true <-> has_part "/" s.
Proof.
  induction s as [|c s IH]; cbn.
  - split; [discriminate|]. intros (x & y & H). destruct x; discriminate.
  - unfold is_slash. destruct (Ascii.eqb_spec c "/") as [->|N]; cbn.
    + split; [|reflexivity]. intros _. exists "", s. reflexivity.
    + rewrite IH. split; intros (x & y & H).
      * exists (String c x), y. rewrite H. reflexivity.
      * destruct x as [|d x]; cbn in H; injection H as E H; [congruence|]. exists x, y. exact H.
Qed.

Lemma has_slash_app a b : has_slash (a ++ b) = (has_slash a || has_slash b)%bool.
Proof. induction a as [|c a IH]; cbn; [reflexivity|]. rewrite IH. rewrite orb_assoc. reflexivity. Qed.

Lemma basename_plain s : has_slash (basename s) = false.
Proof.
  induction s as [|c s IH]; cbn; [reflexivity|]. destruct (has_slash s) eqn:E; [exact IH|].
  destruct (is_slash c) eqn:F; [exact E|]. cbn. rewrite E, F. reflexivity.
Qed.

Lemma basename_app a b : has_slash b = false -> basename (a ++ "/" ++ b) = b.
Proof.
  intro H. induction a as [|c a IH]; cbn.
  - rewrite H. reflexivity.
  - rewrite has_slash_app. cbn. rewrite orb_true_r. exact IH.
Qed.

Lemma prefix_slash b : has_slash b = false -> String.prefix "/" b = false.
Proof.
  destruct b as [|c b]; [reflexivity|]. cbn [has_slash String.prefix]. unfold is_slash. intro H.
  destruct (ascii_dec "/" c) as [<-|N]; [discriminate H|reflexivity].
Qed.

Lemma prefix_slash_no c b : c <> "/"%char -> String.prefix "/" (String c b) = false.
Proof. intro N. cbn [String.prefix]. destruct (ascii_dec "/" c) as [<-|_]; [congruence|reflexivity]. Qed.

Lemma join_airfoils b : has_slash b = false -> path_join AIRFOILS b = "airfoils/" ++ b.
Proof. intro H. unfold path_join. rewrite (prefix_slash _ H). reflexivity. Qed.

Lemma ends_slash_app r c : ends_slash (r ++ String c "") = is_slash c.
Proof.
  induction r as [|d r IH]; [reflexivity|]. cbn [append]. rewrite <- IH. cbn. destruct (r ++ String c "") eqn:E; [|reflexivity].
  destruct r; discriminate.
Qed.

Lemma join_root root s : directory root -> String.prefix AIRFOILS s = true -> path_join root s = root ++ "/" ++ s.
Proof.
  intros (r & c & -> & N) P. apply prefix_iff in P as [y ->]. unfold path_join.
  cbn [append AIRFOILS]. rewrite prefix_slash_no by discriminate.
  assert (E : String.eqb (r ++ String c "") "" = false) by (destruct r; reflexivity). rewrite E.
  rewrite ends_slash_app. unfold is_slash. apply Ascii.eqb_neq in N. rewrite N. reflexivity.
Qed.
