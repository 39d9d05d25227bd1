(** Proofs for the command line (C47, C68). *)
From Coq Require Import List String Ascii Bool Lia.
From Verif Require Import PyBase AircraftIOModel StrFacts CliModel CliSpec.
Import ListNotations.
Open Scope string_scope.

(** ** Names *)
Lemma no_slash n : file_name n -> has_slash n = false.
Proof.
  intros [_ N]. destruct (has_slash n) eqn:E; [|reflexivity]. apply has_slash_iff in E. destruct E as (a & b & ->). destruct N. exists a, b. reflexivity.
Qed.
Lemma basename_id n : has_slash n = false -> basename n = n.
Proof. destruct n as [|c r]; [reflexivity|]. cbn [has_slash basename]. intro H. apply orb_false_iff in H as [H1 H2]. rewrite H1, H2. reflexivity. Qed.
Lemma basename_file path n : has_slash n = false -> file_at path n -> basename path = n.
Proof. intros N [->|[dir ->]]; [apply basename_id, N|apply basename_app, N]. Qed.

Lemma has_dot_iff s : has_dot s = true <-> exists a b, s = a ++ "." ++ b.
Proof.
  induction s as [|c s IH]; cbn [has_dot]; split.
  - discriminate.
  - intros (a & b & H). destruct a; discriminate.
  - intro H. apply orb_true_iff in H as [H|H].
    + apply Ascii.eqb_eq in H as ->. exists "", s. reflexivity.
    + apply IH in H as (a & b & ->). exists (String c a), b. reflexivity.
  - intros (a & b & H). apply orb_true_iff. destruct a as [|c' a].
    + left. injection H as -> _. reflexivity.
    + right. injection H as -> ->. apply IH. exists a, b. reflexivity.
Qed.
Lemma has_dot_app a b : has_dot (a ++ b) = has_dot a || has_dot b.
Proof. induction a as [|c a IH]; [reflexivity|]. cbn. rewrite IH. apply orb_assoc. Qed.
Lemma before_dot_app n e : has_dot e = false -> before_dot (n ++ String "." e) = n.
Proof.
  intro E. induction n as [|c n IH].
  - cbn. rewrite E. reflexivity.
  - change (String c n ++ String "." e) with (String c (n ++ String "." e)). cbn [before_dot].
    rewrite has_dot_app. cbn [has_dot]. rewrite orb_true_r. cbn [negb]. rewrite andb_false_r, IH. reflexivity.
Qed.
Lemma ends_dot_json n : ends_dot (n ++ ".json") = false.
Proof.
  induction n as [|c n IH]; [reflexivity|]. change (String c n ++ ".json") with (String c (n ++ ".json")). cbn [ends_dot].
  destruct (n ++ ".json") eqn:E; [destruct n; discriminate|exact IH].
Qed.
Lemma stem_json n : n <> "" -> stem_of_name (n ++ ".json") = n.
Proof.
  intro N. unfold stem_of_name. rewrite has_dot_app. cbn [has_dot is_dot]. rewrite orb_true_r, ends_dot_json, before_dot_app by reflexivity.
  destruct n; [congruence|reflexivity].
Qed.
Lemma stem_plain n : dotless n -> stem_of_name n = n.
Proof. intro D. unfold stem_of_name. destruct (has_dot n) eqn:E; [|reflexivity]. apply has_dot_iff in E. contradiction. Qed.

Lemma slash_json n : has_slash n = false -> has_slash (n ++ ".json") = false.
Proof. intro N. rewrite has_slash_app, N. reflexivity. Qed.
Lemma stem_of_json path n : json_file path n -> stem path = n.
Proof.
  intros [F A]. unfold stem. rewrite (basename_file path (n ++ ".json")); [|apply slash_json, no_slash, F|exact A].
  apply stem_json, F.
Qed.
Lemma stem_of_ask arg n : asks_for arg n -> dotless n -> stem arg = n.
Proof.
  intros [F [A|A]] D.
  - unfold stem. rewrite (basename_file arg n); [|apply no_slash, F|exact A]. apply stem_plain, D.
  - apply stem_of_json. split; assumption.
Qed.
Lemma json_unique path n n' : json_file path n -> json_file path n' -> n = n'.
Proof. intros A B. apply stem_of_json in A, B. congruence. Qed.

Lemma find_ok db n p : find_path db n = Ok p -> In p db /\ stem p = n.
Proof.
  induction db as [|q db IH]; cbn [find_path]; [discriminate|]. destruct (String.eqb_spec (stem q) n) as [E|E].
  - intros [= <-]. split; [left; reflexivity|exact E].
  - intro H. destruct (IH H). split; [right|]; assumption.
Qed.
Lemma find_err db n e : find_path db n = Err e -> e = FileNotFoundError /\ forall p, In p db -> stem p <> n.
Proof.
  induction db as [|q db IH]; cbn [find_path]; [intros [= <-]; split; [reflexivity|intros p []]|].
  destruct (String.eqb_spec (stem q) n) as [E|E]; [discriminate|]. intro H. destruct (IH H) as [-> K]. split; [reflexivity|].
  intros p [<-|I]; auto.
Qed.

(** ** Dispatch *)
Lemma doing_ok perform a k t : doing perform a k = (t, Ok tt) -> perform a = Ok tt /\ exists t', t = a :: t' /\ k = (t', Ok tt).
Proof.
  unfold doing. destruct (perform a) as [[]|e]; [|discriminate]. destruct k as [t' r]. intros [= <- ->]. eauto.
Qed.
Lemma doing_any perform a k t r : doing perform a k = (t, r) ->
  (perform a = Ok tt /\ exists t', t = a :: t' /\ k = (t', r)) \/ (exists e, perform a = Err e /\ t = [a] /\ r = Err e).
Proof.
  unfold doing. destruct (perform a) as [[]|e]; [|intros [= <- <-]; right; eauto].
  destruct k as [t' r']. intros [= <- <-]. left. eauto.
Qed.

(** The actions [ts], one after the other, as long as they succeed. *)
Fixpoint seq_of (perform : action -> res unit) (ts : list action) (last : res unit) : list action * res unit :=
  match ts with
  | [] => ([], last)
  | a :: ts' => match perform a with Ok _ => let '(t, r) := seq_of perform ts' last in (a :: t, r) | Err e => ([a], Err e) end
  end.
Lemma seq_doing perform a ts last : doing perform a (seq_of perform ts last) = seq_of perform (a :: ts) last.
Proof. reflexivity. Qed.
Lemma seq_any perform ts last t r : seq_of perform ts last = (t, r) ->
  (exists rest, ts = t ++ rest)%list /\ ((forall a, In a ts -> perform a = Ok tt) -> t = ts /\ r = last) /\
  ((t = ts /\ r = last) \/ exists a e, In a t /\ perform a = Err e /\ r = Err e).
Proof.
  revert t r. induction ts as [|a ts IH]; intros t r H; cbn [seq_of] in H.
  - injection H as <- <-. split; [exists []; reflexivity|]. auto.
  - destruct (perform a) as [[]|e] eqn:P.
    + destruct (seq_of perform ts last) as [t' r'] eqn:E. injection H as <- <-. destruct (IH t' r' eq_refl) as ((rest & R) & A & B). split; [|split].
      * exists rest. cbn. congruence.
      * intro O. destruct (A (fun x I => O x (or_intror I))) as [-> ->]. auto.
      * destruct B as [[-> ->]|(x & e & I & Q & ->)]; [auto|right]. exists x, e. split; [right; exact I|auto].
    + injection H as <- <-. split; [exists ts; reflexivity|]. split.
      * intro O. rewrite (O a (or_introl eq_refl)) in P. discriminate.
      * right. exists a, e. split; [left; reflexivity|auto].
Qed.

Definition follows (perform : action -> res unit) (ts : list action) (last : res unit) (t : list action) (r : res unit) : Prop :=
  (exists rest, ts = t ++ rest)%list /\ ((forall a, In a ts -> perform a = Ok tt) -> t = ts /\ r = last) /\
  ((t = ts /\ r = last) \/ exists a e, In a t /\ perform a = Err e /\ r = Err e).

Lemma parsed_run a f : parsed a -> a_run a = Some f -> a_cpacs2json a = None /\ a_make_example a = false /\ a_list a = false /\ a_from_db a = None.
Proof. intros [P _] R. rewrite R in P. destruct (a_cpacs2json a), (a_make_example a), (a_list a), (a_from_db a); cbn in P; try lia. auto. Qed.

Theorem actions perform db a t r ts : parsed a -> named a -> documented db a ts -> main perform db a = (t, r) -> follows perform ts (Ok tt) t r.
Proof.
  intros [P1 P2] [N1 N2] D M. apply seq_any. rewrite <- M. clear M t r.
  destruct a as [rn cv ex ls fd cl co]. unfold main, dispatch. cbn [a_run a_cpacs2json a_make_example a_list a_from_db a_clean a_clean_only] in *.
  destruct D as [f R C1 C2|f R C1|f R C2|f R C1 C2|E C1 C2|E C1 C2|R1 R2 R3 R4 R5 C1 C2];
    cbn [a_run a_cpacs2json a_make_example a_list a_from_db a_clean a_clean_only] in *; subst; cbn [orb given text].
  - destruct f as [|c f]; [congruence|]. reflexivity.
  - destruct co; [cbn in P2; lia|]. destruct f as [|c f]; [congruence|]. reflexivity.
  - rewrite orb_true_r. reflexivity.
  - destruct rn; [cbn in P1; lia|]. destruct f as [|c f]; [congruence|]. reflexivity.
  - destruct rn; [cbn in P1; lia|]. destruct cv; [cbn in P1; lia|]. reflexivity.
  - destruct rn; [cbn in P1; lia|]. destruct cv; [cbn in P1; lia|]. destruct ex; [cbn in P1; lia|]. destruct fd; [cbn in P1; lia|]. reflexivity.
  - reflexivity.
Qed.
Theorem clean_needs_run perform db a : a_clean a = true \/ a_clean_only a = true -> a_run a = None -> main perform db a = ([], Err RuntimeError).
Proof. unfold main. intros [H|H] R; rewrite H, R, ?orb_true_r; reflexivity. Qed.

Theorem from_db perform db a arg t r : parsed a -> a_from_db a = Some arg -> a_clean a = false -> a_clean_only a = false -> main perform db a = (t, r) ->
  (forall p, In p db -> exists n, json_file p n) -> forall name, asks_for arg name -> dotless name ->
  (exists p, In p db /\ json_file p name /\ follows perform [AExample (Some p)] (Ok tt) t r) \/
  ((forall p, In p db -> ~ json_file p name) /\ follows perform [AList] (Err SystemExit) t r).
Proof.
  intros [P _] F C1 C2 M DB name A D. destruct a as [rn cv ex ls fd cl co]. unfold main, dispatch in M.
  cbn [a_run a_cpacs2json a_make_example a_list a_from_db a_clean a_clean_only] in *. subst.
  destruct rn; [cbn in P; lia|]. destruct cv; [cbn in P; lia|]. destruct ex; [cbn in P; lia|]. cbn [orb given] in M.
  rewrite (stem_of_ask arg name A D) in M. unfold get_aircraft_file_path in M. destruct (find_path db name) as [p|e] eqn:E.
  - left. exists p. destruct (find_ok _ _ _ E) as [I S]. split; [exact I|]. split; [|apply seq_any; exact M].
    destruct (DB p I) as [n J]. assert (n = name) by (rewrite <- S; symmetry; apply stem_of_json, J). congruence.
  - right. destruct (find_err _ _ _ E) as [-> K]. split; [|apply seq_any; exact M].
    intros p I J. exact (K p I (stem_of_json _ _ J)).
Qed.
Theorem listed db n : (forall p, In p db -> exists n, json_file p n) -> (In n (list_aircraft_names db) <-> exists p, In p db /\ json_file p n).
Proof.
  intro DB. unfold list_aircraft_names. rewrite in_map_iff. split.
  - intros (p & <- & I). exists p. split; [exact I|]. destruct (DB p I) as [m J]. rewrite (stem_of_json _ _ J). exact J.
  - intros (p & I & J). exists p. split; [exact (stem_of_json _ _ J)|exact I].
Qed.
