(** Proofs about the text of JSON files. *)
From Coq Require Import List String Ascii ZArith QArith Bool Lia.
From Verif Require Import PyBase PyVal RunSpec TableModel TableSpec TableProofs JsonModel JsonSpec.
Import ListNotations.
Open Scope string_scope.

(** ** Strings *)
Lemma escape_char c t : characters (escape c ++ t) = more c (characters t).
Proof. destruct c as [[|] [|] [|] [|] [|] [|] [|] [|]]; reflexivity. Qed.
Lemma characters_escaped s t : characters (escaped s ++ String """" t) = Some (s, t).
Proof. induction s as [|c s IH]; [reflexivity|]. cbn [escaped]. rewrite app_assoc_s, escape_char, IH. reflexivity. Qed.

(** ** Numbers *)
Fixpoint numeric (s : string) : Prop := match s with EmptyString => True | String c r => number_char c = true /\ numeric r end.
Definition stop (r : string) : Prop := match r with EmptyString => True | String c _ => number_char c = false end.
Lemma span_app t r : numeric t -> stop r -> span (t ++ r) = (t, r).
Proof.
  intros N S. induction t as [|c t IH].
  - cbn [append]. destruct r as [|c r]; [reflexivity|]. cbn [span]. cbn in S. rewrite S. reflexivity.
  - destruct N as [C N]. cbn [append span]. rewrite C, (IH N). reflexivity.
Qed.
Lemma digit_number c d : digit c = Some d -> number_char c = true.
Proof. intros H. unfold number_char. rewrite H. reflexivity. Qed.
Lemma numeric_app a b : numeric a -> numeric b -> numeric (a ++ b).
Proof. intros A B. induction a as [|c a IH]; [exact B|]. destruct A as [C A]. split; [exact C|apply IH; exact A]. Qed.
Lemma scan_split s : forall a b r, scan a s = (b, r) -> exists ds, s = ds ++ r /\ numeric ds.
Proof.
  induction s as [|c s IH]; intros a b r H; cbn [scan] in H; [injection H as <- <-; exists ""; split; [reflexivity|exact I]|].
  destruct (digit c) as [d|] eqn:D; [|injection H as <- <-; exists ""; split; [reflexivity|exact I]].
  destruct (IH _ _ _ H) as (ds & -> & N). exists (String c ds). split; [reflexivity|]. split; [exact (digit_number c d D)|exact N].
Qed.
Lemma numeral_split a s b r : numeral a s = Some (b, r) -> exists c ds, s = String c ds ++ r /\ numeric (String c ds).
Proof.
  unfold numeral. destruct s as [|c s]; [discriminate|]. destruct (digit c) as [d|] eqn:D; [|discriminate]. intros H. injection H as H.
  cbn [scan] in H. rewrite D in H. destruct (scan_split _ _ _ _ H) as (ds & -> & N). exists c, ds. split; [reflexivity|]. split; [exact (digit_number c d D)|exact N].
Qed.
Lemma exponent_numeric s x : exponent s = Some x -> numeric s.
Proof.
  unfold exponent. destruct s as [|c s]; [intros _; exact I|]. destruct (Ascii.eqb c "e" || Ascii.eqb c "E")%bool eqn:E; [|discriminate]. intros H.
  assert (C : number_char c = true).
  { apply orb_true_iff in E. destruct E as [E|E]; apply Ascii.eqb_eq in E; subst c; reflexivity. }
  split; [exact C|]. destruct (signed s) as [sg r] eqn:G. destruct (numeral 0 r) as [[y t]|] eqn:N; [|discriminate]. destruct t; [|discriminate].
  destruct (numeral_split _ _ _ _ N) as (c' & ds & -> & M). rewrite app_nil_s in G. 
  unfold signed in G. destruct s as [|c0 s]; [exact I|]. apply (f_equal snd) in G.
  destruct c0 as [[|] [|] [|] [|] [|] [|] [|] [|]]; cbn [snd] in G; rewrite <- G in M; first [exact M|split; [reflexivity|exact M]].
Qed.
Lemma whole_split s a r : whole s = Some (a, r) -> exists c ds, s = String c ds ++ r /\ numeric (String c ds).
Proof.
  unfold whole. destruct s as [|c s]; [discriminate|]. intros H.
  destruct (Ascii.eqb_spec c "0") as [->|NE]; [injection H as <- <-; exists "0"%char, ""; split; [reflexivity|split; [reflexivity|exact I]]|].
  apply (numeral_split 0 (String c s) a r). destruct c as [[|] [|] [|] [|] [|] [|] [|] [|]]; try exact H; congruence.
Qed.
Lemma number_numeric nearest t v : number nearest t = Some v -> numeric t /\ t <> "" /\ t <> "-".
Proof.
  unfold number. destruct t as [|c t]; [discriminate|]. intros H.
  assert (W : forall sg r, match whole r with
      | None => None | Some (a, "") => Some (PInt (sg * a))
      | Some (a, String "." r1) => match numeral a r1 with None => None | Some (b, r2) => match exponent r2 with None => None | Some x => Some (PFlt (Some (nearest (inject_Z (sg * b) * 10 ^ (x - Z.of_nat (String.length r1 - String.length r2)))%Q))) end end
      | Some (a, r1) => match exponent r1 with None => None | Some x => Some (PFlt (Some (nearest (inject_Z (sg * a) * 10 ^ x)%Q))) end
      end = Some v -> numeric r /\ r <> "").
  { clear H. intros sg r H. destruct (whole r) as [[a r1]|] eqn:WH; [|discriminate H]. destruct (whole_split r a r1 WH) as (d & ds & -> & N). split; [|discriminate].
    apply numeric_app; [exact N|]. destruct r1 as [|c1 r1]; [exact I|].
    destruct (Ascii.eqb_spec c1 ".") as [->|NE].
    - split; [reflexivity|]. destruct (numeral a r1) as [[b r2]|] eqn:M; [|discriminate H]. destruct (numeral_split _ _ _ _ M) as (e & es & -> & N1).
      apply numeric_app; [exact N1|]. destruct (exponent r2) as [x|] eqn:X; [|discriminate H]. exact (exponent_numeric r2 x X).
    - assert (H' : match exponent (String c1 r1) with None => None | Some x => Some (PFlt (Some (nearest (inject_Z (sg * a) * 10 ^ x)%Q))) end = Some v)
        by (destruct c1 as [[|] [|] [|] [|] [|] [|] [|] [|]]; try exact H; congruence).
      destruct (exponent (String c1 r1)) as [x|] eqn:X; [|discriminate H']. exact (exponent_numeric _ x X). }
  destruct (Ascii.eqb_spec c "-") as [->|NE].
  - destruct (W (-1)%Z t H) as [N E]. split; [split; [reflexivity|exact N]|]. split; [discriminate|]. intros X. injection X as ->. apply E. reflexivity.
  - assert (H' := W 1%Z (String c t)). destruct H' as [N E]; [|split; [exact N|split; [discriminate|congruence]]].
    destruct c as [[|] [|] [|] [|] [|] [|] [|] [|]]; try exact H; congruence.
Qed.

(** Integers *)
Lemma scan_value r : forall a, all_digits r -> exists b, scan a r = (b, "") /\ (b < (a + 1) * 10 ^ Z.of_nat (String.length r))%Z.
Proof.
  induction r as [|c r IH]; intros a D; [exists a; split; [reflexivity|cbn; lia]|]. destruct D as [C D]. cbn [scan String.length]. destruct (digit c) as [d|] eqn:E; [|congruence].
  destruct (IH (10 * a + Z.of_nat d)%Z D) as (b & S & L). exists b. split; [exact S|]. rewrite Nat2Z.inj_succ, Z.pow_succ_r by lia.
  assert (d < 10)%nat. { unfold digit in E. destruct ((48 <=? nat_of_ascii c)%nat && (nat_of_ascii c <=? 57)%nat)%bool eqn:G; [|discriminate]. injection E as <-. apply andb_true_iff in G. destruct G as [G1 G2]. apply Nat.leb_le in G2. lia. }
  assert (0 < 10 ^ Z.of_nat (String.length r))%Z by (apply Z.pow_pos_nonneg; lia). nia.
Qed.
Lemma whole_dec n : (0 <= n)%Z -> whole (dec n) = Some (n, "") /\ exists c r, dec n = String c r /\ digit c <> None.
Proof.
  intros N. destruct (dec_numeral n N) as (c & r & E & D & S). destruct (dec_spec n N) as (A & _ & U & L & _). split; [|exists c, r; auto].
  rewrite E in *. destruct (Ascii.eqb_spec c "0") as [->|NE].
  - cbn [whole]. cbn [scan] in S. change (digit "0") with (Some 0%nat) in S. cbn iota in S. destruct A as [_ A]. destruct (scan_value r (10 * 0 + Z.of_nat 0) A) as (b & S' & B).
    rewrite S in S'. injection S' as <-. destruct L as [->|L].
    + destruct r as [|c r]; [reflexivity|]. exfalso. rewrite <- E in *. vm_compute in E. congruence.
    + exfalso. cbn [String.length] in L. replace (Z.of_nat (Datatypes.S (String.length r)) - 1)%Z with (Z.of_nat (String.length r)) in L by lia. lia.
  - transitivity (numeral 0 (String c r)).
    + unfold whole. destruct c as [[|] [|] [|] [|] [|] [|] [|] [|]]; try reflexivity; congruence.
    + unfold numeral. destruct (digit c); [rewrite S; reflexivity|congruence].
Qed.
Lemma number_int nearest z : number nearest (int_text z) = Some (PInt z).
Proof.
  unfold int_text. destruct (z <? 0)%Z eqn:E.
  - apply Z.ltb_lt in E. cbn [append number]. destruct (whole_dec (- z) ltac:(lia)) as [-> _]. f_equal. f_equal. lia.
  - apply Z.ltb_ge in E. destruct (whole_dec z E) as (W & c & r & D & DC). unfold number. rewrite D in *.
    assert (X : (match String c r with String "-" r0 => ((-1)%Z, r0) | _ => (1%Z, String c r) end) = (1%Z, String c r)).
    { destruct c as [[|] [|] [|] [|] [|] [|] [|] [|]]; try reflexivity; exfalso; apply DC; reflexivity. }
    rewrite X, W. f_equal. f_equal. lia.
Qed.

(** ** Layout *)
Lemma skip_spaces_ws n s : skip (spaces n ++ s) = skip s.
Proof. induction n as [|n IH]; [reflexivity|]. cbn. exact IH. Qed.
Lemma skip_newline n s : skip (newline n ++ s) = skip s.
Proof. unfold newline. cbn. apply skip_spaces_ws. Qed.
Definition begins (s : string) : Prop := match s with EmptyString => False | String c _ => is_ws c = false /\ c <> "]"%char end.
Lemma begins_skip s t : begins s -> skip (s ++ t) = s ++ t.
Proof. destruct s as [|c s]; intros B; [destruct B|]. destruct B as [W _]. cbn [append skip]. rewrite W. reflexivity. Qed.
Lemma begins_app s t : begins s -> begins (s ++ t).
Proof. destruct s; [intros []|exact (fun H => H)]. Qed.
Lemma numeric_begins t : numeric t -> t <> "" -> begins t.
Proof.
  destruct t as [|c t]; [congruence|]. intros [C _] _. split; [|intros ->; discriminate C].
  destruct c as [[|] [|] [|] [|] [|] [|] [|] [|]]; try reflexivity; discriminate C.
Qed.

Section Read.
Variable repr : Q -> string.
Variable nearest : Q -> Q.
Variable double : Q -> Prop.
Hypothesis repr_ok : forall q, double q -> number nearest (repr q) = Some (PFlt (Some q)).
Variable python : bool.

Lemma literal_number t r v : number nearest t = Some v -> stop r -> literal python nearest (t ++ r) = Some (v, r).
Proof.
  intros H S. destruct (number_numeric _ _ _ H) as (N & E & M). unfold literal.
  destruct t as [|c t]; [congruence|]. destruct N as [C N].
  assert (A : forall p, In p ["null"; "true"; "false"; "NaN"; "Infinity"] -> after p (String c t ++ r) = None).
  { intros p P. assert (Q : exists d p', p = String d p' /\ number_char d = false) by (repeat destruct P as [<-|P]; try (eexists _, _; split; reflexivity); destruct P).
    destruct Q as (d & p' & -> & Q). cbn [append after]. destruct (Ascii.eqb_spec d c) as [->|_]; [congruence|reflexivity]. }
  rewrite !A by (cbn; tauto).
  assert (B : after "-Infinity" (String c t ++ r) = None).
  { cbn [append after]. destruct (Ascii.eqb_spec "-" c) as [<-|_]; [|reflexivity]. destruct t as [|d t]; [congruence|]. destruct N as [D _]. cbn [append after].
    destruct (Ascii.eqb_spec "I" d) as [<-|_]; [discriminate D|reflexivity]. }
  rewrite B. rewrite span_app by (try exact S; split; assumption). rewrite H. destruct python; reflexivity.
Qed.
Lemma value_number f t r v : number nearest t = Some v -> stop r -> value python nearest (S f) (t ++ r) = Some (v, r).
Proof.
  intros H S. pose proof (literal_number t r v H S) as L. destruct (number_numeric _ _ _ H) as (N & E & _). destruct t as [|c t]; [congruence|]. destruct N as [C _].
  cbn [append value] in *. destruct c as [[|] [|] [|] [|] [|] [|] [|] [|]]; try discriminate C; exact L.
Qed.

Definition go_list (level : nat) : list pyval -> res (list string) :=
  fix go l := match l with [] => Ok [] | x :: l' => let? t := text repr (S level) x in let? ts := go l' in Ok (t :: ts) end.
Definition go_dict (level : nat) : list (string * pyval) -> res (list string) :=
  fix go d := match d with [] => Ok [] | kx :: d' => let? t := text repr (S level) (snd kx) in let? ts := go d' in Ok ((quote (fst kx) ++ ": " ++ t) :: ts) end.
Lemma go_list_F2 level l : forall parts, go_list level l = Ok parts -> Forall2 (fun x t => text repr (S level) x = Ok t) l parts.
Proof.
  induction l as [|x l IH]; intros parts H; cbn in H; [injection H as <-; constructor|]. destruct (text repr (S level) x) as [t|] eqn:E; [|discriminate]. cbn [bind] in H.
  fold (go_list level) in H. destruct (go_list level l) as [ts|]; [|discriminate]. cbn [bind] in H. injection H as <-. constructor; [exact E|apply IH; reflexivity].
Qed.
Lemma go_dict_F2 level d : forall parts, go_dict level d = Ok parts ->
  Forall2 (fun kx p => exists t, text repr (S level) (snd kx) = Ok t /\ p = quote (fst kx) ++ ": " ++ t) d parts.
Proof.
  induction d as [|x d IH]; intros parts H; cbn in H; [injection H as <-; constructor|]. destruct (text repr (S level) (snd x)) as [t|] eqn:E; [|discriminate]. cbn [bind] in H.
  fold (go_dict level) in H. destruct (go_dict level d) as [ts|]; [|discriminate]. cbn [bind] in H. injection H as <-. constructor; [exists t; auto|apply IH; reflexivity].
Qed.

Definition ok (v : pyval) : Prop := forall level t, text repr level v = Ok t -> writable double python v ->
  begins t /\ forall f r, stop r -> (String.length t < f)%nat -> value python nearest f (t ++ r) = Some (v, r).

Lemma newline_length n : (1 <= String.length (newline n))%nat.
Proof. unfold newline. cbn. lia. Qed.
Lemma elements_ok sep close level l parts : close = newline level ++ "]" -> (exists n, sep = "," ++ newline n) ->
  Forall2 (fun x t => begins t /\ forall f r, stop r -> (String.length t < f)%nat -> value python nearest f (t ++ r) = Some (x, r)) l parts -> l <> [] ->
  begins (String.concat sep parts) /\
  forall f r, (String.length (String.concat sep parts ++ close) < f)%nat -> elements python nearest f (String.concat sep parts ++ close ++ r) = Some (l, r).
Proof.
  intros -> (n & ->). intros F. induction F as [|x t l parts [B V] F IH]; [congruence|]. intros _.
  destruct F as [|x' t' l parts P F].
  - cbn [String.concat]. split; [exact B|]. intros f r L. destruct f as [|f]; [lia|]. cbn [elements]. rewrite !app_length_s in L. pose proof (newline_length level).
    rewrite app_assoc_s. rewrite V; [|reflexivity|cbn [String.length] in L; lia]. rewrite skip_newline. reflexivity.
  - destruct IH as [B' IH]; [discriminate|]. change (String.concat ("," ++ newline n) (t :: t' :: parts)) with (t ++ ("," ++ newline n) ++ String.concat ("," ++ newline n) (t' :: parts)).
    set (rest := String.concat ("," ++ newline n) (t' :: parts)) in *. split; [apply begins_app; exact B|]. intros f r L. destruct f as [|f]; [lia|]. cbn [elements].
    rewrite !app_length_s in L. cbn [String.length] in L. rewrite !app_assoc_s. rewrite V; [|reflexivity|lia].
    cbn [append skip]. change (is_ws ",") with false. cbn iota. rewrite skip_newline, begins_skip by exact B'.
    specialize (IH f r). rewrite app_length_s, !app_assoc_s in IH. cbn [append] in IH. rewrite IH; [reflexivity|]. rewrite app_length_s. cbn [String.length]. lia.
Qed.
Lemma member_step f k u : members python nearest (S f) (String """" (escaped k ++ String """" (": " ++ u))) =
  match value python nearest f (skip u) with
  | None => None
  | Some (v, r3) =>
    match skip r3 with
    | String "}" r' => Some ([(k, v)], r')
    | String "," r' => match members python nearest f (skip r') with Some (l, r'') => Some ((k, v) :: l, r'') | None => None end
    | _ => None
    end
  end.
Proof. cbn [members]. rewrite characters_escaped. reflexivity. Qed.
Lemma members_ok sep close level (l : list (string * pyval)) parts : close = newline level ++ "}" -> (exists n, sep = "," ++ newline n) ->
  Forall2 (fun kx p => exists t, p = quote (fst kx) ++ ": " ++ t /\ begins t /\ forall f r, stop r -> (String.length t < f)%nat -> value python nearest f (t ++ r) = Some (snd kx, r)) l parts -> l <> [] ->
  begins (String.concat sep parts) /\ (exists s, String.concat sep parts = String """" s) /\
  forall f r, (String.length (String.concat sep parts ++ close) < f)%nat -> members python nearest f (String.concat sep parts ++ close ++ r) = Some (l, r).
Proof.
  intros -> (n & ->). intros F. induction F as [|[k x] p l parts (t & -> & B & V) F IH]; [congruence|]. intros _. cbn [fst snd] in *.
  assert (Q : forall u, (quote k ++ ": " ++ t) ++ u = String """" (escaped k ++ String """" (": " ++ t ++ u))).
  { intros u. unfold quote. cbn [append]. rewrite !app_assoc_s. reflexivity. }
  assert (QL : String.length (quote k ++ ": " ++ t) = (String.length (escaped k) + 4 + String.length t)%nat).
  { unfold quote. rewrite !app_length_s. cbn [String.length]. lia. }
  destruct F as [|x' p' l parts P F].
  - cbn [String.concat]. rewrite <- (app_nil_s (quote k ++ ": " ++ t)) at 1. rewrite Q. split; [split; [reflexivity|discriminate]|].
    split; [rewrite <- (app_nil_s (quote k ++ ": " ++ t)), Q; eexists; reflexivity|].
    intros f r L. destruct f as [|f]; [lia|]. rewrite app_length_s, QL, app_length_s in L. pose proof (newline_length level). rewrite Q, member_step.
    rewrite begins_skip by exact B. rewrite V; [|reflexivity|cbn [String.length] in L; lia]. rewrite app_assoc_s, skip_newline. reflexivity.
  - destruct IH as (B' & (s' & S') & IH); [discriminate|].
    change (String.concat ("," ++ newline n) ((quote k ++ ": " ++ t) :: p' :: parts)) with ((quote k ++ ": " ++ t) ++ ("," ++ newline n) ++ String.concat ("," ++ newline n) (p' :: parts)).
    set (rest := String.concat ("," ++ newline n) (p' :: parts)) in *. split; [rewrite Q; split; [reflexivity|discriminate]|]. split; [rewrite Q; eexists; reflexivity|].
    intros f r L. destruct f as [|f]; [lia|]. rewrite app_length_s, (app_length_s (quote k ++ ": " ++ t)), QL, !app_length_s in L. cbn [String.length] in L.
    transitivity (members python nearest (S f) ((quote k ++ ": " ++ t) ++ "," ++ newline n ++ rest ++ (newline level ++ "}") ++ r)); [f_equal; rewrite !app_assoc_s; reflexivity|].
    rewrite Q, member_step. rewrite begins_skip by exact B. rewrite V; [|reflexivity|lia].
    change (skip ("," ++ newline n ++ rest ++ (newline level ++ "}") ++ r)) with (String "," (newline n ++ rest ++ (newline level ++ "}") ++ r)). cbn iota.
    rewrite skip_newline, begins_skip by exact B'. rewrite IH; [reflexivity|]. rewrite !app_length_s. cbn [String.length]. lia.
Qed.

Lemma all_ok v : ok v.
Proof.
  induction v as [|b|z|x|s|s|l H|d H] using pyval_rect_nested; intros level t T W.
  - injection T as <-. split; [split; [reflexivity|discriminate]|]. intros f r S L. destruct f as [|f]; [lia|]. reflexivity.
  - cbn [text] in T. destruct b; injection T as <-; (split; [split; [reflexivity|discriminate]|]); intros f r S L; (destruct f as [|f]; [lia|]); reflexivity.
  - injection T as <-. pose proof (number_int nearest z) as N. destruct (number_numeric _ _ _ N) as (A & B & _). split; [apply numeric_begins; assumption|].
    intros f r S L. destruct f as [|f]; [lia|]. apply value_number; assumption.
  - destruct x as [q|].
    + assert (D : double q) by (inversion W; assumption). cbn in T. injection T as <-. pose proof (repr_ok q D) as N. destruct (number_numeric _ _ _ N) as (A & B & _). split; [apply numeric_begins; assumption|].
      intros f r S L. destruct f as [|f]; [lia|]. apply value_number; assumption.
    + assert (P : python = true) by (inversion W; assumption). cbn in T. injection T as <-. split; [split; [reflexivity|discriminate]|]. intros f r S L. destruct f as [|f]; [lia|]. cbn [append value]. unfold literal. rewrite P. reflexivity.
  - injection T as <-. unfold quote. split; [split; [reflexivity|discriminate]|]. intros f r S L. destruct f as [|f]; [lia|]. cbn [append value]. rewrite app_assoc_s. cbn [append].
    rewrite characters_escaped. reflexivity.
  - discriminate T.
  - cbn [text] in T. fold (go_list level) in T. destruct (go_list level l) as [parts|] eqn:G; [|discriminate T]. cbn [bind] in T. pose proof (go_list_F2 _ _ _ G) as F.
    destruct l as [|x0 l0].
    { inversion F; subst. injection T as <-. split; [split; [reflexivity|discriminate]|]. intros f r S L. destruct f as [|f]; [lia|]. reflexivity. }
    assert (WL : forall x, In x (x0 :: l0) -> writable double python x) by (inversion W; assumption).
    destruct parts as [|p0 ps]; [inversion F|].
    assert (T' : t = "[" ++ newline (S level) ++ String.concat ("," ++ newline (S level)) (p0 :: ps) ++ newline level ++ "]") by congruence. clear T. subst t.
    destruct (elements_ok ("," ++ newline (S level)) (newline level ++ "]") level (x0 :: l0) (p0 :: ps) eq_refl (ex_intro _ _ eq_refl)) as [B E]; [|discriminate|].
    { clear G. revert F. generalize (p0 :: ps). revert H WL. generalize (x0 :: l0). clear. intros l H WL. induction l as [|x l IH]; intros parts F; inversion F; subst; [constructor|].
      inversion H; subst. constructor; [|apply IH; auto; intros ? YY; apply WL; right; exact YY].
      match goal with O : ok x |- _ => destruct (O (S level) _ ltac:(eassumption) (WL x (or_introl eq_refl))) as [B V] end. split; assumption. }
    set (body := String.concat ("," ++ newline (S level)) (p0 :: ps)) in *. split; [split; [reflexivity|discriminate]|].
    intros f r S L. destruct f as [|f]; [lia|]. rewrite !app_length_s in L. cbn [String.length] in L. pose proof (newline_length (Datatypes.S level)).
    replace (("[" ++ newline (Datatypes.S level) ++ body ++ newline level ++ "]") ++ r) with (String "[" (newline (Datatypes.S level) ++ body ++ (newline level ++ "]") ++ r)) by (cbn [append]; rewrite !app_assoc_s; reflexivity).
    cbn [value]. rewrite skip_newline, begins_skip by exact B.
    specialize (E f r). rewrite !app_length_s in E. cbn [String.length] in E. specialize (E ltac:(lia)).
    destruct body as [|c body]; [destruct B|]. destruct B as [_ NB]. cbn [append] in E |- *.
    transitivity (match elements python nearest f (String c (body ++ (newline level ++ "]") ++ r)) with Some (l, r'') => Some (PList l, r'') | None => None end);
      [destruct c as [[|] [|] [|] [|] [|] [|] [|] [|]]; try reflexivity; congruence|]. rewrite E. reflexivity.
  - cbn [text] in T. fold (go_dict level) in T. destruct (go_dict level d) as [parts|] eqn:G; [|discriminate T]. cbn [bind] in T. pose proof (go_dict_F2 _ _ _ G) as F.
    destruct d as [|x0 l0].
    { inversion F; subst. injection T as <-. split; [split; [reflexivity|discriminate]|]. intros f r S L. destruct f as [|f]; [lia|]. reflexivity. }
    assert (WL : forall k x, In (k, x) (x0 :: l0) -> writable double python x) by (inversion W; assumption).
    destruct parts as [|p0 ps]; [inversion F|].
    assert (T' : t = "{" ++ newline (S level) ++ String.concat ("," ++ newline (S level)) (p0 :: ps) ++ newline level ++ "}") by congruence. clear T. subst t.
    destruct (members_ok ("," ++ newline (S level)) (newline level ++ "}") level (x0 :: l0) (p0 :: ps) eq_refl (ex_intro _ _ eq_refl)) as (B & (s & BS) & E); [|discriminate|].
    { clear G. revert F. generalize (p0 :: ps). revert H WL. generalize (x0 :: l0). clear. intros l H WL. induction l as [|[k x] l IH]; intros parts F; inversion F; subst; [constructor|].
      inversion H; subst. cbn [snd fst] in *. constructor; [|apply IH; auto; intros ? ? YY; eapply WL; right; exact YY].
      match goal with O : ok x, X : exists t, _ |- _ => destruct X as (t & TX & ->); destruct (O (S level) _ TX (WL k x (or_introl eq_refl))) as [B V] end. exists t. auto. }
    set (body := String.concat ("," ++ newline (S level)) (p0 :: ps)) in *. split; [split; [reflexivity|discriminate]|].
    intros f r S L. destruct f as [|f]; [lia|]. rewrite !app_length_s in L. cbn [String.length] in L. pose proof (newline_length (Datatypes.S level)).
    replace (("{" ++ newline (Datatypes.S level) ++ body ++ newline level ++ "}") ++ r) with (String "{" (newline (Datatypes.S level) ++ body ++ (newline level ++ "}") ++ r)) by (cbn [append]; rewrite !app_assoc_s; reflexivity).
    cbn [value]. rewrite skip_newline, begins_skip by exact B.
    specialize (E f r). rewrite !app_length_s in E. cbn [String.length] in E. specialize (E ltac:(lia)). rewrite BS in E |- *. cbn [append] in E |- *.
    transitivity (match members python nearest f (String """" (s ++ (newline level ++ "}") ++ r)) with Some (l, r'') => Some (PDict l, r'') | None => None end); [reflexivity|]. rewrite E. reflexivity.
Qed.
End Read.

(** ** Which values can be written *)
Lemma go_list_ok repr level l : (forall x, In x l -> exists t, text repr (S level) x = Ok t) -> exists ts, go_list repr level l = Ok ts.
Proof.
  induction l as [|x l IH]; intros H; [exists []; reflexivity|]. destruct (H x (or_introl eq_refl)) as (t & E). destruct IH as (ts & G); [intros y Y; apply H; right; exact Y|].
  exists (t :: ts). cbn. fold (go_list repr level). rewrite E, G. reflexivity.
Qed.
Lemma go_dict_ok repr level d : (forall k x, In (k, x) d -> exists t, text repr (S level) x = Ok t) -> exists ts, go_dict repr level d = Ok ts.
Proof.
  induction d as [|[k x] l IH]; intros H; [exists []; reflexivity|]. destruct (H k x (or_introl eq_refl)) as (t & E). destruct IH as (ts & G); [intros y z Y; apply (H y); right; exact Y|].
  eexists (_ :: ts). cbn. fold (go_dict repr level). rewrite E, G. reflexivity.
Qed.
Lemma go_list_err repr level l : (forall x e, In x l -> text repr (S level) x = Err e -> e = TypeError) -> (exists x e, In x l /\ text repr (S level) x = Err e) -> go_list repr level l = Err TypeError.
Proof.
  induction l as [|x l IH]; intros A (y & e & Y & E); [destruct Y|]. cbn. fold (go_list repr level). destruct (text repr (S level) x) as [t|e'] eqn:T; cbn [bind].
  - destruct Y as [->|Y]; [congruence|]. rewrite IH; [reflexivity| |exists y, e; auto]. intros z e0 Z; apply A; right; exact Z.
  - f_equal. apply (A x e'); [left; reflexivity|exact T].
Qed.
Lemma go_dict_err repr level d : (forall k x e, In (k, x) d -> text repr (S level) x = Err e -> e = TypeError) -> (exists k x e, In (k, x) d /\ text repr (S level) x = Err e) -> go_dict repr level d = Err TypeError.
Proof.
  induction d as [|[k x] l IH]; intros A (k' & y & e & Y & E); [destruct Y|]. cbn. fold (go_dict repr level). destruct (text repr (S level) x) as [t|e'] eqn:T; cbn [bind].
  - destruct Y as [Y|Y]; [congruence|]. rewrite IH; [reflexivity| |exists k', y, e; auto]. intros z z' e0 Z; apply (A z); right; exact Z.
  - f_equal. apply (A k x e'); [left; reflexivity|exact T].
Qed.
Lemma text_cases repr v : forall level, (has_path v /\ text repr level v = Err TypeError) \/ (~ has_path v /\ exists t, text repr level v = Ok t).
Proof.
  induction v as [|b|z|x|s|s|l H|d H] using pyval_rect_nested; intros level.
  - right. split; [intros P; inversion P|eexists; reflexivity].
  - right. split; [intros P; inversion P|destruct b; eexists; reflexivity].
  - right. split; [intros P; inversion P|eexists; reflexivity].
  - right. split; [intros P; inversion P|destruct x; eexists; reflexivity].
  - right. split; [intros P; inversion P|eexists; reflexivity].
  - left. split; [constructor|reflexivity].
  - cbn [text]. fold (go_list repr level).
    assert (X : (exists x, In x l /\ has_path x /\ text repr (S level) x = Err TypeError) \/ (forall x, In x l -> ~ has_path x /\ exists t, text repr (S level) x = Ok t)).
    { induction H as [|x l P H IH]; [right; intros x []|]. destruct (P (S level)) as [P'|P']; [left; exists x; split; [left; reflexivity|exact P']|].
      destruct IH as [(y & Y & Z)|IH]; [left; exists y; split; [right; exact Y|exact Z]|right]. intros y [<-|Y]; [exact P'|apply IH; exact Y]. }
    destruct X as [(x & I & P & E)|X].
    + left. split; [apply (p_list l x I P)|]. rewrite go_list_err; [reflexivity| |exists x, TypeError; auto]. intros y e Y T. rewrite Forall_forall in H.
      destruct (H y Y (S level)) as [[_ T']|[_ (t & T')]]; rewrite T' in T; congruence.
    + right. split; [intros P; inversion P as [|l' x I P'|]; subst; destruct (X x I) as [N _]; exact (N P')|].
      destruct (go_list_ok repr level l) as (ts & ->); [intros x I; apply X; exact I|]. cbn [bind]. destruct ts; eexists; reflexivity.
  - cbn [text]. fold (go_dict repr level).
    assert (X : (exists k x, In (k, x) d /\ has_path x /\ text repr (S level) x = Err TypeError) \/ (forall k x, In (k, x) d -> ~ has_path x /\ exists t, text repr (S level) x = Ok t)).
    { induction H as [|[k x] l P H IH]; [right; intros k x []|]. cbn [snd] in P. destruct (P (S level)) as [P'|P']; [left; exists k, x; split; [left; reflexivity|exact P']|].
      destruct IH as [(y & z & Y & Z)|IH]; [left; exists y, z; split; [right; exact Y|exact Z]|right]. intros y z [Y|Y]; [injection Y as <- <-; exact P'|apply (IH y); exact Y]. }
    destruct X as [(k & x & I & P & E)|X].
    + left. split; [apply (p_dict d k x I P)|]. rewrite go_dict_err; [reflexivity| |exists k, x, TypeError; auto]. intros k' y e Y T. rewrite Forall_forall in H.
      destruct (H (k', y) Y (S level)) as [[_ T']|[_ (t & T')]]; cbn [snd] in T'; rewrite T' in T; congruence.
    + right. split; [intros P; inversion P as [| |d' k x I P']; subst; destruct (X k x I) as [N _]; exact (N P')|].
      destruct (go_dict_ok repr level d) as (ts & ->); [intros k x I; apply (X k); exact I|]. cbn [bind]. destruct ts; eexists; reflexivity.
Qed.
Lemma path_refused repr v : dump_pretty_json repr v = Err TypeError <-> has_path v.
Proof. unfold dump_pretty_json. destruct (text_cases repr v 0) as [[P E]|[P (t & E)]]; rewrite E; split; intros H; try congruence; try tauto. Qed.
Lemma pathless_written repr v : ~ has_path v -> exists t, dump_pretty_json repr v = Ok t.
Proof. unfold dump_pretty_json. destruct (text_cases repr v 0) as [[P E]|[P X]]; [tauto|auto]. Qed.
Lemma writable_pathless double nan v : writable double nan v -> ~ has_path v.
Proof.
  intros W P. induction P as [s|l x I P IH|d k x I P IH]; [inversion W| |]; apply IH; inversion W; subst; eauto.
Qed.

Lemma written_read repr nearest (double : Q -> Prop) python v : (forall q, double q -> number nearest (repr q) = Some (PFlt (Some q))) -> writable double python v ->
  exists t, dump_pretty_json repr v = Ok t /\ read_json python nearest t = Some v.
Proof.
  intros R W. destruct (pathless_written repr v (writable_pathless _ _ _ W)) as (t & T). exists t. split; [exact T|]. unfold read_json.
  destruct (all_ok repr nearest double R python v 0%nat t T W) as [B V]. specialize (V (S (String.length t)) ""). rewrite app_nil_s in V.
  rewrite <- (app_nil_s t) at 2. rewrite begins_skip by exact B. rewrite app_nil_s. rewrite V; [reflexivity|exact I|lia].
Qed.

(** The text agrees with the values that [PyVal.dump] lets through. *)
Lemma jsonable_path v : jsonable v = true <-> ~ has_path v.
Proof.
  induction v as [|b|z|x|s|s|l H|d H] using pyval_rect_nested; try (split; [intros _ P; inversion P|reflexivity]).
  - split; [discriminate|intros P; exfalso; apply P; constructor].
  - cbn [jsonable]. split.
    + intros J P. inversion P as [|l' x I P'|]; subst. induction H as [|y l E H IH]; [destruct I|]. apply andb_true_iff in J. destruct J as [J1 J2].
      destruct I as [->|I]; [apply E in J1; exact (J1 P')|]. apply IH; [exact J2|apply (p_list l x I P')|exact I].
    + intros N. induction H as [|y l E H IH]; [reflexivity|]. apply andb_true_iff. split; [apply E; intros P; apply N; apply (p_list (y :: l) y (or_introl eq_refl) P)|].
      apply IH. intros P. inversion P as [|l' x I P'|]; subst. apply N. apply (p_list (y :: l) x (or_intror I) P').
  - cbn [jsonable]. split.
    + intros J P. inversion P as [| |l' k x I P']; subst. induction H as [|y l E H IH]; [destruct I|]. apply andb_true_iff in J. destruct J as [J1 J2].
      destruct I as [->|I]; [apply E in J1; exact (J1 P')|]. apply IH; [exact J2|apply (p_dict l k x I P')|exact I].
    + intros N. induction H as [|[k y] l E H IH]; [reflexivity|]. apply andb_true_iff. split; [apply E; intros P; apply N; apply (p_dict ((k, y) :: l) k y (or_introl eq_refl) P)|].
      apply IH. intros P. inversion P as [| |l' k' x I P']; subst. apply N. apply (p_dict ((k, y) :: l) k' x (or_intror I) P').
Qed.
Lemma dump_same repr v : (exists t, dump_pretty_json repr v = Ok t) <-> dump v = Ok v.
Proof.
  unfold dump. destruct (jsonable v) eqn:J.
  - apply jsonable_path in J. split; [reflexivity|intros _; apply pathless_written; exact J].
  - split; [|discriminate]. intros (t & T). exfalso. destruct (text_cases repr v 0) as [[P E]|[P _]]; [unfold dump_pretty_json in T; congruence|].
    apply jsonable_path in P. congruence.
Qed.

(** ** The files with results *)
Lemma global_read repr nearest (double : Q -> Prop) python aero refs forces coeffs :
  (forall q, double q -> number nearest (repr q) = Some (PFlt (Some q))) ->
  (forall d k v, In d [aero; refs; forces; coeffs] -> In (k, v) d -> writable double python v) ->
  exists t d, save_glob_results repr aero refs forces coeffs = Ok t /\ read_json python nearest t = Some (PDict d) /\
    entry d "aero" = Some (PDict aero) /\ entry d "refs" = Some (PDict refs) /\
    entry d "global_forces" = Some (PDict forces) /\ entry d "global_coeffs" = Some (PDict coeffs).
Proof.
  intros R W. unfold save_glob_results. edestruct (written_read repr nearest double python) as (t & T & X); [exact R| |exists t; eexists; split; [exact T|split; [exact X|repeat split]]].
  assert (A : forall d, In d [aero; refs; forces; coeffs] -> writable double python (PDict d)) by (intros d I; constructor; intros k x K; exact (W d k x I K)).
  constructor. intros k x I. cbn [In] in I. decompose [or] I; try tauto; match goal with E : (_, _) = (k, x) |- _ => injection E as <- <- end; apply A; cbn; tauto.
Qed.
Lemma dget_entry (d : dict pyval) k : entry d k = dget d k.
Proof. unfold entry. induction d as [|[k' v] d IH]; [reflexivity|]. cbn [find dget fst]. rewrite String.eqb_sym. destruct (String.eqb k k'); [reflexivity|exact IH]. Qed.
Lemma dget_put (d : dict pyval) k v k' : dget (dset d k v) k' = if String.eqb k' k then Some v else dget d k'.
Proof.
  induction d as [|[a x] d IH]; cbn [dset dget]; [reflexivity|]. destruct (String.eqb_spec k a) as [->|N]; cbn [dget].
  - destruct (String.eqb k' a); reflexivity.
  - rewrite IH. destruct (String.eqb_spec k' a) as [->|]; [|reflexivity]. destruct (String.eqb_spec a k); [congruence|reflexivity].
Qed.
Lemma put_read d : forall o, NoDup (map fst d) -> (forall k v, In (k, v) d -> column v <> None) ->
  exists o', put_columns o d = Ok o' /\ forall k, dget o' k = match dget d k with Some v => column v | None => dget o k end.
Proof.
  induction d as [|[k v] d IH]; intros o N C; [exists o; split; reflexivity|]. inversion N as [|? ? NI ND]; subst.
  assert (L : exists l, list_of v = Ok l /\ column v = Some l).
  { specialize (C k v (or_introl eq_refl)). destruct v; try (exfalso; apply C; reflexivity); eexists; split; reflexivity. }
  destruct L as (l & L & CL). destruct (IH (dset o k l) ND) as (o' & P & G); [intros k' v' I; apply (C k'); right; exact I|].
  exists o'. split; [cbn; rewrite L; exact P|]. intros k'. rewrite G, dget_put. cbn [dget]. destruct (String.eqb_spec k' k) as [->|NE]; [|reflexivity].
  replace (dget d k) with (@None pyval); [symmetry; exact CL|]. symmetry. clear - NI. cbn [fst] in NI. induction d as [|[a x] d IH]; [reflexivity|]. cbn [dget]. destruct (String.eqb_spec k a) as [->|]; [exfalso; apply NI; left; reflexivity|apply IH; intros I; apply NI; right; exact I].
Qed.
Lemma put_writable double nan d : forall o o', (forall k v, In (k, v) d -> writable double nan v) -> writable double nan (PDict o) -> put_columns o d = Ok o' -> writable double nan (PDict o').
Proof.
  induction d as [|[k v] d IH]; intros o o' W O P; [injection P as <-; exact O|]. cbn in P. destruct (list_of v) as [l|] eqn:L; [|discriminate]. cbn [bind] in P.
  apply (IH (dset o k l)); [intros k' v' I; apply (W k'); right; exact I| |exact P].
  assert (WL : writable double nan l).
  { specialize (W k v (or_introl eq_refl)). destruct v; try discriminate L; injection L as <-; try (constructor; intros ? []; fail); try exact W;
      constructor; intros x I; apply in_map_iff in I; destruct I as (? & <- & _); constructor. }
  inversion O as [| | | | | | |o0 WO]; subst. constructor. clear - WO WL. intros a x I. induction o as [|[b y] o IHo]; cbn [dset] in I.
  - destruct I as [I|[]]. injection I as <- <-. exact WL.
  - destruct (String.eqb k b); destruct I as [I|I].
    + injection I as <- <-. exact WL.
    + apply (WO a). right. exact I.
    + apply (WO a). left. exact I.
    + apply IHo; [intros c z Z; apply (WO c); right; exact Z|exact I].
Qed.
Lemma map_read repr nearest (double : Q -> Prop) python aero results :
  (forall q, double q -> number nearest (repr q) = Some (PFlt (Some q))) ->
  (forall d, In d [aero; results] -> NoDup (map fst d)) ->
  (forall d k v, In d [aero; results] -> In (k, v) d -> writable double python v /\ column v <> None) ->
  exists t d, save_aeroperformance_map repr aero results = Ok t /\ read_json python nearest t = Some (PDict d) /\
    forall k, entry d k = match entry results k, entry aero k with
      | Some v, _ => column v
      | None, Some v => column v
      | None, None => None
      end.
Proof.
  intros R N W. destruct (put_read aero [] (N aero ltac:(cbn; tauto))) as (o1 & P1 & G1); [intros k v I; apply (W aero k v ltac:(cbn; tauto) I)|].
  destruct (put_read results o1 (N results ltac:(cbn; tauto))) as (o2 & P2 & G2); [intros k v I; apply (W results k v ltac:(cbn; tauto) I)|].
  assert (W1 : writable double python (PDict o1)).
  { apply (put_writable double python aero [] o1); [intros k v I; apply (W aero k v ltac:(cbn; tauto) I)|constructor; intros ? ? []|exact P1]. }
  assert (W2 : writable double python (PDict o2)).
  { apply (put_writable double python results o1 o2); [intros k v I; apply (W results k v ltac:(cbn; tauto) I)|exact W1|exact P2]. }
  destruct (written_read repr nearest double python (PDict o2) R W2) as (t & T & X). exists t, o2. unfold save_aeroperformance_map. rewrite P1. cbn [bind]. rewrite P2. cbn [bind].
  split; [exact T|]. split; [exact X|]. intros k. rewrite !dget_entry, G2, G1. destruct (dget results k); [reflexivity|]. destruct (dget aero k); reflexivity.
Qed.

(** ** ASCII *)
Lemma plain_app a b : plain a -> plain b -> plain (a ++ b).
Proof. intros A B. induction a as [|c a IH]; [exact B|]. destruct A as [C A]. split; [exact C|apply IH; exact A]. Qed.
Lemma plain_char c t : (Nat.eqb (nat_of_ascii c) 10 || (Nat.leb 32 (nat_of_ascii c) && Nat.leb (nat_of_ascii c) 126))%bool = true -> plain t -> plain (String c t).
Proof. intros H T. split; [|exact T]. apply orb_true_iff in H. destruct H as [H|H]; [left; apply Nat.eqb_eq; exact H|right]. apply andb_true_iff in H. destruct H as [A B]. apply Nat.leb_le in A, B. lia. Qed.
Fixpoint plainb (s : string) : bool :=
  match s with EmptyString => true | String c r => (Nat.eqb (nat_of_ascii c) 10 || (Nat.leb 32 (nat_of_ascii c) && Nat.leb (nat_of_ascii c) 126)) && plainb r end.
Lemma plainb_plain s : plainb s = true -> plain s.
Proof. induction s as [|c s IH]; [intros _; exact I|]. cbn [plainb]. intros H. apply andb_true_iff in H. destruct H as [H1 H2]. apply plain_char; [exact H1|exact (IH H2)]. Qed.
Lemma plain_escape c : plain (escape c).
Proof. apply plainb_plain. destruct c as [[|] [|] [|] [|] [|] [|] [|] [|]]; vm_compute; reflexivity. Qed.
Lemma plain_escaped s : plain (escaped s).
Proof. induction s as [|c s IH]; [exact I|]. cbn [escaped]. apply plain_app; [apply plain_escape|exact IH]. Qed.
Lemma plain_quote s : plain (quote s).
Proof. unfold quote. apply plain_app; [apply plain_char; [reflexivity|exact I]|]. apply plain_app; [apply plain_escaped|apply plain_char; [reflexivity|exact I]]. Qed.
Lemma plain_spaces n : plain (spaces n).
Proof. induction n as [|n IH]; [exact I|]. apply plain_char; [reflexivity|exact IH]. Qed.
Lemma plain_newline n : plain (newline n).
Proof. unfold newline. apply plain_char; [reflexivity|apply plain_spaces]. Qed.
Lemma plain_digits s : all_digits s -> plain s.
Proof.
  induction s as [|c s IH]; intros D; [exact I|]. destruct D as [C D]. split; [|exact (IH D)]. right. unfold digit in C.
  destruct ((48 <=? nat_of_ascii c)%nat && (nat_of_ascii c <=? 57)%nat)%bool eqn:E; [|congruence]. apply andb_true_iff in E. destruct E as [A B]. apply Nat.leb_le in A, B. lia.
Qed.
Lemma plain_int z : plain (int_text z).
Proof.
  unfold int_text. destruct (z <? 0)%Z eqn:E.
  - apply Z.ltb_lt in E. apply plain_app; [apply plain_char; [reflexivity|exact I]|]. apply plain_digits. apply (dec_spec (- z)). lia.
  - apply Z.ltb_ge in E. apply plain_digits. apply (dec_spec z). exact E.
Qed.
Lemma plain_concat sep l : plain sep -> Forall plain l -> plain (String.concat sep l).
Proof.
  intros S F. induction F as [|x l X F IH]; [exact I|]. destruct l as [|y l]; [exact X|].
  change (String.concat sep (x :: y :: l)) with (x ++ sep ++ String.concat sep (y :: l)). apply plain_app; [exact X|]. apply plain_app; [exact S|exact IH].
Qed.
Lemma text_plain repr v : (forall q, plain (repr q)) -> forall level t, text repr level v = Ok t -> plain t.
Proof.
  intros R. assert (W : forall n c, (c = "]" \/ c = "}") -> plain (newline n ++ c)) by (intros n c [->| ->]; (apply plain_app; [apply plain_newline|apply plain_char; [reflexivity|exact I]])).
  assert (SE : forall n, plain ("," ++ newline n)) by (intros n; apply plain_app; [apply plain_char; [reflexivity|exact I]|apply plain_newline]).
  induction v as [|b|z|x|s|s|l H|d H] using pyval_rect_nested; intros level t T.
  - injection T as <-. apply plainb_plain; reflexivity.
  - cbn [text] in T. destruct b; injection T as <-; apply plainb_plain; reflexivity.
  - injection T as <-. apply plain_int.
  - destruct x; injection T as <-; [apply R|]. apply plainb_plain; reflexivity.
  - injection T as <-. apply plain_quote.
  - discriminate T.
  - cbn [text] in T. fold (go_list repr level) in T. destruct (go_list repr level l) as [parts|] eqn:G; [|discriminate T]. cbn [bind] in T. pose proof (go_list_F2 repr _ _ _ G) as F.
    assert (P : Forall plain parts). { clear G T. revert H. induction F as [|x p l parts E F IH]; intros H; inversion H; subst; constructor; eauto. }
    destruct parts as [|p0 ps]; [injection T as <-; apply plainb_plain; reflexivity|].
    assert (T' : t = "[" ++ newline (S level) ++ String.concat ("," ++ newline (S level)) (p0 :: ps) ++ newline level ++ "]") by congruence. rewrite T'.
    apply plain_app; [apply plain_char; [reflexivity|exact I]|]. apply plain_app; [apply plain_newline|]. apply plain_app; [apply plain_concat; [apply SE|exact P]|apply W; auto].
  - cbn [text] in T. fold (go_dict repr level) in T. destruct (go_dict repr level d) as [parts|] eqn:G; [|discriminate T]. cbn [bind] in T. pose proof (go_dict_F2 repr _ _ _ G) as F.
    assert (P : Forall plain parts).
    { clear G T. revert H. induction F as [|x p l parts (u & U & ->) F IH]; intros H; inversion H; subst; constructor; eauto. apply plain_app; [apply plain_quote|]. apply plain_app; [apply plainb_plain; reflexivity|eauto]. }
    destruct parts as [|p0 ps]; [injection T as <-; apply plainb_plain; reflexivity|].
    assert (T' : t = "{" ++ newline (S level) ++ String.concat ("," ++ newline (S level)) (p0 :: ps) ++ newline level ++ "}") by congruence. rewrite T'.
    apply plain_app; [apply plain_char; [reflexivity|exact I]|]. apply plain_app; [apply plain_newline|]. apply plain_app; [apply plain_concat; [apply SE|exact P]|apply W; auto].
Qed.

(** ** NaN is refused by standard readers *)
Lemma nan_or_clean double v : writable double true v -> has_nan v \/ writable double false v.
Proof.
  induction v as [|b|z|x|s|s|l H|d H] using pyval_rect_nested; intros W; try (right; constructor; fail).
  - destruct x as [q|]; [right; constructor; inversion W; assumption|left; constructor].
  - inversion W.
  - assert (WL : forall x, In x l -> writable double true x) by (inversion W; assumption). clear W.
    assert (X : (exists x, In x l /\ has_nan x) \/ forall x, In x l -> writable double false x).
    { induction H as [|x l P H IH]; [right; intros x []|]. destruct (P (WL x (or_introl eq_refl))) as [N|C]; [left; exists x; split; [left; reflexivity|exact N]|].
      destruct IH as [(y & Y & N)|IH]; [intros y Y; apply WL; right; exact Y|left; exists y; split; [right; exact Y|exact N]|right]. intros y [<-|Y]; [exact C|apply IH; exact Y]. }
    destruct X as [(x & I & N)|X]; [left; exact (n_list l x I N)|right; constructor; exact X].
  - assert (WL : forall k x, In (k, x) d -> writable double true x) by (inversion W; assumption). clear W.
    assert (X : (exists k x, In (k, x) d /\ has_nan x) \/ forall k x, In (k, x) d -> writable double false x).
    { induction H as [|[k x] d P H IH]; [right; intros k x []|]. cbn [snd] in P. destruct (P (WL k x (or_introl eq_refl))) as [N|C]; [left; exists k, x; split; [left; reflexivity|exact N]|].
      destruct IH as [(j & y & Y & N)|IH]; [intros j y Y; apply (WL j); right; exact Y|left; exists j, y; split; [right; exact Y|exact N]|right].
      intros j y [Y|Y]; [injection Y as <- <-; exact C|apply (IH j); exact Y]. }
    destruct X as [(k & x & I & N)|X]; [left; exact (n_dict d k x I N)|right; constructor; exact X].
Qed.
Section Refuse.
Variable repr : Q -> string.
Variable nearest : Q -> Q.
Variable double : Q -> Prop.
Hypothesis repr_ok : forall q, double q -> number nearest (repr q) = Some (PFlt (Some q)).
Definition reads (t : string) (v : pyval) : Prop := forall f r, stop r -> (String.length t < f)%nat -> value false nearest f (t ++ r) = Some (v, r).
Definition fails (t : string) : Prop := forall f r, stop r -> (String.length t < f)%nat -> value false nearest f (t ++ r) = None.
Lemma elements_bad sep close level l parts : close = newline level ++ "]" -> (exists n, sep = "," ++ newline n) ->
  Forall2 (fun x t => begins t /\ (reads t x \/ fails t)) l parts -> (exists t, In t parts /\ fails t) ->
  begins (String.concat sep parts) /\
  forall f r, (String.length (String.concat sep parts ++ close) < f)%nat -> elements false nearest f (String.concat sep parts ++ close ++ r) = None.
Proof.
  intros -> (n & ->). intros F. induction F as [|x t l parts [B V] F IH]; intros (u & U & BAD); [destruct U|].
  destruct F as [|x' t' l parts P F].
  - destruct U as [->|[]]. cbn [String.concat]. split; [exact B|]. intros f r L. destruct f as [|f]; [lia|]. cbn [elements]. rewrite !app_length_s in L. pose proof (newline_length level).
    rewrite app_assoc_s. rewrite BAD; [reflexivity|reflexivity|cbn [String.length] in L; lia].
  - change (String.concat ("," ++ newline n) (t :: t' :: parts)) with (t ++ ("," ++ newline n) ++ String.concat ("," ++ newline n) (t' :: parts)).
    split; [apply begins_app; exact B|]. intros f r L. destruct f as [|f]; [lia|]. cbn [elements]. rewrite !app_length_s in L. cbn [String.length] in L.
    assert (T : fails t \/ (reads t x /\ exists w, In w (t' :: parts) /\ fails w)).
    { destruct U as [->|U]; [left; exact BAD|]. destruct V as [V|V]; [right; split; [exact V|exists u; auto]|left; exact V]. }
    rewrite !app_assoc_s. destruct T as [T|[T X]]; [rewrite T; [reflexivity|reflexivity|lia]|]. destruct (IH X) as [B' IH']. rewrite T; [|reflexivity|lia].
    set (rest := String.concat ("," ++ newline n) (t' :: parts)) in *.
    change (skip ("," ++ newline n ++ rest ++ newline level ++ "]" ++ r)) with (String "," (newline n ++ rest ++ newline level ++ "]" ++ r)). cbn iota.
    rewrite skip_newline, begins_skip by exact B'. specialize (IH' f r). rewrite app_length_s, !app_assoc_s in IH'. rewrite IH'; [reflexivity|]. rewrite app_length_s. cbn [String.length]. lia.
Qed.
Lemma members_bad sep close level (l : list (string * pyval)) parts : close = newline level ++ "}" -> (exists n, sep = "," ++ newline n) ->
  Forall2 (fun kx p => exists t, p = quote (fst kx) ++ ": " ++ t /\ begins t /\ (reads t (snd kx) \/ fails t)) l parts ->
  (exists k t, In (quote k ++ ": " ++ t) parts /\ begins t /\ fails t) ->
  (exists s, String.concat sep parts = String """" s) /\
  forall f r, (String.length (String.concat sep parts ++ close) < f)%nat -> members false nearest f (String.concat sep parts ++ close ++ r) = None.
Proof.
  intros -> (n & ->).
  assert (Q : forall k t u, (quote k ++ ": " ++ t) ++ u = String """" (escaped k ++ String """" (": " ++ t ++ u))).
  { intros k t u. unfold quote. cbn [append]. rewrite !app_assoc_s. reflexivity. }
  assert (QL : forall k t, String.length (quote k ++ ": " ++ t) = (String.length (escaped k) + 4 + String.length t)%nat).
  { intros k t. unfold quote. rewrite !app_length_s. cbn [String.length]. lia. }
  assert (BADP : forall k t u f, begins t -> fails t -> stop u -> (String.length (quote k ++ ": " ++ t) < f)%nat -> members false nearest f ((quote k ++ ": " ++ t) ++ u) = None).
  { intros k t u f B BAD S L. rewrite QL in L. destruct f as [|f]; [lia|]. rewrite Q, member_step, begins_skip by exact B. rewrite BAD; [reflexivity|exact S|lia]. }
  intros F. induction F as [|[k x] p l parts (t & -> & B & V) F IH]; intros (k1 & t1 & U & B1 & BAD); [destruct U|]. cbn [fst snd] in *.
  destruct F as [|x' p' l parts P F].
  - cbn [String.concat]. split; [rewrite <- (app_nil_s (quote k ++ ": " ++ t)), Q; eexists; reflexivity|].
    intros f r L. rewrite app_length_s in L. destruct U as [U|[]]. rewrite U in L |- *. apply BADP; [exact B1|exact BAD|reflexivity|lia].
  - change (String.concat ("," ++ newline n) ((quote k ++ ": " ++ t) :: p' :: parts)) with ((quote k ++ ": " ++ t) ++ ("," ++ newline n) ++ String.concat ("," ++ newline n) (p' :: parts)).
    split; [rewrite Q; eexists; reflexivity|].
    intros f r L. rewrite app_length_s, (app_length_s (quote k ++ ": " ++ t)) in L.
    set (rest := String.concat ("," ++ newline n) (p' :: parts)) in *.
    transitivity (members false nearest f ((quote k ++ ": " ++ t) ++ "," ++ newline n ++ rest ++ (newline level ++ "}") ++ r)); [f_equal; rewrite !app_assoc_s; reflexivity|].
    destruct U as [E|U]; [rewrite E in L |- *; apply BADP; [exact B1|exact BAD|reflexivity|lia]|].
    destruct V as [V|V]; [|apply BADP; [exact B|exact V|reflexivity|lia]].
    destruct IH as ((s' & S') & IH); [exists k1, t1; auto|]. rewrite QL in L. destruct f as [|f]; [lia|]. rewrite Q, member_step, begins_skip by exact B. rewrite V; [|reflexivity|lia].
    change (skip ("," ++ newline n ++ rest ++ (newline level ++ "}") ++ r)) with (String "," (newline n ++ rest ++ (newline level ++ "}") ++ r)). cbn iota.
    rewrite !app_length_s in L. cbn [String.length] in L. specialize (IH f r). rewrite skip_newline, begins_skip by (rewrite S'; split; [reflexivity|discriminate]). rewrite IH; [reflexivity|]. rewrite !app_length_s. cbn [String.length]. lia.
Qed.
Definition bad (v : pyval) : Prop := forall level t, text repr level v = Ok t -> writable double true v -> begins t /\ (has_nan v -> fails t).
Lemma reads_or_fails v level t : bad v -> text repr level v = Ok t -> writable double true v -> begins t /\ (reads t v \/ fails t).
Proof.
  intros B T W. destruct (B level t T W) as [BE F]. split; [exact BE|]. destruct (nan_or_clean double v W) as [N|C]; [right; exact (F N)|left].
  destruct (all_ok repr nearest double repr_ok false v level t T C) as [_ V]. exact V.
Qed.
Lemma all_bad v : bad v.
Proof.
  induction v as [|b|z|x|s|s|l H|d H] using pyval_rect_nested; intros level t T W.
  - injection T as <-. split; [split; [reflexivity|discriminate]|intros N; inversion N].
  - cbn [text] in T. destruct b; injection T as <-; (split; [split; [reflexivity|discriminate]|intros N; inversion N]).
  - injection T as <-. pose proof (number_int nearest z) as N. destruct (number_numeric _ _ _ N) as (A & B & _). split; [apply numeric_begins; assumption|intros M; inversion M].
  - destruct x as [q|]; injection T as <-.
    + assert (D : double q) by (inversion W; assumption). destruct (number_numeric _ _ _ (repr_ok q D)) as (A & B & _). split; [apply numeric_begins; assumption|intros M; inversion M].
    + split; [split; [reflexivity|discriminate]|]. intros _ f r S L. destruct f as [|f]; [lia|]. reflexivity.
  - injection T as <-. split; [split; [reflexivity|discriminate]|intros N; inversion N].
  - discriminate T.
  - cbn [text] in T. fold (go_list repr level) in T. destruct (go_list repr level l) as [parts|] eqn:G; [|discriminate T]. cbn [bind] in T. pose proof (go_list_F2 repr _ _ _ G) as F.
    assert (WL : forall x, In x l -> writable double true x) by (inversion W; assumption).
    destruct parts as [|p0 ps]; [inversion F; subst; injection T as <-; split; [split; [reflexivity|discriminate]|]; intros N; inversion N; subst; contradiction|].
    assert (T' : t = "[" ++ newline (S level) ++ String.concat ("," ++ newline (S level)) (p0 :: ps) ++ newline level ++ "]") by congruence. clear T. subst t.
    split; [split; [reflexivity|discriminate]|]. intros N. assert (X : exists x, In x l /\ has_nan x) by (inversion N; subst; eauto). clear N W.
    destruct (elements_bad ("," ++ newline (S level)) (newline level ++ "]") level l (p0 :: ps) eq_refl (ex_intro _ _ eq_refl)) as [B E].
    { clear - repr_ok F H WL. revert H WL. remember (p0 :: ps) as parts eqn:EP; clear EP; induction F as [|x p l parts E F IH]; intros H WL; constructor; inversion H; subst.
      - eapply reads_or_fails; [eassumption|exact E|apply WL; left; reflexivity].
      - apply IH; [assumption|intros ? YY; apply WL; right; exact YY]. }
    { clear - F H WL X. destruct X as (x & I' & N). revert H WL I'. remember (p0 :: ps) as parts eqn:EP; clear EP; induction F as [|y p l parts E F IH]; intros H WL I'; [destruct I'|]. inversion H as [|? ? HB HH]; subst. destruct I' as [->|I'].
      - exists p. split; [left; reflexivity|]. destruct (HB _ _ E (WL x (or_introl eq_refl))) as [_ FF]. exact (FF N).
      - destruct IH as (q & Q1 & Q2); [exact HH|intros ? YY; apply WL; right; exact YY|exact I'|]. exists q. split; [right; exact Q1|exact Q2]. }
    set (body := String.concat ("," ++ newline (S level)) (p0 :: ps)) in *.
    intros f r S L. destruct f as [|f]; [lia|]. rewrite !app_length_s in L. cbn [String.length] in L. pose proof (newline_length (Datatypes.S level)).
    replace (("[" ++ newline (Datatypes.S level) ++ body ++ newline level ++ "]") ++ r) with (String "[" (newline (Datatypes.S level) ++ body ++ (newline level ++ "]") ++ r)) by (cbn [append]; rewrite !app_assoc_s; reflexivity).
    cbn [value]. rewrite skip_newline, begins_skip by exact B.
    specialize (E f r). rewrite !app_length_s in E. cbn [String.length] in E. specialize (E ltac:(lia)).
    destruct body as [|c body]; [destruct B|]. destruct B as [_ NB]. cbn [append] in E |- *.
    transitivity (match elements false nearest f (String c (body ++ (newline level ++ "]") ++ r)) with Some (l, r'') => Some (PList l, r'') | None => None end);
      [destruct c as [[|] [|] [|] [|] [|] [|] [|] [|]]; try reflexivity; congruence|]. rewrite E. reflexivity.
  - cbn [text] in T. fold (go_dict repr level) in T. destruct (go_dict repr level d) as [parts|] eqn:G; [|discriminate T]. cbn [bind] in T. pose proof (go_dict_F2 repr _ _ _ G) as F.
    assert (WL : forall k x, In (k, x) d -> writable double true x) by (inversion W; assumption).
    destruct parts as [|p0 ps]; [inversion F; subst; injection T as <-; split; [split; [reflexivity|discriminate]|]; intros N; inversion N; subst; contradiction|].
    assert (T' : t = "{" ++ newline (S level) ++ String.concat ("," ++ newline (S level)) (p0 :: ps) ++ newline level ++ "}") by congruence. clear T. subst t.
    split; [split; [reflexivity|discriminate]|]. intros N. assert (X : exists k x, In (k, x) d /\ has_nan x) by (inversion N; subst; eauto). clear N W.
    destruct (members_bad ("," ++ newline (S level)) (newline level ++ "}") level d (p0 :: ps) eq_refl (ex_intro _ _ eq_refl)) as ((s & BS) & E).
    { clear - repr_ok F H WL. revert H WL. remember (p0 :: ps) as parts eqn:EP; clear EP; induction F as [|[k x] p l parts (t & E & ->) F IH]; intros H WL; constructor; inversion H; subst; cbn [fst snd] in *.
      - exists t. split; [reflexivity|]. eapply reads_or_fails; [eassumption|exact E|apply (WL k); left; reflexivity].
      - apply IH; [assumption|intros ? ? YY; eapply WL; right; exact YY]. }
    { clear - F H WL X. destruct X as (k & x & I' & N). revert H WL I'. remember (p0 :: ps) as parts eqn:EP; clear EP; induction F as [|[k' y] p l parts (t & E & ->) F IH]; intros H WL I'; [destruct I'|]. inversion H as [|? ? HB HH]; subst. cbn [fst snd] in *. destruct I' as [I'|I'].
      - injection I' as -> ->. exists k, t. split; [left; reflexivity|]. destruct (HB _ _ E (WL k x (or_introl eq_refl))) as [BT FF]. split; [exact BT|exact (FF N)].
      - destruct IH as (q & Q1 & Q2 & Q3); [exact HH|intros ? ? YY; eapply WL; right; exact YY|exact I'|]. exists q, Q1. split; [right; exact Q2|exact Q3]. }
    set (body := String.concat ("," ++ newline (S level)) (p0 :: ps)) in *.
    intros f r S L. destruct f as [|f]; [lia|]. rewrite !app_length_s in L. cbn [String.length] in L. pose proof (newline_length (Datatypes.S level)).
    replace (("{" ++ newline (Datatypes.S level) ++ body ++ newline level ++ "}") ++ r) with (String "{" (newline (Datatypes.S level) ++ body ++ (newline level ++ "}") ++ r)) by (cbn [append]; rewrite !app_assoc_s; reflexivity).
    assert (BB : begins body) by (rewrite BS; split; [reflexivity|discriminate]). cbn [value]. rewrite skip_newline, begins_skip by exact BB.
    specialize (E f r). rewrite !app_length_s in E. cbn [String.length] in E. specialize (E ltac:(lia)). rewrite BS in E |- *. cbn [append] in E |- *.
    transitivity (match members false nearest f (String """" (s ++ (newline level ++ "}") ++ r)) with Some (l, r'') => Some (PDict l, r'') | None => None end); [reflexivity|]. rewrite E. reflexivity.
Qed.
Lemma nan_unread v : writable double true v -> has_nan v -> exists t, dump_pretty_json repr v = Ok t /\ read_json false nearest t = None.
Proof.
  intros W N. destruct (pathless_written repr v (writable_pathless _ _ _ W)) as (t & T). exists t. split; [exact T|]. unfold read_json.
  destruct (all_bad v 0%nat t T W) as [B V]. specialize (V N (S (String.length t)) ""). rewrite app_nil_s in V.
  rewrite <- (app_nil_s t) at 2. rewrite begins_skip by exact B. rewrite app_nil_s. rewrite V; [reflexivity|exact I|lia].
Qed.
End Refuse.
Lemma nan_exact repr nearest (double : Q -> Prop) v :
  (forall q, double q -> number nearest (repr q) = Some (PFlt (Some q))) -> writable double true v ->
  exists t, dump_pretty_json repr v = Ok t /\ (has_nan v -> read_json false nearest t = None) /\ (~ has_nan v -> read_json false nearest t = Some v).
Proof.
  intros R W. destruct (pathless_written repr v (writable_pathless _ _ _ W)) as (t & T). exists t. split; [exact T|]. split; intros N.
  - destruct (nan_unread repr nearest double R v W N) as (t' & T' & F). congruence.
  - destruct (nan_or_clean double v W) as [N'|C]; [contradiction|]. destruct (written_read repr nearest double false v R C) as (t' & T' & F). congruence.
Qed.
