(** A reader for JSON (RFC 8259), optionally with the extension that Python's [json.load] accepts. *)
From Coq Require Import List String Ascii ZArith QArith Bool.
From Verif Require Import PyBase PyVal RunSpec TableSpec.
Import ListNotations.
Open Scope string_scope.

(** White space *)
Definition is_ws (c : ascii) : bool := existsb (Nat.eqb (nat_of_ascii c)) [32; 9; 10; 13]%nat.
Fixpoint skip (s : string) : string := match s with String c r => if is_ws c then skip r else s | EmptyString => s end.
(** What follows [p]. *)
Fixpoint after (p s : string) : option string :=
  match p, s with
  | EmptyString, _ => Some s
  | String a p', String b s' => if Ascii.eqb a b then after p' s' else None
  | _, _ => None
  end.

(** ** Strings: the characters up to the closing quotation mark *)
Definition hex_digit (c : ascii) : option nat :=
  let n := nat_of_ascii c in
  if (Nat.leb 48 n && Nat.leb n 57)%bool then Some (n - 48)%nat
  else if (Nat.leb 97 n && Nat.leb n 102)%bool then Some (n - 87)%nat
  else if (Nat.leb 65 n && Nat.leb n 70)%bool then Some (n - 55)%nat
  else None.
Definition more (c : ascii) (x : option (string * string)) : option (string * string) :=
  match x with Some (s, r) => Some (String c s, r) | None => None end.
(** Only characters below 256 are known. *)
Fixpoint characters (s : string) : option (string * string) :=
  match s with
  | EmptyString => None
  | String c r =>
    if Nat.eqb (nat_of_ascii c) 34 then Some ("", r)
    else if Nat.ltb (nat_of_ascii c) 32 then None
    else if negb (Nat.eqb (nat_of_ascii c) 92) then more c (characters r)
    else match r with
      | String e r' =>
        match nat_of_ascii e with
        | 34 | 92 | 47 => more e (characters r')
        | 98 => more (ascii_of_nat 8) (characters r')
        | 102 => more (ascii_of_nat 12) (characters r')
        | 110 => more (ascii_of_nat 10) (characters r')
        | 114 => more (ascii_of_nat 13) (characters r')
        | 116 => more (ascii_of_nat 9) (characters r')
        | 117 =>
          match r' with
          | String h1 (String h2 (String h3 (String h4 r''))) =>
            match hex_digit h1, hex_digit h2, hex_digit h3, hex_digit h4 with
            | Some 0, Some 0, Some a, Some b => more (ascii_of_nat (16 * a + b)) (characters r'')
            | _, _, _, _ => None
            end
          | _ => None
          end
        | _ => None
        end%nat
      | EmptyString => None
      end
  end.

(** ** Numbers *)
Definition number_char (c : ascii) : bool :=
  match digit c with Some _ => true | None => existsb (Ascii.eqb c) ["+"; "-"; "."; "e"; "E"]%char end.
Fixpoint span (s : string) : string * string :=
  match s with
  | String c r => if number_char c then let (t, r') := span r in (String c t, r') else ("", s)
  | EmptyString => ("", "")
  end.
(** No leading zeros. *)
Definition whole (s : string) : option (Z * string) :=
  match s with
  | String "0" r => Some (0%Z, r)
  | _ => numeral 0 s
  end.
Definition exponent (s : string) : option Z :=
  match s with
  | EmptyString => Some 0%Z
  | String c r =>
    if (Ascii.eqb c "e" || Ascii.eqb c "E")%bool
    then let (sg, r') := signed r in match numeral 0 r' with Some (x, "") => Some (sg * x)%Z | _ => None end
    else None
  end.
(** An integer, or the double nearest to a number with fraction or exponent. *)
Definition number (nearest : Q -> Q) (t : string) : option pyval :=
  let (sg, r) := match t with String "-" r => ((-1)%Z, r) | _ => (1%Z, t) end in
  match whole r with
  | None => None
  | Some (a, "") => Some (PInt (sg * a))
  | Some (a, String "." r1) =>
    match numeral a r1 with
    | None => None
    | Some (b, r2) =>
      match exponent r2 with
      | None => None
      | Some x => Some (PFlt (Some (nearest (inject_Z (sg * b) * 10 ^ (x - Z.of_nat (String.length r1 - String.length r2)))%Q)))
      end
    end
  | Some (a, r1) =>
    match exponent r1 with
    | None => None
    | Some x => Some (PFlt (Some (nearest (inject_Z (sg * a) * 10 ^ x)%Q)))
    end
  end.

(** ** Values; [python] admits NaN, Infinity and -Infinity *)
Section Read.
Variable python : bool.
Variable nearest : Q -> Q.

Definition literal (s : string) : option (pyval * string) :=
  match after "null" s, after "true" s, after "false" s with
  | Some r, _, _ => Some (PNone, r)
  | _, Some r, _ => Some (PBool true, r)
  | _, _, Some r => Some (PBool false, r)
  | _, _, _ =>
    match (if python then after "NaN" s else None), (if python then after "Infinity" s else None), (if python then after "-Infinity" s else None) with
    | Some r, _, _ | _, Some r, _ | _, _, Some r => Some (PFlt None, r)
    | _, _, _ => let (t, r) := span s in match number nearest t with Some v => Some (v, r) | None => None end
    end
  end.

Fixpoint value (f : nat) (s : string) : option (pyval * string) :=
  match f with
  | O => None
  | S f' =>
    match s with
    | String """" r => match characters r with Some (x, r') => Some (PStr x, r') | None => None end
    | String "[" r =>
      match skip r with
      | String "]" r' => Some (PList [], r')
      | r' => match elements f' r' with Some (l, r'') => Some (PList l, r'') | None => None end
      end
    | String "{" r =>
      match skip r with
      | String "}" r' => Some (PDict [], r')
      | r' => match members f' r' with Some (l, r'') => Some (PDict l, r'') | None => None end
      end
    | _ => literal s
    end
  end
with elements (f : nat) (s : string) : option (list pyval * string) :=
  match f with
  | O => None
  | S f' =>
    match value f' s with
    | None => None
    | Some (v, r) =>
      match skip r with
      | String "]" r' => Some ([v], r')
      | String "," r' => match elements f' (skip r') with Some (l, r'') => Some (v :: l, r'') | None => None end
      | _ => None
      end
    end
  end
with members (f : nat) (s : string) : option (list (string * pyval) * string) :=
  match f with
  | O => None
  | S f' =>
    match s with
    | String """" r =>
      match characters r with
      | None => None
      | Some (k, r1) =>
        match skip r1 with
        | String ":" r2 =>
          match value f' (skip r2) with
          | None => None
          | Some (v, r3) =>
            match skip r3 with
            | String "}" r' => Some ([(k, v)], r')
            | String "," r' => match members f' (skip r') with Some (l, r'') => Some ((k, v) :: l, r'') | None => None end
            | _ => None
            end
          end
        | _ => None
        end
      end
    | _ => None
    end
  end.
(** The whole text is one value. *)
Definition read_json (s : string) : option pyval :=
  match value (S (String.length s)) (skip s) with
  | Some (v, r) => match skip r with EmptyString => Some v | _ => None end
  | None => None
  end.
End Read.

(** ** Values that can be written: no paths; floats are doubles ([double] says which rational numbers
    stand for one), or NaN if [nan] allows it. *)
Inductive writable (double : Q -> Prop) (nan : bool) : pyval -> Prop :=
| w_none : writable double nan PNone
| w_bool b : writable double nan (PBool b)
| w_int z : writable double nan (PInt z)
| w_flt q : double q -> writable double nan (PFlt (Some q))
| w_nan : nan = true -> writable double nan (PFlt None)
| w_str s : writable double nan (PStr s)
| w_list l : (forall x, In x l -> writable double nan x) -> writable double nan (PList l)
| w_dict d : (forall k x, In (k, x) d -> writable double nan x) -> writable double nan (PDict d).
(** A path somewhere inside. *)
Inductive has_path : pyval -> Prop :=
| p_path s : has_path (PPath s)
| p_list l x : In x l -> has_path x -> has_path (PList l)
| p_dict d k x : In (k, x) d -> has_path x -> has_path (PDict d).
(** NaN somewhere inside. *)
Inductive has_nan : pyval -> Prop :=
| n_nan : has_nan (PFlt None)
| n_list l x : In x l -> has_nan x -> has_nan (PList l)
| n_dict d k x : In (k, x) d -> has_nan x -> has_nan (PDict d).

(** What a dictionary has for a key. *)
Definition entry (d : list (string * pyval)) (k : string) : option pyval :=
  option_map snd (find (fun kx => String.eqb (fst kx) k) d).
(** A column of the performance map: a list, or None for an empty one. *)
Definition column (v : pyval) : option pyval := match v with PNone => Some (PList []) | PList l => Some (PList l) | _ => None end.

(** Line ends and printable ASCII only: the same bytes in every encoding of text files. *)
Fixpoint plain (s : string) : Prop :=
  match s with EmptyString => True | String c r => (nat_of_ascii c = 10 \/ 32 <= nat_of_ascii c <= 126)%nat /\ plain r end.
