(** Reading result tables: what a program that understands comma-separated numbers gets out of them. *)
From Coq Require Import List String Ascii ZArith QArith Qabs Bool.
From Verif Require Import RunSpec TableModel.
Import ListNotations.
Open Scope string_scope.

(** ** Numbers in scientific notation *)

(** Leading digits appended to [acc], and the rest. *)
Fixpoint scan (acc : Z) (s : string) : Z * string :=
  match s with
  | EmptyString => (acc, "")
  | String c r => match digit c with Some d => scan (10 * acc + Z.of_nat d) r | None => (acc, s) end
  end.
(** Digits, at least one. *)
Definition numeral (acc : Z) (s : string) : option (Z * string) :=
  match s with
  | String c _ => match digit c with Some _ => Some (scan acc s) | None => None end
  | EmptyString => None
  end.
Definition signed (s : string) : Z * string :=
  match s with String "-" r => ((-1)%Z, r) | String "+" r => (1%Z, r) | _ => (1%Z, s) end.
(** d.ddd e+dd *)
Definition read_unsigned (s : string) : option Q :=
  match numeral 0 s with
  | Some (a, String "." r) =>
    match numeral a r with
    | Some (b, String "e" r2) =>
      let (sg, r3) := signed r2 in
      match numeral 0 r3 with
      | Some (x, "") => Some (inject_Z b * 10 ^ (sg * x - Z.of_nat (String.length r - String.length (String "e" r2))))
      | _ => None
      end
    | _ => None
    end
  | _ => None
  end.
Fixpoint skip_spaces (s : string) : string := match s with String " " r => skip_spaces r | _ => s end.
Definition read_num (s : string) : option fnum :=
  let (sg, r) := signed (skip_spaces s) in
  if String.eqb r "nan" then Some NaN
  else if String.eqb r "inf" then Some (if (sg =? 1)%Z then PInf else NInf)
  else match read_unsigned r with Some q => Some (Fin (inject_Z sg * q)) | None => None end.

(** ** Tables: lines that start with # are skipped, fields are separated by commas *)
Fixpoint split_at (d : ascii) (s : string) : list string :=
  match s with
  | EmptyString => [""]
  | String c r =>
    if Ascii.eqb c d then "" :: split_at d r
    else match split_at d r with x :: l => String c x :: l | [] => [] end
  end.
Fixpoint all_read {A B} (f : A -> option B) (l : list A) : option (list B) :=
  match l with
  | [] => Some []
  | x :: r => match f x, all_read f r with Some y, Some ys => Some (y :: ys) | _, _ => None end
  end.
Definition is_data (line : string) : bool := match line with EmptyString => false | String c _ => negb (Ascii.eqb c "#") end.
Definition read_row (line : string) : option (list fnum) := all_read read_num (split_at "," line).
Definition read_table (text : string) : option (list (list fnum)) := all_read read_row (filter is_data (split_at nl text)).
(** The words of the comment lines. *)
Definition comments (text : string) : list (list string) :=
  map (fun line => filter (fun w => negb (String.eqb w "")) (split_at " " line))
    (filter (fun line => negb (is_data line) && negb (String.eqb line ""))%bool (split_at nl text)).

(** ** Accuracy *)

(** [q']: nearest to [q] among the numbers with at most seven decimal digits; relative error at most
    5 10^-7. *)
Definition nearest7 (q q' : Q) : Prop :=
  (exists m e, (Z.abs m < 10000000)%Z /\ q' == inject_Z m * 10 ^ e) /\
  (forall m e, (Z.abs m <= 10000000)%Z -> Qabs (q' - q) <= Qabs (inject_Z m * 10 ^ e - q)) /\
  Qabs (q' - q) <= Qabs q * (5 # 10000000).
Definition close (v v' : fnum) : Prop :=
  match v, v' with
  | Fin q, Fin q' => nearest7 q q'
  | NaN, NaN | PInf, PInf | NInf, NInf => True
  | _, _ => False
  end.

(** Value of a key. *)
Definition lookup (d : list (string * list fnum)) (k : string) : option (list fnum) :=
  option_map snd (find (fun kv => String.eqb (fst kv) k) d).
