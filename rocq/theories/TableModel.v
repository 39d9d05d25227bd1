(** Model of the result tables written as text: [_save_panelwise] and [_save_matrix_system]
    (src/lib/pytornado/fileio/native/results.py:91-167), with numpy's [stack] and [savetxt], Python's
    [str.center] and the conversion '%13.6e'.

    Simplifications: a finite double is the rational number it denotes (so -0.0 is 0); '%e' rounds the
    exact value to nearest, ties to even, as CPython does.  Text is a string of ASCII characters.
    Arrays are lists; the shape of the matrix is (rows, columns of the first row).  Opening and writing
    the file and log messages are left out: the functions return the text. *)
From Coq Require Import List String Ascii ZArith QArith Qround Bool.
From Verif Require Import PyBase StripModel RoundModel.
Import ListNotations.
Open Scope string_scope.

(** ** Numbers *)
Inductive fnum := Fin (q : Q) | NaN | PInf | NInf.

(** str(n) for n >= 0. *)
Definition digit_char (d : Z) : ascii := ascii_of_nat (48 + Z.to_nat d).
Fixpoint dec_fuel (fuel : nat) (n : Z) (acc : string) : string :=
  match fuel with
  | O => acc
  | S f => let acc' := String (digit_char (n mod 10)) acc in if (n <? 10)%Z then acc' else dec_fuel f (n / 10) acc'
  end.
Definition dec (n : Z) : string := dec_fuel (S (Z.to_nat (Z.log2 n))) n "".

(** Decimal exponent of q > 0. *)
Definition ndigits (n : Z) : Z := Z.of_nat (String.length (dec n)).
Definition exp10 (q : Q) : Z :=
  let e := (ndigits (Qnum q) - ndigits (Zpos (Qden q)))%Z in
  if Qleb (10 ^ e) q then e else (e - 1)%Z.
Definition exponent_text (e : Z) : string :=
  (if (e <? 0)%Z then "-" else "+") ++ (if (Z.abs e <? 10)%Z then "0" else "") ++ dec (Z.abs e).
Definition mantissa_text (m : Z) : string :=
  match dec m with String c r => String c ("." ++ r) | EmptyString => "" end.
(** '%.6e' for q > 0. *)
Definition fmt_pos (q : Q) : string :=
  let e := exp10 q in
  let m := round_even (q * 10 ^ (6 - e)) in
  if (m =? 10000000)%Z then mantissa_text 1000000 ++ "e" ++ exponent_text (e + 1)
  else mantissa_text m ++ "e" ++ exponent_text e.
Definition fmt_e (v : fnum) : string :=
  match v with
  | Fin q => match Qcompare q 0 with Eq => "0.000000e+00" | Gt => fmt_pos q | Lt => "-" ++ fmt_pos (- q) end
  | NaN => "nan" | PInf => "inf" | NInf => "-inf"
  end.

(** Padding. *)
Fixpoint spaces (n : nat) : string := match n with O => "" | S n' => String " " (spaces n') end.
(** FMT_NUM = '%13.6e' (38). *)
Definition FMT_NUM (v : fnum) : string := let s := fmt_e v in spaces (13 - String.length s) ++ s.
(** s.center(width): the odd space goes to the left if the width is odd. *)
Definition center (s : string) (width : nat) : string :=
  let marg := (width - String.length s)%nat in
  let left := (marg / 2 + (if Nat.odd marg && Nat.odd width then 1 else 0))%nat in
  spaces left ++ s ++ spaces (marg - left).

(** ** numpy.savetxt(file, rows, delimiter=',', header=header, fmt=FMT_NUM, comments='# ') *)
Definition nl : ascii := ascii_of_nat 10.
Fixpoint comment_lines (s : string) : string :=
  match s with
  | EmptyString => ""
  | String c r => if Ascii.eqb c nl then String nl ("# " ++ comment_lines r) else String c (comment_lines r)
  end.
Fixpoint join (d : ascii) (l : list string) : string :=
  match l with [] => "" | [x] => x | x :: r => x ++ String d (join d r) end.
Definition row_text (row : list fnum) : string := join "," (map FMT_NUM row) ++ String nl "".
Definition savetxt (header : string) (rows : list (list fnum)) : string :=
  "# " ++ comment_lines header ++ String nl (String.concat "" (map row_text rows)).

(** numpy.stack(arrays, axis=-1) for one-dimensional arrays: at least one, all of the same length. *)
Fixpoint transpose (n : nat) (cols : list (list fnum)) : list (list fnum) :=
  match n with
  | O => []
  | S n' => map (fun c => hd NaN c) cols :: transpose n' (map (@tl fnum) cols)
  end.
Definition stack (cols : list (list fnum)) : res (list (list fnum)) :=
  match cols with
  | [] => Err ValueError
  | c :: r => if forallb (fun x => (List.length x =? List.length c)%nat) r then Ok (transpose (List.length c) cols) else Err ValueError
  end.

(** ** [_save_panelwise] (91-136) *)
Definition data_keys : list (string * string) :=
  [("gamma", "m^2/s"); ("vx", "m/s"); ("vy", "m/s"); ("vz", "m/s"); ("vmag", "m/s");
   ("fx", "N"); ("fy", "N"); ("fz", "N"); ("fmag", "N"); ("cp", "1")].
(** 119-124: field_size is 12 for the first name, then 14. *)
Definition panel_header : string :=
  fst (fold_left (fun (st : string * nat) ku => (fst st ++ center (fst ku ++ " [" ++ snd ku ++ "]") (snd st), 14%nat)) data_keys ("", 12%nat)).
Fixpoint get_all (d : list (string * list fnum)) (keys : list string) : res (list (list fnum)) :=
  match keys with
  | [] => Ok []
  | k :: r => match find (fun kv => String.eqb (fst kv) k) d with
              | Some kv => let? l := get_all d r in Ok (snd kv :: l)
              | None => Err KeyError
              end
  end.
Definition save_panelwise (panelwise : list (string * list fnum)) : res string :=
  let? cols := get_all panelwise (map fst data_keys) in
  let? data := stack cols in
  Ok (savetxt panel_header data).

(** ** [_save_matrix_system] (139-167) *)
Definition shape2 (n m : nat) : string := "(" ++ dec (Z.of_nat n) ++ ", " ++ dec (Z.of_nat m) ++ ")".
Definition shape1 (n : nat) : string := "(" ++ dec (Z.of_nat n) ++ ",)".
Definition save_matrix_system (matrix : list (list fnum)) (rhs : list fnum) : res string :=
  if (List.length rhs =? List.length matrix)%nat then                    (* reshape *)
    let data := map (fun x => fst x ++ [snd x])%list (combine matrix rhs) in
    Ok (savetxt ("Downwash matrix: " ++ shape2 (List.length matrix) (List.length (hd [] matrix)) ++ String nl
                 ("Right-hand side: " ++ shape1 (List.length rhs))) data)
  else Err ValueError.
