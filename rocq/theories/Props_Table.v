(** C107: the result tables. *)
From Coq Require Import List String Ascii ZArith QArith Qabs.
From Verif Require Import PyBase TableModel TableSpec TableProofs.
Import ListNotations.
Open Scope string_scope.

(** A number that is read back is the nearest one with seven digits; nan and inf stay what they are. *)
Theorem C107_number v : exists v', read_num (FMT_NUM v) = Some v' /\ close v v'.
Proof. exact (number_read v). Qed.
Print Assumptions C107_number.

(** Unless the exponent has three digits, all fields have the same width. *)
Theorem C107_width v : match v with Fin q => (q == 0)%Q \/ (1 / 10 ^ 99 <= Qabs q < 10 ^ 99)%Q | _ => True end ->
  String.length (FMT_NUM v) = 13%nat.
Proof. exact (num_width v). Qed.
Print Assumptions C107_width.

Example C107_number_example : FMT_NUM (Fin (-12345678 # 1000)) = "-1.234568e+04" /\ FMT_NUM (Fin (99999995 # 10)) = " 1.000000e+07" /\
  FMT_NUM (Fin (1 # 3000000)) = " 3.333333e-07" /\ FMT_NUM (Fin (10000005 # 10)) = " 1.000000e+06" /\ FMT_NUM NaN = "          nan".
Proof. vm_compute. repeat split. Qed.

(** A table is read back row by row, whatever its header. *)
Theorem C107_table h rows : Forall (fun r => r <> []) rows ->
  exists rows', read_table (savetxt h rows) = Some rows' /\ Forall2 (Forall2 close) rows rows'.
Proof. exact (table_read h rows). Qed.
Print Assumptions C107_table.

(** The panel table: one line per panel; column j has the values of the j-th quantity. *)
Theorem C107_panelwise d n : (forall k, In k (map fst data_keys) -> exists c, lookup d k = Some c /\ List.length c = n) ->
  exists text rows, save_panelwise d = Ok text /\ read_table text = Some rows /\ List.length rows = n /\
    Forall (fun r => List.length r = 10%nat) rows /\
    forall i j k c, (i < n)%nat -> nth_error (map fst data_keys) j = Some k -> lookup d k = Some c ->
      exists v row v', nth_error c i = Some v /\ nth_error rows i = Some row /\ nth_error row j = Some v' /\ close v v'.
Proof. exact (panelwise_read d n). Qed.
Print Assumptions C107_panelwise.

(** It is written only if all quantities are there with one value per panel. *)
Theorem C107_panelwise_complete d text : save_panelwise d = Ok text ->
  exists n, forall k, In k (map fst data_keys) -> exists c, lookup d k = Some c /\ List.length c = n.
Proof. exact (panelwise_fails d text). Qed.
Print Assumptions C107_panelwise_complete.

(** The comment line names the columns in their order. *)
Theorem C107_names d text : save_panelwise d = Ok text ->
  comments text = [["#"; "gamma"; "[m^2/s]"; "vx"; "[m/s]"; "vy"; "[m/s]"; "vz"; "[m/s]"; "vmag"; "[m/s]";
                    "fx"; "[N]"; "fy"; "[N]"; "fz"; "[N]"; "fmag"; "[N]"; "cp"; "[1]"]] /\
  map fst data_keys = ["gamma"; "vx"; "vy"; "vz"; "vmag"; "fx"; "fy"; "fz"; "fmag"; "cp"].
Proof. exact (fun H => conj (panel_comments d text H) eq_refl). Qed.
Print Assumptions C107_names.

(** The labels stand above their columns, so the table can be cut by position too: values of quantity j
    are characters 14 j to 14 j + 12 of their lines and label j is within characters 14 j + 1 to 14 j + 14
    (one further right: the first label is a character longer than the field it is centred in). *)
Theorem C107_columns d text : save_panelwise d = Ok text ->
  (forall k c v, In k (map fst data_keys) -> lookup d k = Some c -> In v c ->
     match v with Fin q => (q == 0)%Q \/ (1 / 10 ^ 99 <= Qabs q < 10 ^ 99)%Q | _ => True end) ->
  (exists head, nth_error (split_at nl text) 0 = Some head /\
     forall j k u, nth_error data_keys j = Some (k, u) ->
       filter (fun w => negb (String.eqb w "")) (split_at " "%char (substring (14 * j + 1) 14 head)) =
       [k; "[" ++ u ++ "]"]) /\
  forall i j k c v, nth_error (map fst data_keys) j = Some k -> lookup d k = Some c -> nth_error c i = Some v ->
    exists line v', nth_error (split_at nl text) (S i) = Some line /\ read_num (substring (14 * j) 13 line) = Some v' /\ close v v'.
Proof. exact (panel_columns d text). Qed.
Print Assumptions C107_columns.

(** The matrix file: row i has the coefficients of equation i and then its right-hand side. *)
Theorem C107_matrix matrix rhs : List.length rhs = List.length matrix ->
  exists text rows, save_matrix_system matrix rhs = Ok text /\ read_table text = Some rows /\ List.length rows = List.length matrix /\
    forall i row b, nth_error matrix i = Some row -> nth_error rhs i = Some b ->
      exists row' b', nth_error rows i = Some (row' ++ [b'])%list /\ Forall2 close row row' /\ close b b'.
Proof. exact (matrix_read matrix rhs). Qed.
Print Assumptions C107_matrix.

Definition ex_panels : list (string * list fnum) := map (fun ku => (fst ku, [Fin (1 # 3); Fin (-2000); NaN])) data_keys.
Example C107_panelwise_example : forall k, In k (map fst data_keys) -> exists c, lookup ex_panels k = Some c /\ List.length c = 3%nat.
Proof. intros k K. cbn in K. repeat destruct K as [<-|K]; try (eexists; split; reflexivity). destruct K. Qed.
Example C107_columns_example : (exists text, save_panelwise ex_panels = Ok text) /\
  forall k c v, In k (map fst data_keys) -> lookup ex_panels k = Some c -> In v c ->
    match v with Fin q => (q == 0)%Q \/ (1 / 10 ^ 99 <= Qabs q < 10 ^ 99)%Q | _ => True end.
Proof.
  split; [eexists; vm_compute; reflexivity|]. intros k c v K L V.
  assert (E : c = [Fin (1 # 3); Fin (-2000); NaN]) by (cbn in K; repeat destruct K as [<-|K]; try (injection L as <-; reflexivity); destruct K).
  subst c. destruct V as [<-|[<-|[<-|[]]]]; [right; split; [vm_compute; discriminate|vm_compute; reflexivity]..|exact I].
Qed.
Example C107_matrix_example :
  match save_matrix_system [[Fin 1; Fin (1 # 3)]; [NaN; Fin (-2 # 3)]] [Fin 0; NInf] with Ok t => read_table t | Err _ => None end
  = Some [[Fin (1 * (1000000 * 10 ^ (-6))); Fin (1 * (3333333 * 10 ^ (-7))); Fin (1 * (0 * 10 ^ (-6)))];
          [NaN; Fin ((-1) * (6666667 * 10 ^ (-7))); NInf]].
Proof. vm_compute. reflexivity. Qed.
