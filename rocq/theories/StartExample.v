(** A small project for the examples and counterexamples of C90-C97. *)
From Coq Require Import List String Ascii ZArith QArith Bool Lia.
From Verif Require Import PyBase PyVal AircraftIOModel AircraftIOSpec AircraftIOProofs CpacsAircraftModel RunSpec StartModel StartSpec StartPaths StartProofs.
From Verif Require StrFacts CliModel StateModel RunModel SettingsModel SettingsSpec.
Import List ListNotations.
Open Scope string_scope.

(** Contents of files: JSON objects, flight states, CPACS documents, results, other text. *)
Inductive ex_content :=
| Json (v : pyval) | States (d : dict StateModel.entry) | Xml (d : cdoc) | Res (aero : dict StateModel.num) | Text (s : string).

(** Objects with repeated keys are not decoded. *)
Lemma no_dup_dec (l : list string) : {NoDup l} + {~ NoDup l}.
Proof.
  induction l as [|x l IH]; [left; constructor|]. destruct (in_dec string_dec x l) as [I|I]; [right; intro N; inversion N; auto|].
  destruct IH as [IH|IH]; [left; constructor; assumption|right; intro N; inversion N; auto].
Defined.
Definition ex_json (v : pyval) : res pyval :=
  match v with PDict d => if no_dup_dec (dkeys d) then Ok v else Err ValueError | _ => Ok v end.

Definition ex_env (dir : path) : env :=
  {| C := ex_content; V := unit; T := unit; W := profile_table ex_content; cwd := dir;
     json := fun c => match c with Json v => ex_json v | _ => Err ValueError end;
     str_of := fun _ => "?"; import_profile := fun _ => Ok tt; none_ok := true; int_ok := true;
     parse_float := fun _ => Err ValueError; derive := fun _ _ _ => Ok (fun _ => Some 0%Q); finish_wing := fun _ => Ok tt;
     locate := fun _ e x => Ok ("s", e, x);
     cpacs_doc := fun c => match c with Xml d => Ok d | _ => Err LibError end;
     profile_text := fun e => Text (fst e);
     state_doc := fun c => match c with States d => Ok d | _ => Err ValueError end;
     cpacs_vectors := fun c => match c with Xml _ => Ok ([Some 0%Q], [Some (1#2)%Q], [Some 1%Q], [Some 0%Q]) | _ => Err LibError end;
     parse := fun _ => Err ValueError;
     atmosphere := fun hs => Ok (map (fun _ => Some 1%Q) hs, map (fun _ => Some 340%Q) hs);
     prepare := fun _ t _ _ => Ok t; draw := fun _ _ => Ok tt;
     compute := fun _ w _ _ => (w, Ok (RunModel.mkOut (fun _ => tt) (fun _ => tt) tt tt));
     store := fun c _ => (c, Ok tt);
     result_text := fun c => match c with RunModel.CGlobal aero _ _ => Res aero | _ => Text "table" end;
     figure_file := fun n => n ++ ".png"; picture := fun n => Text n; log_text := Text "log" |}.

Definition ex_num (q : Q) : pyval := PFlt (Some q).
Definition ex_vec (x y z : Q) : pyval := PList [ex_num x; ex_num y; ex_num z].
Definition ex_aircraft : pyval :=
  PDict [("uid", PStr "Tornado");
    ("refs", PDict [("area", ex_num 12); ("span", ex_num 6); ("chord", PInt 2); ("gcenter", ex_vec 1 0 0); ("rcenter", ex_vec 1 0 0)]);
    ("wings", PList [PDict [("uid", PStr "wing"); ("symmetry", PInt 2);
       ("segments", PList [PDict [("uid", PStr "seg");
          ("vertices", PDict [("a", ex_vec 0 0 0); ("b", ex_vec 0 6 0); ("c", ex_vec 2 6 0); ("d", ex_vec 2 0 0)]);
          ("airfoils", PDict [("inner", PStr "airfoils/blade.root"); ("outer", PStr "NACA0012")])]])]])].
Definition ex_plot (show save : bool) : pyval := PDict [("opt", PList []); ("show", PBool show); ("save", PBool save)].
Definition ex_settings (aircraft state : string) : pyval :=
  PDict [("aircraft", PStr aircraft); ("state", PStr state);
    ("plot", PDict [("geometry", ex_plot false true); ("lattice", ex_plot false false); ("matrix_downwash", ex_plot false false); ("results", ex_plot false false)]);
    ("save_results", PDict [("global", PBool true); ("panelwise", PBool false); ("matrix_system", PBool false); ("aeroperformance", PBool true)])].
Definition ex_states (v : Q) : dict StateModel.entry :=
  map (fun p => (p, StateModel.Many (map StateModel.VNum [v; 20%Q])))
    [StateModel.AIRSPEED; StateModel.DENSITY; StateModel.ALPHA; StateModel.BETA; StateModel.RATE_P; StateModel.RATE_Q; StateModel.RATE_R].
Definition ex_seg (a b c d : point) : cseg :=
  let f (eta xsi : Q) := if Qeq_bool eta 0 then (if Qeq_bool xsi 0 then a else d) else (if Qeq_bool xsi 0 then b else c) in
  mkSeg (Some "s") f f 0 1.
Definition ex_doc : cdoc :=
  mkDoc (Some (Some "My Aircraft"))
    (Some [mkWing (Some "w") 2 (Some [ex_seg (mkPt 0 0 0) (mkPt 0 5 0) (mkPt 1 5 0) (mkPt 1 0 0)]) []]) []
    [mkFoil (Some "NACA 0012") [(1, 0); (0, 0)]%Q; mkFoil (Some "tip") [(1, 0); (5#10, 1#10)]%Q]
    (mkRefs (Some 1%Q) (Some 0%Q) (Some 0%Q) (Some 10%Q) (Some 2%Q)).

Fixpoint ex_files (l : list (path * node ex_content)) : path -> option (node ex_content) :=
  fun q => match l with [] => None | (p, n) :: l' => if path_eqb q p then Some n else ex_files l' q end.
Definition ex_root : path := ["home"; "u"; "proj"].
Definition ex_dir (q : path) : path * node ex_content := (q, NDir).
Definition ex_file (q : path) (c : ex_content) : path * node ex_content := (q, NFile c).
Definition ex_list : list (path * node ex_content) :=
  [ex_dir []; ex_dir ["home"]; ex_dir ["home"; "u"]; ex_dir ex_root; ex_dir (ex_root ++ ["settings"])%list; ex_dir (ex_root ++ ["aircraft"])%list;
   ex_dir (ex_root ++ ["state"])%list; ex_dir (ex_root ++ ["airfoils"])%list;
   ex_file (ex_root ++ ["settings"; "cruise.json"])%list (Json (ex_settings "ac.json" "level.json"));
   ex_file (ex_root ++ ["settings"; "fast.json"])%list (Json (ex_settings "ac.json" "fast.json"));
   ex_file (ex_root ++ ["settings"; "odd.json"])%list (Json (ex_settings "ac.stl" "level.json"));
   ex_file (ex_root ++ ["settings"; "tool.json"])%list (Json (ex_settings "ac.xml" "__cpacs"));
   ex_file (ex_root ++ ["cruise.json"])%list (Json (ex_settings "ac.json" "fast.json"));
   ex_file (ex_root ++ ["aircraft"; "ac.json"])%list (Json ex_aircraft);
   ex_file (ex_root ++ ["aircraft"; "ac.xml"])%list (Xml ex_doc);
   ex_file (ex_root ++ ["state"; "level.json"])%list (States (ex_states 100));
   ex_file (ex_root ++ ["state"; "fast.json"])%list (States (ex_states 200));
   ex_file (ex_root ++ ["airfoils"; "blade.root"])%list (Text "points")].
Definition ex_fs : path -> option (node ex_content) := ex_files ex_list.
Definition ex_p (f : string) : path := (ex_root ++ ["settings"; f])%list.
Definition ex_E := ex_env ["home"; "u"].

Lemma ex_decodes dir : decodes (ex_env dir).
Proof.
  intros c d H. cbn in H. destruct c as [v| | | |]; try discriminate. destruct v; try discriminate. unfold ex_json in H.
  destruct (no_dup_dec _) as [N|N]; [injection H as <-; exact N|discriminate].
Qed.

(** Checks for the hypotheses of the theorems. *)
Definition prefixes (l : path) : list path := map (fun n => firstn n l) (seq 0 (S (length l))).
Lemma prefix_in (q rest l : path) : l = (q ++ rest)%list -> In q (prefixes l).
Proof.
  intros ->. apply in_map_iff. exists (length q). split; [rewrite firstn_app, Nat.sub_diag, firstn_all; cbn; apply app_nil_r|].
  apply in_seq. rewrite app_length. lia.
Qed.
Definition start_dirs (base : string) : list path :=
  flat_map (fun d => prefixes (ex_root ++ d)%list) [["aircraft"]; ["airfoils"]; ["deformation"]; ["settings"]; ["state"];
          ["_plots"; (base ++ "_000")%string]; ["_results"; (base ++ "_000")%string]].
Lemma ex_clear dir base (fs : path -> option (node ex_content)) :
  forallb (fun q => match fs q with Some (NFile _) => false | _ => true end) (start_dirs base) = true -> clear (ex_env dir) fs ex_root base.
Proof.
  intros H q c (_ & d & rest & Q & I) F. rewrite forallb_forall in H. specialize (H q). rewrite F in H. apply diff_false_true, H.
  apply in_flat_map. exists d. split; [exact I|]. exact (prefix_in _ _ _ Q).
Qed.
Lemma real_check (p : path) :
  forallb (fun c => negb (String.eqb c "") && negb (String.eqb c ".") && negb (String.eqb c "..") && negb (has_slash c)) p = true -> real p.
Proof.
  intro H. apply Forall_forall. intros c I. rewrite forallb_forall in H. specialize (H c I). rewrite !andb_true_iff, !negb_true_iff, !String.eqb_neq in H.
  destruct H as [[[A B] D] S]. repeat split; auto. rewrite <- StrFacts.has_slash_iff. congruence.
Qed.

Lemma ex_gives dir f c d k v : ex_fs (ex_p f) = Some (NFile c) -> json (ex_env dir) c = Ok (PDict d) -> gives (ex_env dir) ex_fs (ex_p f) k v -> dget d k = Some v.
Proof. intros A B (c' & d' & A' & B' & X). congruence. Qed.
Definition ex_inputs (dir : path) : list path :=
  [ex_p "cruise.json"; (ex_root ++ ["aircraft"; "ac.json"])%list; (ex_root ++ ["state"; "level.json"])%list;
   (ex_root ++ ["airfoils"; "blade.root"])%list; resolve dir "NACA0012"; resolve dir "None"].
Lemma ex_mentions s : mentions ex_aircraft s -> s = "airfoils/blade.root" \/ s = "NACA0012".
Proof.
  intros (ws & w & sl & sg & ad & k & (x & X & A) & B & (y & Y & D) & F & (z & Z & G) & H).
  injection X as <-. vm_compute in A. injection A as <-. destruct B as [<-|[]].
  injection Y as <-. vm_compute in D. injection D as <-. destruct F as [<-|[]].
  injection Z as <-. vm_compute in G. injection G as <-. destruct H as [H|[H|[]]]; injection H as _ <-; auto.
Qed.
Lemma ex_input dir q : input (ex_env dir) ex_fs (ex_p "cruise.json") ex_root q -> In q (ex_inputs dir).
Proof.
  assert (G := fun k v => ex_gives dir "cruise.json" _ _ k v eq_refl eq_refl).
  assert (AF : forall a, aircraft_file (ex_env dir) ex_fs (ex_p "cruise.json") ex_root a -> a = (ex_root ++ ["aircraft"; "ac.json"])%list).
  { intros a (s & X & ->). apply G in X. vm_compute in X. injection X as <-. reflexivity. }
  intros [|a A|s A B|v A B|a c doc r A B F J P].
  - left. reflexivity.
  - apply AF in A as ->. right. left. reflexivity.
  - apply G in A. vm_compute in A. injection A as <-. right. right. left. reflexivity.
  - apply G in A. vm_compute in A. discriminate.
  - apply AF in A as ->. vm_compute in F. injection F as <-. change (Ok ex_aircraft = Ok doc) in J. injection J as <-.
    destruct P as [s M X|s M X|].
    + apply ex_mentions in M as [->| ->]; [do 3 right; left; reflexivity|]. destruct X as (y & X). discriminate.
    + apply ex_mentions in M as [->| ->]; [destruct X; exists "/blade.root"; reflexivity|do 4 right; left; reflexivity].
    + do 5 right; left; reflexivity.
Qed.
Lemma base_check base e c r : base = String c r -> c <> "."%char -> CliModel.has_dot e = false -> base_of (base ++ "." ++ e) base.
Proof.
  intros -> N D. left. exists e. split; [reflexivity|]. split; [|intro H; exact (N (H "" c r eq_refl))].
  intro H. apply has_dot_part in H. congruence.
Qed.
Lemma ex_base : base_of "cruise.json" "cruise".
Proof. apply (base_check "cruise" "json" "c" "ruise"); [reflexivity|discriminate|reflexivity]. Qed.
Lemma ex_real f : plain f -> real (ex_p f).
Proof. intro P. apply Forall_app. split; [apply real_check; reflexivity|]. constructor; [|constructor; [exact P|constructor]]. exact (Forall_inv (real_check ["settings"] eq_refl)). Qed.
