(** Property theorems: settings (C32, C33, C61, C62). *)
From Coq Require Import List String ZArith QArith.
From Verif Require Import PyBase PyVal SettingsModel SettingsSpec SettingsProofs.
Import ListNotations.
Open Scope string_scope.

(** C32: an update is accepted exactly if the resulting settings have the required types and
    epsilon is in range; given keys have the given values, other keys keep theirs; only an empty
    option of the results plot is replaced by ['cp'].  The deformation entry is not checked. *)
Theorem C32_update_partial :
  forall s d s' d' r, NoDup (dkeys d) -> update s d = (s', d', r) ->
  (r = Ok tt <-> settings_ok s') /\
  (forall k, k <> "plot" -> dget s' k = match dget d k with Some v => Some v | None => dget s k end) /\
  (forall p, match dget d "plot" with Some v => Some v | None => dget s "plot" end = Some p ->
     exists p', dget s' "plot" = Some p' /\
       (forall k, k <> "results" -> forall x, item p' k x <-> item p k x) /\
       (forall q, item p "results" q -> exists q', item p' "results" q' /\
          (forall k, k <> "opt" -> forall x, item q' k x <-> item q k x) /\
          (forall o, item q "opt" o -> (empty o -> item q' "opt" (PList [PStr "cp"])) /\ (~ empty o -> item q' "opt" o)))).
Proof. exact update_spec. Qed.
Print Assumptions C32_update_partial.

(** A number is accepted as deformation file name. *)
Theorem C32_update_refuted :
  exists d s d', update new_settings d = (s, d', Ok tt) /\ ~ deformation_ok s.
Proof.
  exists [("aircraft", PStr "a.json"); ("state", PStr "s.json"); ("deformation", PInt 5)]. eexists. eexists.
  split; [vm_compute; reflexivity|]. intros [H|(x & H & T)]; [discriminate|]. injection H as <-. inversion T.
Qed.
Print Assumptions C32_update_refuted.

(** The defaults only lack the names of the aircraft and of the state. *)
Theorem C32_defaults :
  (forall a b, exists s, load [("aircraft", PStr a); ("state", PStr b)] = (s, Ok tt)) /\
  (forall a, snd (load [("aircraft", PStr a)]) = Err TypeError) /\
  (forall b, snd (load [("state", PStr b)]) = Err TypeError).
Proof. split; [intros a b; eexists; vm_compute; reflexivity|]. split; intro; vm_compute; reflexivity. Qed.
Print Assumptions C32_defaults.

(** By default nothing is shown or saved: all options of all plots and all results are off. *)
Theorem C32_quiet :
  forall a b s, load [("aircraft", PStr a); ("state", PStr b)] = (s, Ok tt) ->
  (forall n x, at_path (PDict s) ["save_results"; n] x -> x = PBool false) /\
  (forall n o x, at_path (PDict s) ["plot"; n; o] x -> o <> "opt" -> x = PBool false) /\
  (forall n o x, at_path (PDict s) ["plot"; n; o] x -> In n ["geometry"; "lattice"; "matrix_downwash"; "results"] /\ In o ["opt"; "show"; "save"]) /\
  dget s "deformation" = Some PNone /\ dget s "_do_normal_rotations" = Some (PBool true) /\ dget s "_deformation_check" = Some (PBool true).
Proof. exact quiet. Qed.
Print Assumptions C32_quiet.

Definition ex_plot (o : list pyval) : pyval := PDict [("opt", PList o); ("show", PBool false); ("save", PBool true)].
Definition ex_user : dict pyval :=
  [("aircraft", PStr "ac.json"); ("state", PStr "st.json"); ("_epsilon", PFlt (Some (1#1000)%Q)); ("note", PDict [("_private", PInt 1); ("by", PStr "me")]);
   ("plot", PDict [("geometry", ex_plot []); ("lattice", ex_plot []); ("matrix_downwash", ex_plot []); ("results", ex_plot [])])].
Example C32_example :
  NoDup (dkeys ex_user) /\
  exists s d', update new_settings ex_user = (s, d', Ok tt) /\ dget s "vlm_autopanels_c" = Some (PInt 4) /\
  at_path (PDict s) ["plot"; "results"; "opt"] (PList [PStr "cp"]) /\
  snd (update new_settings (("_epsilon", PFlt (Some 2%Q)) :: skipn 3 ex_user)) <> Ok tt.
Proof.
  split; [cbn; repeat constructor; cbn; intuition discriminate|]. eexists. eexists. split; [vm_compute; reflexivity|].
  split; [reflexivity|]. split; [|vm_compute; discriminate].
  repeat (eexists; split; [eexists; split; [reflexivity|vm_compute; reflexivity]|]). reflexivity.
Qed.

(** C33: the saved file holds exactly the entries without a hidden key on their path, with
    unchanged values, dictionaries keeping the order of their public keys; it is written unless a
    Path object is among them; saving again gives the same file. *)
Theorem C33_saved_file :
  forall s s' r, save s = (s', r) ->
  (forall path x, ~ is_dict x -> (at_path (PDict s') path x <-> at_path (PDict s) path x /\ Forall (fun k => ~ hidden k) path)) /\
  (forall path e, at_path (PDict s) path (PDict e) -> Forall (fun k => ~ hidden k) path ->
     exists e', at_path (PDict s') path (PDict e') /\ dkeys e' = filter (fun k => negb (String.prefix "_" k)) (dkeys e)) /\
  (json (PDict s') -> r = Ok (PDict s')) /\ (~ json (PDict s') -> r = Err TypeError) /\ save s' = (s', r).
Proof. exact saved_file. Qed.
Print Assumptions C33_saved_file.

(** Loading the file restores all public settings; the hidden ones are those of a new session. *)
Theorem C33_reload_partial :
  forall s0 d0 d0' s, NoDup (dkeys s0) -> NoDup (dkeys d0) -> update s0 d0 = (s, d0', Ok tt) ->
  exists s', load (fst (save s)) = (s', Ok tt) /\
    (forall k, ~ hidden k -> dget s k <> None -> dget s' k = dget (fst (save s)) k) /\
    (forall k, hidden k -> dget s' k = dget new_settings k).
Proof. exact reload_saved. Qed.
Print Assumptions C33_reload_partial.

(** After plotting, the directory is stored with each of the four plots and nothing else is changed;
    saving is not possible any more. *)
Theorem C33_after_plots :
  forall path s, settings_ok s ->
  snd (save (after_plots path s)) = Err TypeError /\
  (forall n, In n ["geometry"; "lattice"; "matrix_downwash"; "results"] ->
     at_path (PDict (after_plots path s)) ["plot"; n; "plot_dir"] (PPath path)) /\
  (forall path' x, ~ is_dict x -> ~ In "plot_dir" path' ->
     (at_path (PDict (after_plots path s)) path' x <-> at_path (PDict s) path' x)).
Proof. exact after_plots_save. Qed.
Print Assumptions C33_after_plots.

(** Saving changes the session: the hidden settings are gone, and the session cannot be updated any
    more.  After plotting, saving is not possible at all. *)
Theorem C33_session_refuted :
  (exists d s d', update new_settings d = (s, d', Ok tt) /\ dget s "_epsilon" <> None /\
     dget (fst (save s)) "_epsilon" = None /\ snd (update (fst (save s)) []) = Err KeyError) /\
  (exists d s d' path, update new_settings d = (s, d', Ok tt) /\ snd (save (after_plots path s)) = Err TypeError).
Proof.
  split; exists ex_user; eexists; eexists.
  - split; [vm_compute; reflexivity|]. split; [vm_compute; discriminate|]. split; vm_compute; reflexivity.
  - exists "_plots". split; [vm_compute; reflexivity|]. vm_compute. reflexivity.
Qed.
Print Assumptions C33_session_refuted.

Example C33_example :
  exists s d', NoDup (dkeys new_settings) /\ update new_settings ex_user = (s, d', Ok tt) /\ json (PDict (fst (save s))) /\
  at_path (PDict s) ["note"; "_private"] (PInt 1) /\ at_path (PDict (fst (save s))) ["note"; "by"] (PStr "me") /\
  dget (fst (save s)) "note" = Some (PDict [("by", PStr "me")]).
Proof.
  eexists. eexists. split; [vm_compute; repeat constructor; cbn; intuition discriminate|]. split; [vm_compute; reflexivity|].
  split; [apply jsonable_iff; vm_compute; reflexivity|].
  split; [repeat (eexists; split; [eexists; split; [reflexivity|vm_compute; reflexivity]|]); reflexivity|].
  split; [repeat (eexists; split; [eexists; split; [reflexivity|vm_compute; reflexivity]|]); reflexivity|]. vm_compute. reflexivity.
Qed.

(** C61: a dictionary passes [check_dict] exactly if it fits the template; the default dictionary
    of a template with consistent defaults passes. *)
Theorem C61_check_dict :
  (forall t v, check_dict (TNest t) v = Ok tt <-> fits (TNest t) v) /\
  (forall t, consistent (TNest t) -> check_dict (TNest t) (PDict (get_default_dict t)) = Ok tt).
Proof.
  split; [intros t v; exact (check_dict_iff (TNest t) v)|]. intros t C. apply check_dict_iff. rewrite <- default_nest. exact (default_fits (TNest t) C).
Qed.
Print Assumptions C61_check_dict.
Example C61_example :
  consistent (TNest DEFAULT_PLOT_DICT) /\ ~ fits (TNest DEFAULT_PLOT_DICT) (PDict [("geometry", ex_plot [])]) /\
  fits (TNest DEFAULT_PLOT_DICT) (PDict (get_default_dict DEFAULT_PLOT_DICT)).
Proof.
  assert (O : consistent (TNest PLOT_OPTIONS)).
  { constructor; [cbn; repeat constructor; cbn; intuition discriminate|]. intros key value dtype I. cbn in I.
    repeat destruct I as [I|I]; [..|destruct I]; injection I as <- <- <-; (split; [intros _|intros rest E; discriminate]);
    (eexists; split; [left; reflexivity|constructor]). }
  assert (C : consistent (TNest DEFAULT_PLOT_DICT)).
  { constructor; [cbn; repeat constructor; cbn; intuition discriminate|]. intros key value dtype I. cbn in I.
    repeat destruct I as [I|I]; [..|destruct I]; injection I as <- <- <-;
    (split; [intros _; exists TyDict; split; [left; reflexivity|reflexivity]|intros _ _; exact O]). }
  split; [exact C|]. split.
  - intro F. apply check_dict_iff in F. discriminate.
  - apply check_dict_iff, C61_check_dict. exact C.
Qed.

(** C62: the caller's dictionary is changed by an update. *)
Theorem C62_caller_refuted :
  exists d s d', update new_settings d = (s, d', Ok tt) /\ d' <> d.
Proof. exists ex_user. eexists. eexists. split; [vm_compute; reflexivity|]. discriminate. Qed.
Print Assumptions C62_caller_refuted.

(** At most the 'plot' entry is changed, and only if the option of the results plot is empty. *)
Theorem C62_caller_partial :
  forall s d s' d' r, NoDup (dkeys d) -> update s d = (s', d', r) ->
  dkeys d' = dkeys d /\ (forall k, k <> "plot" -> dget d' k = dget d k) /\
  (forall p, dget d "plot" = Some p -> dget d' "plot" = dget s' "plot") /\
  ((forall p q o, dget d "plot" = Some p -> item p "results" q -> item q "opt" o -> ~ empty o) -> d' = d).
Proof. exact update_caller. Qed.
Print Assumptions C62_caller_partial.
Example C62_example :
  NoDup (dkeys ex_user) /\ (forall p q o, dget [("aircraft", PStr "a")] "plot" = Some p -> item p "results" q -> item q "opt" o -> ~ empty o).
Proof. split; [cbn; repeat constructor; cbn; intuition discriminate|]. intros p q o H. discriminate. Qed.
