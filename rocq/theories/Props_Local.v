(** C132: the rest of the aircraft. *)
From Coq Require Import Reals String List ZArith QArith Lra Lia.
From Verif Require Import PyBase Vec StripModel AircraftModel LatticeModel LatticeSpec PanelModel GeomModel NormalModel NormalSpec VlmModel OrderSpec OrderProofs LocalSpec LocalProofs.
From Verif Require Props_Strips Props_Lattice Props_Order.
Import ListNotations.

(** A piece of surface that two aircraft have in common has the same panels in both lattices. *)
Theorem C132_pieces geo geo' camber camber' alpha beta a a' : panelled a -> counts_set a -> flags_ok a -> panelled a' -> counts_set a' -> flags_ok a' ->
  exists st pans n st' pans' n', panel_count a = Ok st /\ gen_lattice geo camber true alpha beta a = Ok (pans, n) /\
    panel_count a' = Ok st' /\ gen_lattice geo' camber' true alpha beta a' = Ok (pans', n') /\
    forall e e', In e (bk_list (c_book st)) -> In e' (bk_list (c_book st')) -> same_piece geo geo' camber camber' (e_visit e) (e_visit e') -> e_mirror e' = e_mirror e ->
      (e_hi e' - e_lo e' = e_hi e - e_lo e)%Z /\
      forall k, (0 <= k < e_hi e - e_lo e)%Z -> exists p,
        nth_error (set_normals pans n) (Z.to_nat (e_lo e + k)) = Some p /\ nth_error (set_normals pans' n') (Z.to_nat (e_lo e' + k)) = Some p.
Proof. exact (local_lattice geo geo' camber camber' alpha beta a a'). Qed.
Print Assumptions C132_pieces.

(** Wings added before and behind: the lattice is that of the wings before, the old one, and that of the wings behind. *)
Theorem C132_added geo camber alpha beta a a' l1 l2 : a_wings a' = l1 ++ a_wings a ++ l2 -> camber_of_wing camber ->
  panelled a -> counts_set a -> flags_ok a -> panelled a' -> counts_set a' -> flags_ok a' ->
  exists pans n pans' n' x y, gen_lattice geo camber true alpha beta a = Ok (pans, n) /\ gen_lattice geo camber true alpha beta a' = Ok (pans', n') /\
    set_normals pans' n' = x ++ set_normals pans n ++ y /\
    (forall b, a_wings b = l1 -> panelled b -> counts_set b -> flags_ok b ->
      exists pb nb, gen_lattice geo camber true alpha beta b = Ok (pb, nb) /\ set_normals pb nb = x) /\
    (forall b, a_wings b = l2 -> panelled b -> counts_set b -> flags_ok b ->
      exists pb nb, gen_lattice geo camber true alpha beta b = Ok (pb, nb) /\ set_normals pb nb = y).
Proof. exact (added_lattice geo camber alpha beta a a' l1 l2). Qed.
Print Assumptions C132_added.

(** The aircraft of C08 with and without its main wing: the fin has another number. *)
Definition ex_alone : aircraft := mkAC "fin" [("fin"%string, Props_Lattice.ex_fin)].
Example C132_example : panelled ex_alone /\ counts_set ex_alone /\ flags_ok ex_alone /\ camber_of_wing Props_Order.ex_camber /\
  a_wings Props_Lattice.ex_ac = [("wing"%string, Props_Lattice.ex_wing)] ++ a_wings ex_alone ++ [] /\
  exists v v', In v (all_subareas Props_Lattice.ex_ac) /\ In v' (all_subareas ex_alone) /\ v <> v' /\ same_piece Props_Order.ex_geo Props_Order.ex_geo Props_Order.ex_camber Props_Order.ex_camber v v'.
Proof.
  assert (I : forall wn w, In (wn, w) (a_wings ex_alone) -> In (wn, w) (a_wings Props_Lattice.ex_ac)) by (intros wn w [E|[]]; right; left; exact E).
  split; [intros wn w sn s J; exact (Props_Lattice.ex_ac_panelled _ _ _ _ (I _ _ J))|]. split; [intros wn w J; exact (Props_Lattice.ex_ac_counts _ _ (I _ _ J))|].
  split; [intros wn w [E|[]]; injection E as <- <-; cbn; auto|]. split; [intros ? ? ? ? ? ? ? ?; reflexivity|]. split; [reflexivity|].
  assert (X : existsb (fun _ => true) (wing_visits (1%nat, "fin"%string, Props_Lattice.ex_fin)) = true) by (vm_compute; reflexivity). apply existsb_exists in X. destruct X as (v & V & _).
  exists v, (bare v). split; [apply (visits_of_wing _ (1%nat, "fin"%string, Props_Lattice.ex_fin)); [right; left; reflexivity|exact V]|].
  split; [apply (visits_of_wing _ (0%nat, "fin"%string, Props_Lattice.ex_fin)); [left; reflexivity|exact (bare_of_wing _ _ _ _ V)]|].
  split; [|apply bare_piece; intros ? ? ? ? ? ? ? ?; reflexivity].
  intro E. apply wing_visits_wing in V. destruct v as [u w]. cbn [snd] in V. subst w. apply (f_equal (fun x : subarea_visit => fst (fst (snd x)))) in E. discriminate E.
Qed.
