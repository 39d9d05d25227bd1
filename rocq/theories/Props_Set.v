(** C131: setting deflections. *)
From Coq Require Import Reals String List ZArith QArith Lra Lia.
From Verif Require Import PyBase Vec StripModel AircraftModel LatticeModel LatticeSpec PanelModel GeomModel NormalModel NormalSpec VlmModel SetSpec SetProofs.
From Verif Require Props_Strips Props_Lattice Props_Order.
Import ListNotations.

(** Other deflections change no point of the lattice, and only the normals of the subareas whose own control is set differently on their own side. *)
Theorem C131_frame f geo camber alpha beta a : camber_kept f camber -> panelled a -> counts_set a -> flags_ok a ->
  exists st pans n n', panel_count a = Ok st /\ gen_lattice geo camber true alpha beta a = Ok (pans, n) /\
    gen_lattice geo camber true alpha beta (set_aircraft f a) = Ok (pans, n') /\ length n' = length n /\
    forall e i, In e (bk_list (c_book st)) -> (e_lo e <= i < e_hi e)%Z -> setting_kept f (e_visit e) (e_mirror e) ->
      exists x, nth_error n (Z.to_nat i) = Some x /\ nth_error n' (Z.to_nat i) = Some x.
Proof. intro CA. exact (set_lattice f geo camber CA alpha beta a). Qed.
Print Assumptions C131_frame.

(** Zero and no deflection are the same, however the numbers are written. *)
Theorem C131_same f geo camber alpha beta a : camber_kept f camber -> panelled a -> counts_set a -> flags_ok a ->
  (forall v m, In v (all_subareas a) -> setting_kept f v m) ->
  exists x, gen_lattice geo camber true alpha beta a = Ok x /\ gen_lattice geo camber true alpha beta (set_aircraft f a) = Ok x.
Proof. intro CA. exact (set_same f geo camber CA alpha beta a). Qed.
Print Assumptions C131_same.

(** The aircraft of C08, its flap reset on the modelled side: the panels of the flap on the other side keep their setting. *)
Definition ex_set : settings := fun w c => if String.eqb (ct_uid (wc_ctl c)) (ct_uid Props_Strips.ex_flap) then (Some (9#1)%Q, wc_deflection_mirror c) else (wc_deflection c, Some 0%Q).
Example C131_frame_example : camber_kept ex_set Props_Order.ex_camber /\ panelled Props_Lattice.ex_ac /\ counts_set Props_Lattice.ex_ac /\ flags_ok Props_Lattice.ex_ac /\
  (exists v c, In v (all_subareas Props_Lattice.ex_ac) /\ sa_ctrl (v_sub v) = Some c /\ setting_kept ex_set v true /\ ~ setting_kept ex_set v false).
Proof.
  split; [intros ? ? ? ? ? ? ?; reflexivity|]. split; [exact Props_Lattice.ex_ac_panelled|]. split; [exact Props_Lattice.ex_ac_counts|].
  split; [intros wn w [E|[E|[]]]; injection E as <- <-; cbn; auto|].
  assert (X : existsb (fun v => match sa_ctrl (v_sub v) with
      | Some c => match dget (w_ctls (v_wing v)) (ct_uid c) with
        | Some wc => (String.eqb (ct_uid (wc_ctl wc)) (ct_uid Props_Strips.ex_flap) && match wc_deflection wc with Some d => negb (Qeq_bool d (9#1)) | None => false end)%bool
        | None => false end
      | None => false end) (all_subareas Props_Lattice.ex_ac) = true) by (vm_compute; reflexivity).
  apply existsb_exists in X. destruct X as (v & I & X). destruct (sa_ctrl (v_sub v)) as [c|] eqn:S; [|discriminate X]. destruct (dget (w_ctls (v_wing v)) (ct_uid c)) as [wc|] eqn:D; [|discriminate X].
  apply andb_prop in X. destruct X as (X & Y). exists v, c. split; [exact I|]. split; [exact S|]. split.
  - intros c' wc' S' D'. rewrite S in S'. injection S' as <-. rewrite D in D'. injection D' as <-. unfold ex_set. rewrite X. cbn [snd]. destruct (wc_deflection_mirror wc); cbn; reflexivity.
  - intro K. specialize (K c _ S D). unfold ex_set in K. rewrite X in K. cbn [fst] in K. destruct (wc_deflection wc) as [d|]; [|discriminate Y]. cbn [same_setting] in K. apply Qeq_bool_iff in K. rewrite K in Y. discriminate Y.
Qed.
(** Zero for no deflection: the slat on the mirrored side. *)
Definition ex_zero : settings := fun w c => (wc_deflection c, match wc_deflection_mirror c with Some d => Some d | None => Some 0%Q end).
Example C131_same_example : camber_kept ex_zero Props_Order.ex_camber /\ (forall v m, setting_kept ex_zero v m) /\ set_aircraft ex_zero Props_Lattice.ex_ac <> Props_Lattice.ex_ac.
Proof.
  split; [intros ? ? ? ? ? ? ?; reflexivity|]. split.
  - intros v m c wc _ _. cbn [ex_zero fst snd]. destruct m; [destruct (wc_deflection_mirror wc)|destruct (wc_deflection wc)]; cbn; reflexivity.
  - intro E. apply (f_equal (fun a => map (fun w => map (fun c => wc_deflection_mirror (snd c)) (w_ctls (snd w))) (a_wings a))) in E. vm_compute in E. discriminate E.
Qed.
