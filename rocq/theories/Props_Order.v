(** C126: the order in which wings are listed. *)
From Coq Require Import Reals String List ZArith QArith Lra Permutation.
From Verif Require Import PyBase Vec StripModel AircraftModel LatticeModel LatticeSpec PanelModel GeomModel NormalModel NormalSpec VlmModel VlmSpec
  IsoSpec OrderSpec OrderProofs.
From Verif Require RowSpec Props_Row Props_Lattice AnalysisSpec.
Import ListNotations.
Open Scope R_scope.

(** Aircraft with the same wings in different order have the same panels, in different order. *)
Theorem C126_lattice geo camber alpha beta a a' : Permutation (a_wings a) (a_wings a') -> panelled a -> counts_set a -> flags_ok a -> camber_of_wing camber ->
  exists pans n pans' n', gen_lattice geo camber true alpha beta a = Ok (pans, n) /\ gen_lattice geo camber true alpha beta a' = Ok (pans', n') /\
    Permutation (set_normals pans n) (set_normals pans' n').
Proof. exact (order_lattice geo camber alpha beta a a'). Qed.
Print Assumptions C126_lattice.

(** Panels in different order have the same loads, each panel its own. *)
Theorem C126_loads eps lat lat' s r g o : Permutation lat lat' -> loads eps lat s r g o ->
  exists g' o', loads eps lat' s r g' o' /\ o_F o' = o_F o /\ o_M o' = o_M o /\ o_co o' = o_co o /\ same_panels lat lat' o o'.
Proof. exact (order_loads eps lat lat' s r g o). Qed.
Print Assumptions C126_loads.

(** Together: forces, moments and coefficients of the aircraft do not depend on the order. *)
Theorem C126_aircraft geo camber a a' eps s r : Permutation (a_wings a) (a_wings a') -> panelled a -> counts_set a -> flags_ok a -> camber_of_wing camber ->
  exists pans n pans' n', gen_lattice geo camber true (f_alpha s) (f_beta s) a = Ok (pans, n) /\ gen_lattice geo camber true (f_alpha s) (f_beta s) a' = Ok (pans', n') /\
    forall g o, loads eps (set_normals pans n) s r g o -> exists g' o', loads eps (set_normals pans' n') s r g' o' /\
      o_F o' = o_F o /\ o_M o' = o_M o /\ o_co o' = o_co o /\ same_panels (set_normals pans n) (set_normals pans' n') o o'.
Proof. exact (order_aircraft geo camber a a' eps s r). Qed.
Print Assumptions C126_aircraft.

(** Results do not depend either on how segments are combined to wings, on their order within a wing, or on names. *)
Theorem C126_segments geo geo' camber camber' a a' eps s r : same_segments geo geo' camber camber' a a' ->
  panelled a -> counts_set a -> flags_ok a -> panelled a' -> counts_set a' -> flags_ok a' ->
  exists pans n pans' n', gen_lattice geo camber true (f_alpha s) (f_beta s) a = Ok (pans, n) /\ gen_lattice geo' camber' true (f_alpha s) (f_beta s) a' = Ok (pans', n') /\
    Permutation (set_normals pans n) (set_normals pans' n') /\
    forall g o, loads eps (set_normals pans n) s r g o -> exists g' o', loads eps (set_normals pans' n') s r g' o' /\
      o_F o' = o_F o /\ o_M o' = o_M o /\ o_co o' = o_co o /\ same_panels (set_normals pans n) (set_normals pans' n') o o'.
Proof. exact (segments_loads geo geo' camber camber' a a' eps s r). Qed.
Print Assumptions C126_segments.

(** An aircraft of a wing and a fin, and the same with the fin first. *)
Definition ex_rev : aircraft := mkAC "reversed" (rev (a_wings Props_Lattice.ex_ac)).
Example C126_aircraft_example : Permutation (a_wings Props_Lattice.ex_ac) (a_wings ex_rev) /\ a_wings Props_Lattice.ex_ac <> a_wings ex_rev /\
  panelled Props_Lattice.ex_ac /\ counts_set Props_Lattice.ex_ac /\ flags_ok Props_Lattice.ex_ac /\ camber_of_wing (fun v x => x + Q2R (xsi_a (v_sub v))).
Proof.
  split; [apply Permutation_rev|]. split.
  { intro E. apply (f_equal (map fst)) in E. vm_compute in E. discriminate E. }
  split; [exact Props_Lattice.ex_ac_panelled|]. split; [exact Props_Lattice.ex_ac_counts|]. split; [|intros ? ? ? ? ? ? ? ?; reflexivity].
  intros wn w [E|[E|[]]]; injection E as <- <-; cbn; auto.
Qed.
(** The wing of C108, of five panels, in reverse. *)
Example C126_loads_example : exists eps lat s r g o, Permutation lat (rev lat) /\ length lat = 5%nat /\ lat <> rev lat /\ loads eps lat s r g o.
Proof.
  destruct Props_Row.C108_example as (W & T & L & _). set (lat := Props_Row.ex_turn (lattice (trail_dir 0 0) Props_Row.ex_wing)) in *.
  destruct (Props_Row.C108_unique _ _ _ _ lat W T) as (e0 & E0 & H). set (s := mkFlow 10 1 0 0 0 0 0). set (r := mkRefs 1 1 1 vzero vzero).
  destruct (H (e0 / 2) ltac:(lra)) as (m & D & LM & _ & U).
  destruct (U (boundary lat s r)) as (g & S & V); [unfold boundary; rewrite map_length; symmetry; exact LM|].
  destruct (Props_Row.C109_lift _ _ _ _ lat s r (e0 / 2) g W T) as (o & O & _); [repeat split|lra|destruct S as [LG _]; congruence|].
  exists (e0 / 2), lat, s, r, g, o. split; [apply Permutation_rev|]. split; [exact L|]. split.
  - intro E. apply (f_equal (fun l => match l with p :: _ => vx (pN p) | [] => 0 end)) in E. unfold lat, Props_Row.ex_wing, lattice in E. cbn [flat_map fst snd] in E.
    unfold sub_panels in E. change (Z.to_nat (3 * 1)) with 3%nat in E. change (Z.to_nat (2 * 1)) with 2%nat in E. cbn [seq map app Props_Row.ex_turn rev set_normal pN vx] in E. lra.
  - exists m. split; [exact D|]. split; [intros a b A B; rewrite (V a A), (V b B); reflexivity|]. split; [exact S|exact O].
Qed.
(** The wing divided into two wings with other names; the fin comes first. *)
Definition ex_inner : wing := mkWing "inner" 2 [("s1"%string, Props_Lattice.ex_s1)] (w_ctls Props_Lattice.ex_wing).
Definition ex_outer : wing := mkWing "outer" 2 [("s2"%string, Props_Lattice.ex_s2)] [].
Definition ex_split : aircraft := mkAC "split" [("fin", Props_Lattice.ex_fin); ("outer", ex_outer); ("inner", ex_inner)]%string.
Definition ex_geo (w s : string) : quad :=
  if String.eqb s "s1" then mkQuad (mkV 0 0 0) (mkV 0 5 0) (mkV 1 5 0) (mkV 1 0 0)
  else if String.eqb s "s2" then mkQuad (mkV 0 5 0) (mkV 0 8 1) (mkV 1 8 1) (mkV 1 5 0) else mkQuad (mkV 4 0 0) (mkV 4 0 2) (mkV 5 0 2) (mkV 5 0 0).
Definition ex_camber (v : subarea_visit) (x : R) : R := x + Q2R (xsi_a (v_sub v)).
Example C126_segments_example : same_segments ex_geo ex_geo ex_camber ex_camber Props_Lattice.ex_ac ex_split /\ panelled ex_split /\ counts_set ex_split /\ flags_ok ex_split.
Proof.
  assert (U : forall st k v c, In st (ws_strips Props_Lattice.ex_s2) -> In (k, v) (st_subs st) -> sa_ctrl v = Some c -> False).
  { assert (X : forallb (fun st => forallb (fun kv => match sa_ctrl (snd kv) with Some _ => false | None => true end) (st_subs st)) (ws_strips Props_Lattice.ex_s2) = true) by (vm_compute; reflexivity).
    intros st k v c A B E. rewrite forallb_forall in X. specialize (X _ A). rewrite forallb_forall in X. specialize (X _ B). cbn [snd] in X. rewrite E in X. discriminate X. }
  split; [|split; [|split]].
  - exists [(0, "f1", Props_Lattice.ex_fs, (1, "fin", Props_Lattice.ex_fin)); (1, "s2", Props_Lattice.ex_s2, (0, "wing", Props_Lattice.ex_wing)); (0, "s1", Props_Lattice.ex_s1, (0, "wing", Props_Lattice.ex_wing))]%nat%string.
    split; [exact (Permutation_rev (all_segments Props_Lattice.ex_ac))|].
    constructor; [repeat split|constructor; [do 5 (split; [reflexivity|]); intros; exfalso; eapply U; eassumption|constructor; [repeat split|constructor]]].
  - intros wn w sn s I J. destruct I as [I|[I|[I|[]]]]; injection I as <- <-; (destruct J as [J|[]]; injection J as <- <-).
    + exact (Props_Lattice.ex_ac_panelled "fin"%string Props_Lattice.ex_fin "f1"%string Props_Lattice.ex_fs (or_intror (or_introl eq_refl)) (or_introl eq_refl)).
    + destruct (Props_Lattice.ex_ac_panelled "wing"%string Props_Lattice.ex_wing "s2"%string Props_Lattice.ex_s2 (or_introl eq_refl) (or_intror (or_introl eq_refl))) as (A & _).
      split; [exact A|]. intros st k v c X Y Z. exfalso. exact (U st k v c X Y Z).
    + exact (Props_Lattice.ex_ac_panelled "wing"%string Props_Lattice.ex_wing "s1"%string Props_Lattice.ex_s1 (or_introl eq_refl) (or_introl eq_refl)).
  - intros wn w I. destruct I as [I|[I|[I|[]]]]; injection I as <- <-.
    + exact (Props_Lattice.ex_ac_counts "fin"%string Props_Lattice.ex_fin (or_intror (or_introl eq_refl))).
    + destruct (Props_Lattice.ex_ac_counts "wing"%string Props_Lattice.ex_wing (or_introl eq_refl)) as (A & _). split; [|intros cn c []]. intros sn s [J|[]]. apply (A sn s). right. left. exact J.
    + destruct (Props_Lattice.ex_ac_counts "wing"%string Props_Lattice.ex_wing (or_introl eq_refl)) as (A & B). split; [|exact B]. intros sn s [J|[]]. apply (A sn s). left. exact J.
  - intros wn w I. destruct I as [I|[I|[I|[]]]]; injection I as <- <-; cbn; auto.
Qed.
