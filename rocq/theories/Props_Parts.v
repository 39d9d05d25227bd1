(** C128: segments divided into several ones. *)
From Coq Require Import Reals String List ZArith QArith Qreals Lra Lia Permutation.
From Verif Require Import PyBase Vec StripModel StripSpec StripRun AircraftModel LatticeModel LatticeSpec PanelModel GeomModel NormalModel NormalSpec VlmModel VlmSpec
  IsoSpec OrderSpec PartsSpec PartsProofs.
From Verif Require Props_Strips Props_Lattice Props_Sides.
Import ListNotations.

(** Dividing segments at edges of their strips, with the same strips, gives the same panels and the same loads. *)
Theorem C128_divided geo geo' camber camber' a a' eps s r : divided geo geo' camber camber' a a' ->
  panelled a -> counts_set a -> flags_ok a -> panelled a' -> counts_set a' -> flags_ok a' ->
  exists pans n pans' n', gen_lattice geo camber true (f_alpha s) (f_beta s) a = Ok (pans, n) /\ gen_lattice geo' camber' true (f_alpha s) (f_beta s) a' = Ok (pans', n') /\
    Permutation (set_normals pans n) (set_normals pans' n') /\
    forall g o, loads eps (set_normals pans n) s r g o -> exists g' o', loads eps (set_normals pans' n') s r g' o' /\
      o_F o' = o_F o /\ o_M o' = o_M o /\ o_co o' = o_co o /\ same_panels (set_normals pans n) (set_normals pans' n') o o'.
Proof. exact (parts_loads geo geo' camber camber' a a' eps s r). Qed.
Print Assumptions C128_divided.

(** The mirrored wing of C127, cut in the middle of its aileron; the fin comes first. *)
Definition ex_flap := Props_Strips.ex_flap.
Definition ex_in : wsegment := mkWS "in" (Some 4%Z) (Some 2%Z) 5 (run lin_interp [OpControl (2#10) 1 ex_flap (7#10) (53#70) None (Some (51#70))]).
Definition ex_out : wsegment := mkWS "out" (Some 4%Z) (Some 2%Z) 5 (run lin_interp [OpControl 0 (6#10) ex_flap (53#70) (8#10) (Some (51#70)) (Some (75#100))]).
Definition ex_cut : wing := mkWing "wing" 2 [("in", ex_in); ("out", ex_out)]%string (w_ctls Props_Sides.ex_wing).
Definition ex_whole : aircraft := mkAC "whole" [("wing", Props_Sides.ex_wing); ("fin", Props_Lattice.ex_fin)]%string.
Definition ex_parts : aircraft := mkAC "parts" [("fin", Props_Lattice.ex_fin); ("wing", ex_cut)]%string.
Definition ex_geo (w s : string) : quad :=
  if String.eqb s "in" then mkQuad (mkV 0 0 0) (mkV (1/2) (5/2) (1/2)) (mkV 2 (5/2) (1/2)) (mkV 1 0 0)
  else if String.eqb s "out" then mkQuad (mkV (1/2) (5/2) (1/2)) (mkV 1 5 1) (mkV 3 5 1) (mkV 2 (5/2) (1/2)) else Props_Sides.ex_geo w s.

Example C128_divided_example : divided ex_geo ex_geo Props_Sides.ex_camber Props_Sides.ex_camber ex_whole ex_parts /\
  panelled ex_whole /\ counts_set ex_whole /\ flags_ok ex_whole /\ panelled ex_parts /\ counts_set ex_parts /\ flags_ok ex_parts.
Proof.
  assert (U : forall s st k v c, In s [Props_Sides.ex_seg; ex_in; ex_out] -> In st (ws_strips s) -> In (k, v) (st_subs st) -> sa_ctrl v = Some c -> ct_uid c = "flap"%string).
  { assert (X : forallb (fun s => forallb (fun st => forallb (fun kv => match sa_ctrl (snd kv) with Some c => String.eqb (ct_uid c) "flap" | None => true end) (st_subs st)) (ws_strips s)) [Props_Sides.ex_seg; ex_in; ex_out] = true)
      by (vm_compute; reflexivity).
    intros s st k v c Y A B E. rewrite forallb_forall in X. specialize (X _ Y). rewrite forallb_forall in X. specialize (X _ A). rewrite forallb_forall in X. specialize (X _ B). cbn [snd] in X. rewrite E in X. apply String.eqb_eq. exact X. }
  assert (F : forall sn s, In (sn, s) (w_segs Props_Lattice.ex_fin) -> (exists interp ops, sound_session interp ops /\ ws_strips s = run interp ops) /\
    (forall st k v c, In st (ws_strips s) -> In (k, v) (st_subs st) -> sa_ctrl v = Some c -> exists wc, dget (w_ctls Props_Lattice.ex_fin) (ct_uid c) = Some wc)).
  { intros sn s J. exact (Props_Lattice.ex_ac_panelled "fin"%string Props_Lattice.ex_fin sn s (or_intror (or_introl eq_refl)) J). }
  assert (G : forall s, In s [Props_Sides.ex_seg; ex_in; ex_out] -> exists interp ops, sound_session interp ops /\ ws_strips s = run interp ops).
  { intros s [<-|[<-|[<-|[]]]]; eexists lin_interp, _; (split; [left; exact lin_interp_ok|reflexivity]). }
  assert (K : forall x r : item string wsegment * item string wing, forall g (sub : item akind subarea) (st : item nat strip) sub' st' y, same_sub (obj sub) (obj sub') -> same_strip g (obj st) (obj st') ->
    Props_Sides.ex_camber (sub', st', fst r, snd r) y = Props_Sides.ex_camber (sub, st, fst x, snd x) y).
  { intros x r g sub st sub' st' y (_ & A & B & _) _. unfold Props_Sides.ex_camber, v_sub. cbn [fst snd]. apply Qeq_eqR in A, B. rewrite A, B. reflexivity. }
  assert (H : forall s, In s [ex_whole; ex_parts] -> forall wn w, In (wn, w) (a_wings s) -> w = Props_Lattice.ex_fin \/ w = Props_Sides.ex_wing \/ w = ex_cut).
  { intros s [<-|[<-|[]]] wn w [I|[I|[]]]; injection I as _ <-; auto. }
  assert (PN : forall s, In s [ex_whole; ex_parts] -> panelled s).
  { intros a IA wn w sn s I J. destruct (H a IA wn w I) as [->|[->| ->]]; [apply F with sn; exact J| |].
    - destruct J as [J|[]]. injection J as <- <-. split; [apply G; cbn; auto|]. intros st k v c A B E. rewrite (U _ _ _ _ _ (or_introl eq_refl) A B E). eexists. reflexivity.
    - destruct J as [J|[J|[]]]; injection J as <- <-; (split; [apply G; cbn; auto|]); intros st k v c A B E.
      + rewrite (U ex_in st k v c); [eexists; reflexivity|cbn; auto|exact A|exact B|exact E].
      + rewrite (U ex_out st k v c); [eexists; reflexivity|cbn; auto|exact A|exact B|exact E]. }
  assert (CS : forall s, In s [ex_whole; ex_parts] -> counts_set s).
  { intros a IA wn w I. destruct (H a IA wn w I) as [->|[->| ->]].
    - exact (Props_Lattice.ex_ac_counts "fin"%string Props_Lattice.ex_fin (or_intror (or_introl eq_refl))).
    - split; intros n x [J|[]]; injection J as <- <-; eexists; (split; [reflexivity|lia]).
    - split; intros n x J; [destruct J as [J|[J|[]]]|destruct J as [J|[]]]; injection J as <- <-; eexists; (split; [reflexivity|lia]). }
  assert (FO : forall s, In s [ex_whole; ex_parts] -> flags_ok s).
  { intros a IA wn w I. destruct (H a IA wn w I) as [->|[->| ->]]; cbn; auto. }
  assert (I1 : In ex_whole [ex_whole; ex_parts]) by (left; reflexivity). assert (I2 : In ex_parts [ex_whole; ex_parts]) by (right; left; reflexivity).
  split; [|exact (conj (PN _ I1) (conj (CS _ I1) (conj (FO _ I1) (conj (PN _ I2) (conj (CS _ I2) (FO _ I2))))))].
  exists [[(0, "in", ex_in, (1, "wing", ex_cut)); (1, "out", ex_out, (1, "wing", ex_cut))]; [(0, "f1", Props_Lattice.ex_fs, (0, "fin", Props_Lattice.ex_fin))]]%nat%string.
  split; [|exact (Permutation_app_comm [_; _] [_])]. constructor; [|constructor; [|constructor]].
  - exists [firstn 2 (ws_strips Props_Sides.ex_seg); rev (skipn 2 (ws_strips Props_Sides.ex_seg))]. split.
    { cbn [List.concat fst snd obj]. rewrite app_nil_r, <- (firstn_skipn 2 (ws_strips Props_Sides.ex_seg)) at 1. apply Permutation_app_head, Permutation_rev. }
    constructor; [|constructor; [|constructor]].
    + exists (mkRange 0 (1#2) 0 (1#2)). split; [reflexivity|]. split; [|split; [reflexivity|]]; [|split; [|split; [exact (K _ _ _)|reflexivity]]].
      * cbn. unfold ex_geo, Props_Sides.ex_geo, part_quad, within_R, vadd, vscale. cbn. f_equal; f_equal; unfold Q2R; cbn; field.
      * vm_compute. repeat (constructor; [repeat (constructor; try reflexivity)|]); constructor.
    + exists (mkRange (1#2) 1 (1#2) 1). split; [reflexivity|]. split; [|split; [reflexivity|]]; [|split; [|split; [exact (K _ _ _)|reflexivity]]].
      * cbn. unfold ex_geo, Props_Sides.ex_geo, part_quad, within_R, vadd, vscale. cbn. f_equal; f_equal; unfold Q2R; cbn; field.
      * vm_compute. repeat (constructor; [repeat (constructor; try reflexivity)|]); constructor.
  - exists [ws_strips Props_Lattice.ex_fs]. split; [cbn [List.concat fst snd obj]; rewrite app_nil_r; reflexivity|]. constructor; [|constructor].
    exists (mkRange 0 1 0 1). split; [reflexivity|]. split; [|split; [reflexivity|]]; [|split; [|split; [exact (K _ _ _)|reflexivity]]].
    + cbn. unfold ex_geo, Props_Sides.ex_geo, part_quad, within_R, vadd, vscale. cbn. f_equal; f_equal; unfold Q2R; cbn; field.
    + vm_compute. repeat (constructor; [repeat (constructor; try reflexivity)|]); constructor.
Qed.
