(** C127: mirrored wings and wings modelled on both sides. *)
From Coq Require Import Reals String List ZArith QArith Qreals Lra Lia Permutation.
From Verif Require Import PyBase Vec StripModel StripSpec StripRun AircraftModel LatticeModel LatticeSpec PanelModel GeomModel NormalModel NormalSpec VlmModel VlmSpec
  IsoSpec OrderSpec SidesSpec SidesProofs.
From Verif Require Props_Strips Props_Lattice.
Import ListNotations.

(** Modelling both sides of a wing instead of mirroring it, with the deflections of the mirrored side on the other one, gives the same panels
    and the same loads. *)
Theorem C127_both_sides geo geo' camber camber' a a' eps s r : modelled_on_both_sides geo geo' camber camber' a a' ->
  panelled a -> counts_set a -> flags_ok a -> panelled a' -> counts_set a' -> flags_ok a' ->
  exists pans n pans' n', gen_lattice geo camber true (f_alpha s) (f_beta s) a = Ok (pans, n) /\ gen_lattice geo' camber' true (f_alpha s) (f_beta s) a' = Ok (pans', n') /\
    Permutation (set_normals pans n) (set_normals pans' n') /\
    forall g o, loads eps (set_normals pans n) s r g o -> exists g' o', loads eps (set_normals pans' n') s r g' o' /\
      o_F o' = o_F o /\ o_M o' = o_M o /\ o_co o' = o_co o /\ same_panels (set_normals pans n) (set_normals pans' n') o o'.
Proof. exact (sides_loads geo geo' camber camber' a a' eps s r). Qed.
Print Assumptions C127_both_sides.

(** A mirrored wing with an aileron that is deflected by 5 on one side and by -3 on the other, a fin, and a tail mirrored at the xy-plane
    with a rudder; the same with a right and a left wing, an upper and a lower tail. *)
Definition ex_seg : wsegment :=
  mkWS "seg" (Some 4%Z) (Some 2%Z) 5 (run lin_interp [OpControl (1#10) (8#10) Props_Strips.ex_flap (7#10) (8#10) None (Some (75#100)); OpSubdiv (1#2) (1#2) false]).
Definition ex_seg' : wsegment :=
  mkWS "seg" (Some 4%Z) (Some 2%Z) 5 (run lin_interp [OpControl (2#10) (9#10) Props_Strips.ex_flap (8#10) (7#10) (Some (75#100)) None; OpSubdiv (1#2) (1#2) false]).
Definition ex_wc (d m : option Q) : wcontrol :=
  mkWC Props_Strips.ex_flap (Some 3%Z) d m (Some "seg"%string) (Some "seg"%string) (1#10) (8#10) (7#10) (8#10) None None.
Definition ex_wing : wing := mkWing "wing" 2 [("seg"%string, ex_seg)] [("flap"%string, ex_wc (Some (5#1)%Q) (Some (-3#1)%Q))].
Definition ex_right : wing := mkWing "right" 0 [("seg"%string, ex_seg)] [("flap"%string, ex_wc (Some (5#1)%Q) None)].
Definition ex_left : wing := mkWing "left" 0 [("seg"%string, ex_seg')] [("flap"%string, ex_wc (Some (-3#1)%Q) None)].
Definition ex_tail : wing := mkWing "tail" 1 [("seg"%string, ex_seg)] [("flap"%string, ex_wc (Some (5#1)%Q) (Some (-3#1)%Q))].
Definition ex_upper : wing := mkWing "upper" 0 [("seg"%string, ex_seg)] [("flap"%string, ex_wc (Some (5#1)%Q) None)].
Definition ex_lower : wing := mkWing "lower" 0 [("seg"%string, ex_seg)] [("flap"%string, ex_wc (Some (-3#1)%Q) (Some (5#1)%Q))].
Definition ex_mirrored : aircraft := mkAC "mirrored" [("wing", ex_wing); ("fin", Props_Lattice.ex_fin); ("tail", ex_tail)]%string.
Definition ex_modelled : aircraft := mkAC "modelled" [("left", ex_left); ("fin", Props_Lattice.ex_fin); ("right", ex_right); ("upper", ex_upper); ("lower", ex_lower)]%string.
Definition ex_geo (w s : string) : quad :=
  if String.eqb w "fin" then mkQuad (mkV 4 0 0) (mkV 4 0 2) (mkV 5 0 2) (mkV 5 0 0)
  else if String.eqb w "lower" then mkQuad (mkV 4 0 0) (mkV 5 0 (-2)) (mkV 6 0 (-2)) (mkV 5 0 0)
  else if (String.eqb w "tail" || String.eqb w "upper")%bool then mkQuad (mkV 4 0 0) (mkV 5 0 2) (mkV 6 0 2) (mkV 5 0 0)
  else if String.eqb w "left" then mkQuad (mkV 1 (-5) 1) (mkV 0 0 0) (mkV 1 0 0) (mkV 3 (-5) 1) else mkQuad (mkV 0 0 0) (mkV 1 5 1) (mkV 3 5 1) (mkV 1 0 0).
Definition ex_camber (v : subarea_visit) (x : R) : R := (x + Q2R (xsi_a (v_sub v)) + Q2R (xsi_b (v_sub v)))%R.

Example C127_both_sides_example : modelled_on_both_sides ex_geo ex_geo ex_camber ex_camber ex_mirrored ex_modelled /\
  panelled ex_mirrored /\ counts_set ex_mirrored /\ flags_ok ex_mirrored /\ panelled ex_modelled /\ counts_set ex_modelled /\ flags_ok ex_modelled.
Proof.
  assert (U : forall s st k v c, s = ex_seg \/ s = ex_seg' -> In st (ws_strips s) -> In (k, v) (st_subs st) -> sa_ctrl v = Some c -> ct_uid c = "flap"%string).
  { assert (X : forallb (fun s => forallb (fun st => forallb (fun kv => match sa_ctrl (snd kv) with Some c => String.eqb (ct_uid c) "flap" | None => true end) (st_subs st)) (ws_strips s)) [ex_seg; ex_seg'] = true)
      by (vm_compute; reflexivity).
    intros s st k v c H A B E. rewrite forallb_forall in X. assert (Y : In s [ex_seg; ex_seg']) by (destruct H as [->| ->]; [left|right; left]; reflexivity).
    specialize (X _ Y). rewrite forallb_forall in X. specialize (X _ A). rewrite forallb_forall in X. specialize (X _ B). cbn [snd] in X. rewrite E in X. apply String.eqb_eq. exact X. }
  assert (F : forall sn s, In (sn, s) (w_segs Props_Lattice.ex_fin) -> (exists interp ops, sound_session interp ops /\ ws_strips s = run interp ops) /\
    (forall st k v c, In st (ws_strips s) -> In (k, v) (st_subs st) -> sa_ctrl v = Some c -> exists wc, dget (w_ctls Props_Lattice.ex_fin) (ct_uid c) = Some wc)).
  { intros sn s J. exact (Props_Lattice.ex_ac_panelled "fin"%string Props_Lattice.ex_fin sn s (or_intror (or_introl eq_refl)) J). }
  assert (G : forall s, s = ex_seg \/ s = ex_seg' -> exists interp ops, sound_session interp ops /\ ws_strips s = run interp ops).
  { intros s [->| ->]; eexists lin_interp, _; (split; [left; exact lin_interp_ok|reflexivity]). }
  split; [|split; [|split; [|split; [|split; [|split]]]]].
  - set (fin := (0, "f1", Props_Lattice.ex_fs)%nat%string).
    exists [(0, "seg", ex_seg, (0, "wing", ex_wing)); (fin, (1, "fin", Props_Lattice.ex_fin)); (0, "seg", ex_seg, (2, "tail", ex_tail))]%nat%string.
    exists [(0, "seg", ex_seg, (2, "right", ex_right)); (0, "seg", ex_seg', (0, "left", ex_left)); (fin, (1, "fin", Props_Lattice.ex_fin)); (0, "seg", ex_seg, (3, "upper", ex_upper)); (0, "seg", ex_seg, (4, "lower", ex_lower))]%nat%string.
    split; [reflexivity|]. split.
    + apply b_both; [reflexivity| | |apply b_keep; [repeat split|apply b_under; [reflexivity| | |apply b_nil]]].
      * do 5 (split; [reflexivity|]). cbn [fst snd obj]. intros st k v c A B E. pose proof (U _ _ _ _ _ (or_introl eq_refl) A B E) as N. unfold panels_and_deflection. rewrite N. reflexivity.
      * split; [reflexivity|]. split; [cbn; unfold ex_geo, other_quad, mir; cbn; f_equal; f_equal; lra|]. split; [reflexivity|]. split; [|split].
        -- exists (skipn 2 (ws_strips ex_seg') ++ firstn 2 (ws_strips ex_seg')). split; [|rewrite Permutation_app_comm, firstn_skipn; reflexivity]. cbn [fst snd obj]. vm_compute.
           repeat (constructor; [repeat (constructor; try reflexivity); intro; discriminate|]); constructor.
        -- intros sub st sub' st' y (_ & A & B & _) _. unfold ex_camber, v_sub. cbn [fst snd]. apply Qeq_eqR in A, B. rewrite A, B. lra.
        -- cbn [fst snd obj]. intros st k v st' k' v' c c' A B A' B' _ _ E E'. pose proof (U _ _ _ _ _ (or_introl eq_refl) A B E) as N. pose proof (U _ _ _ _ _ (or_intror eq_refl) A' B' E') as N'.
           unfold panels_and_deflection, panels_and_mirrored_deflection. rewrite N, N'. reflexivity.
      * do 5 (split; [reflexivity|]). cbn [fst snd obj]. intros st k v c A B E. pose proof (U _ _ _ _ _ (or_introl eq_refl) A B E) as N. unfold panels_and_deflection. rewrite N. reflexivity.
      * split; [reflexivity|]. split; [cbn; unfold ex_geo, under_quad; cbn; f_equal; f_equal; lra|]. do 3 (split; [reflexivity|]). cbn [fst snd obj]. intros st k v c A B E.
        pose proof (U _ _ _ _ _ (or_introl eq_refl) A B E) as N. unfold panels_and_deflection, panels_and_mirrored_deflection. rewrite N. reflexivity.
    + change (all_segments ex_modelled) with [(0, "seg", ex_seg', (0, "left", ex_left)); (fin, (1, "fin", Props_Lattice.ex_fin)); (0, "seg", ex_seg, (2, "right", ex_right)); (0, "seg", ex_seg, (3, "upper", ex_upper)); (0, "seg", ex_seg, (4, "lower", ex_lower))]%nat%string.
      apply (Permutation_app_tail [_; _] (Permutation_app_comm [_] [_; _])).
  - intros wn w sn s [I|[I|[I|[]]]] J; injection I as <- <-; [|apply F with sn; exact J|]; destruct J as [J|[]]; injection J as <- <-.
    + split; [apply G; left; reflexivity|]. intros st k v c A B E. exists (ex_wc (Some (5#1)%Q) (Some (-3#1)%Q)). rewrite (U _ _ _ _ _ (or_introl eq_refl) A B E). reflexivity.
    + split; [apply G; left; reflexivity|]. intros st k v c A B E. exists (ex_wc (Some (5#1)%Q) (Some (-3#1)%Q)). rewrite (U _ _ _ _ _ (or_introl eq_refl) A B E). reflexivity.
  - intros wn w [I|[I|[I|[]]]]; injection I as <- <-.
    + split; intros n x [J|[]]; injection J as <- <-; eexists; (split; [reflexivity|lia]).
    + exact (Props_Lattice.ex_ac_counts "fin"%string Props_Lattice.ex_fin (or_intror (or_introl eq_refl))).
    + split; intros n x [J|[]]; injection J as <- <-; eexists; (split; [reflexivity|lia]).
  - intros wn w [I|[I|[I|[]]]]; injection I as <- <-; cbn; auto.
  - intros wn w sn s [I|[I|[I|[I|[I|[]]]]]] J; injection I as <- <-; [|apply F with sn; exact J| | |]; destruct J as [J|[]]; injection J as <- <-.
    + split; [apply G; right; reflexivity|]. intros st k v c A B E. exists (ex_wc (Some (-3#1)%Q) None). rewrite (U _ _ _ _ _ (or_intror eq_refl) A B E). reflexivity.
    + split; [apply G; left; reflexivity|]. intros st k v c A B E. exists (ex_wc (Some (5#1)%Q) None). rewrite (U _ _ _ _ _ (or_introl eq_refl) A B E). reflexivity.
    + split; [apply G; left; reflexivity|]. intros st k v c A B E. exists (ex_wc (Some (5#1)%Q) None). rewrite (U _ _ _ _ _ (or_introl eq_refl) A B E). reflexivity.
    + split; [apply G; left; reflexivity|]. intros st k v c A B E. exists (ex_wc (Some (-3#1)%Q) (Some (5#1)%Q)). rewrite (U _ _ _ _ _ (or_introl eq_refl) A B E). reflexivity.
  - intros wn w [I|[I|[I|[I|[I|[]]]]]]; injection I as <- <-.
    + split; intros n x [J|[]]; injection J as <- <-; eexists; (split; [reflexivity|lia]).
    + exact (Props_Lattice.ex_ac_counts "fin"%string Props_Lattice.ex_fin (or_intror (or_introl eq_refl))).
    + split; intros n x [J|[]]; injection J as <- <-; eexists; (split; [reflexivity|lia]).
    + split; intros n x [J|[]]; injection J as <- <-; eexists; (split; [reflexivity|lia]).
    + split; intros n x [J|[]]; injection J as <- <-; eexists; (split; [reflexivity|lia]).
  - intros wn w [I|[I|[I|[I|[I|[]]]]]]; injection I as <- <-; cbn; auto.
Qed.
