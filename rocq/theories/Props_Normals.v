(** C40, C51: final normals of the lattice. *)
From Coq Require Import Reals List ZArith String QArith Qreals Lra.
From Verif Require Import PyBase Vec StripModel StripSpec AircraftModel LatticeModel LatticeSpec PanelModel GeomModel
  GeomSpec NormalModel NormalSpec GeomProofs MirrorProofs NormalProofs Props_Lattice Props_Geometry.
Import ListNotations.
Open Scope R_scope.

(** C40: lattice generation succeeds on every panelled aircraft; the normal of panel [i] of record [e]
    is the normal of the flat panel, turned first for the deflection of the control on the side of the
    record, then for the camber line at the collocation position. *)
Theorem C40_final_normals :
  forall geo camber alpha beta a, panelled a -> counts_set a -> flags_ok a ->
  exists st pans n, panel_count a = Ok st /\ gen_lattice geo camber true alpha beta a = Ok (pans, n) /\
    Z.of_nat (List.length pans) = c_p st /\ Z.of_nat (List.length n) = c_p st /\
    forall e i, In e (bk_list (c_book st)) -> (e_lo e <= i < e_hi e)%Z ->
    exists q p y z,
      entry_vertices geo e = Ok q /\ p = make_panel (trail_dir alpha beta) q 1 (e_num_c e) (i - e_lo e) 0 /\
      nth_error pans (Z.to_nat i) = Some p /\
      deflected geo e (pN p) y /\ cambered geo camber e (i - e_lo e) y z /\ nth_error n (Z.to_nat i) = Some z.
Proof. exact final_normals_short. Qed.
Print Assumptions C40_final_normals.

(** Without deflections and with symmetric airfoils nothing changes. *)
Theorem C40_nothing_deflected :
  forall geo camber alpha beta a, panelled a -> counts_set a -> flags_ok a ->
  undeflected a -> (forall v x, camber v x = 0) ->
  exists pans, gen_lattice geo camber true alpha beta a = Ok (pans, map pN pans).
Proof. exact normals_unchanged. Qed.
Print Assumptions C40_nothing_deflected.

(** Rotations keep lengths and, for a deflection, the component along the hinge; positive angles
    follow the right-hand rule. *)
Theorem C40_turned_meaning :
  forall axis deg v w, axis <> vzero -> turned axis deg v w ->
  vnorm w = vnorm v /\ vdot axis w = vdot axis v /\
  (vdot axis v = 0 -> vdot v w = vdot v v * cos (deg * PI / 180) /\
     vdot axis (vcross v w) = vnorm axis * vdot v v * sin (deg * PI / 180)).
Proof. exact turned_meaning. Qed.
Print Assumptions C40_turned_meaning.

Example C40_flags : flags_ok ex_ac.
Proof. intros wn w [E|[E|[]]]; injection E as <- <-; simpl; auto. Qed.

(** In the example both sides of a flap are deflected, by different angles. *)
Example C40_example :
  panelled ex_ac /\ counts_set ex_ac /\ flags_ok ex_ac /\
  exists st e e', panel_count ex_ac = Ok st /\ In e (bk_list (c_book st)) /\ In e' (bk_list (c_book st)) /\
    e_visit e = e_visit e' /\ e_mirror e = false /\ e_mirror e' = true /\
    sa_ctrl (v_sub (e_visit e)) <> None.
Proof.
  split; [exact ex_ac_panelled|]. split; [exact ex_ac_counts|]. split; [exact C40_flags|].
  destruct (panel_count ex_ac) as [st|] eqn:E; [|vm_compute in E; discriminate].
  destruct (nth_error (bk_list (c_book st)) 2) as [e|] eqn:E1.
  2:{ vm_compute in E. injection E as <-. discriminate. }
  destruct (nth_error (bk_list (c_book st)) 3) as [e'|] eqn:E2.
  2:{ vm_compute in E. injection E as <-. discriminate. }
  exists st, e, e'. split; [reflexivity|]. split; [exact (nth_error_In _ _ E1)|]. split; [exact (nth_error_In _ _ E2)|].
  vm_compute in E. injection E as <-. cbn in E1, E2. injection E1 as <-. injection E2 as <-. cbn. repeat split. discriminate.
Qed.

(** ** C51: equal deflections on both sides give mirrored normals *)

Theorem C51_symmetric_normals_partial :
  forall geo camber alpha beta a, panelled a -> counts_set a -> flags_ok a ->
  exists st pans n, panel_count a = Ok st /\ gen_lattice geo camber true alpha beta a = Ok (pans, n) /\
    forall e e' k q, In e (bk_list (c_book st)) -> In e' (bk_list (c_book st)) ->
      e_visit e' = e_visit e -> e_mirror e = false -> e_mirror e' = true ->
      w_symmetry (v_wing (e_visit e)) = 2%Z ->
      (forall c wc, sa_ctrl (v_sub (e_visit e)) = Some c -> dget (w_ctls (v_wing (e_visit e))) (ct_uid c) = Some wc -> same_deflection wc) ->
      entry_vertices geo e = Ok q -> parallel_chords q \/ (forall y, camber (e_visit e) y = 0) ->
      (0 <= k < e_num_c e)%Z ->
      e_num_c e' = e_num_c e /\
      exists p p' x x', nth_error pans (Z.to_nat (e_lo e + k)) = Some p /\ nth_error pans (Z.to_nat (e_lo e' + k)) = Some p' /\
        nth_error n (Z.to_nat (e_lo e + k)) = Some x /\ nth_error n (Z.to_nat (e_lo e' + k)) = Some x' /\
        pC p' = refl XZ (pC p) /\ pB p' = refl XZ (pB p) /\ x' = refl XZ x.
Proof. exact symmetric_normals. Qed.
Print Assumptions C51_symmetric_normals_partial.

(** With camber and chords that are not parallel the two sides differ. *)
Theorem C51_camber_asymmetric_refuted : exists seg e x q q' th,
  subarea_vertices seg e x false 2 = Ok q /\ subarea_vertices seg e x true 2 = Ok q' /\ planar q /\ convex q /\
  let N := pN (make_panel (trail_dir 0 0) q 1 1 0 0) in let N' := pN (make_panel (trail_dir 0 0) q' 1 1 0 0) in
  N' = refl XZ N /\ rot (camber_axis q') th N' <> refl XZ (rot (camber_axis q) th N).
Proof. exact camber_asymmetric. Qed.
Print Assumptions C51_camber_asymmetric_refuted.

Example C51_example : parallel_chords ex_seg.
Proof.
  exists (1/2). split; [lra|]. unfold ex_seg. apply vec_eq; vsimp; lra.
Qed.
