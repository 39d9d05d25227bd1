(** C122: place and normal of every panel of the lattice. *)
From Coq Require Import Reals List ZArith String QArith Qreals Lra.
From Verif Require Import PyBase Vec StripModel StripSpec AircraftModel LatticeModel LatticeSpec PanelModel GeomSpec
  NormalModel NormalSpec WingModel PrePanelModel PrePanelSpec GeomModel MirrorProofs PlaceSpec PlaceProofs PlaceLoad
  Props_Lattice Props_Normals Props_PrePanel Props_Analysis.
Import ListNotations.
Open Scope R_scope.

(** Every subarea of the aircraft, on each side of its wing, gets consecutive panels in the number set for
    it, and every panel of the lattice is one of these: its corners divide the edges of the subarea evenly
    and its normal is turned for deflection and camber. *)
Theorem C122_panels :
  forall geo camber alpha beta a, panelled a -> counts_set a -> flags_ok a ->
  exists pans n, gen_lattice geo camber true alpha beta a = Ok (pans, n) /\ List.length n = List.length pans /\
    (forall w g d v s, piece_of a w g d v -> has_side w s ->
     exists first num, (0 <= first)%Z /\ (1 <= num)%Z /\ count_for w g v num /\
     forall k, (0 <= k < num)%Z -> exists p z, nth_error pans (Z.to_nat (first + k)) = Some p /\
       nth_error n (Z.to_nat (first + k)) = Some z /\ right_panel geo camber a w g d v s num k p z) /\
    (forall i p z, nth_error pans i = Some p -> nth_error n i = Some z ->
     exists w g d v s num k, piece_of a w g d v /\ has_side w s /\ count_for w g v num /\ (0 <= k < num)%Z /\
       right_panel geo camber a w g d v s num k p z).
Proof. exact lattice_placed. Qed.
Print Assumptions C122_panels.

(** The panels leave no gaps along the edges of the strips, the leading edge and the trailing edge of
    each segment, on both sides of a wing (not about 'yz', see C15). *)
Theorem C122_no_gaps :
  forall geo camber alpha beta a, panelled a -> counts_set a -> flags_ok a ->
  exists pans n, gen_lattice geo camber true alpha beta a = Ok (pans, n) /\
    forall wn w gn g s, In (wn, w) (a_wings a) -> In (gn, g) (w_segs w) -> has_side w s -> s <> Mirrored YZ ->
    let seg := geo (w_uid w) (ws_uid g) in
    (forall d x, In d (ws_strips g) -> 0 <= x <= 1 ->
      (exists i p, nth_error pans i = Some p /\ on_sides p (on_side s (inner_at seg d x))) /\
      (exists i p, nth_error pans i = Some p /\ on_sides p (on_side s (outer_at seg d x)))) /\
    (forall eta, (0 <= eta)%Q -> (eta < 1)%Q ->
      (exists i p, nth_error pans i = Some p /\ on_front p (on_side s (surface seg (Q2R eta) 0))) /\
      (cuts_aligned (ws_strips g) ->
       exists i p, nth_error pans i = Some p /\ on_rear p (on_side s (surface seg (Q2R eta) 1)))).
Proof. exact lattice_covers. Qed.
Print Assumptions C122_no_gaps.

(** With cuts at the same relative position at the leading and trailing edge, as the program makes them,
    the edges of a strip are lines of constant relative span on the segment. *)
Theorem C122_aligned :
  forall seg d x, (eta_d d == eta_a d)%Q -> (eta_c d == eta_b d)%Q ->
  inner_at seg d x = surface seg (Q2R (eta_a d)) x /\ outer_at seg d x = surface seg (Q2R (eta_b d)) x.
Proof. exact aligned_points. Qed.
Print Assumptions C122_aligned.

(** On an aircraft that was divided by the program, all panels have their corners on the surfaces of the
    segments given by the user (or their mirror images), and cover the leading and trailing edges. *)
Theorem C122_divided :
  forall interp dist geo camber alpha beta a a', fresh a -> counts_set a -> flags_ok a ->
  pre_panelling interp dist a = (a', Ok tt) ->
  exists pans n, gen_lattice geo camber true alpha beta a' = Ok (pans, n) /\ List.length n = List.length pans /\
    (forall i p, nth_error pans i = Some p ->
     exists wn w gn g s, In (wn, w) (a_wings a) /\ In (gn, g) (w_segs w) /\ has_side w s /\
       let seg := geo (w_uid w) (ws_uid g) in
       corner_on seg s (pP p) /\ corner_on seg s (pQ p) /\ corner_on seg s (pR p) /\ corner_on seg s (pS p)) /\
    (forall wn w gn g s, In (wn, w) (a_wings a) -> In (gn, g) (w_segs w) -> has_side w s -> s <> Mirrored YZ ->
     let seg := geo (w_uid w) (ws_uid g) in
     forall eta, (0 <= eta)%Q -> (eta < 1)%Q ->
       (exists i p, nth_error pans i = Some p /\ on_front p (on_side s (surface seg (Q2R eta) 0))) /\
       (exists i p, nth_error pans i = Some p /\ on_rear p (on_side s (surface seg (Q2R eta) 1)))).
Proof. exact divided_lattice. Qed.
Print Assumptions C122_divided.

(** An aircraft with a flap over several segments of a symmetric wing and a second wing. *)
Example C122_divided_example :
  fresh ex_filled /\ counts_set ex_filled /\ flags_ok ex_filled /\
  exists a, pre_panelling ex_ip ex_dist ex_filled = (a, Ok tt).
Proof. destruct C88_example as (_ & A & B & C & _ & D & _). exact (conj A (conj B (conj C D))). Qed.

(** The example aircraft has a subarea with a deflected control on a wing with two sides. *)
Example C122_example :
  panelled ex_ac /\ counts_set ex_ac /\ flags_ok ex_ac /\
  exists w g d v, piece_of ex_ac w g d v /\ has_side w Given /\ has_side w (Mirrored XZ) /\ sa_ctrl v <> None /\
    (eta_d d == eta_a d)%Q /\ (eta_c d == eta_b d)%Q.
Proof.
  split; [exact ex_ac_panelled|]. split; [exact ex_ac_counts|]. split; [exact C40_flags|].
  assert (H : existsb (fun w => Z.eqb (w_symmetry (snd w)) 2 && existsb (fun g => existsb (fun d =>
     Qeq_bool (eta_d d) (eta_a d) && Qeq_bool (eta_c d) (eta_b d) &&
     existsb (fun v => match sa_ctrl (snd v) with Some _ => true | None => false end) (st_subs d)) (ws_strips (snd g)))
     (w_segs (snd w)))%bool (a_wings ex_ac) = true) by (vm_compute; reflexivity).
  apply existsb_exists in H. destruct H as ([wn w] & Iw & H). apply andb_prop in H. destruct H as (S & H).
  apply existsb_exists in H. destruct H as ([gn g] & Ig & H).
  apply existsb_exists in H. destruct H as (d & Id & H). apply andb_prop in H. destruct H as (Al & H).
  apply andb_prop in Al. destruct Al as (A1 & A2).
  apply existsb_exists in H. destruct H as ([ty v] & Iv & H). cbn [snd] in *.
  exists w, g, d, v. split; [exists wn, gn, ty; auto|]. split; [exact I|]. split; [apply Z.eqb_eq; exact S|].
  split; [destruct (sa_ctrl v); discriminate|]. split; apply Qeq_bool_iff; assumption.
Qed.

(** C14: other planes are refused wherever a plane is named. *)
Theorem C14_other_planes : forall x, (forall p, ~ names x p) ->
  (forall v, mirror_vertices v x = Err ValueError) /\
  (forall v : R * R * R * R, order_mirrored v x = Err ValueError) /\
  (forall v : vec * vec * vec * vec, order_mirrored v x = Err ValueError).
Proof.
  exact (fun x H => conj (fun v => mirror_vertices_err v x H)
    (conj (fun v => order_mirrored_err v x H) (fun v => order_mirrored_err v x H))).
Qed.
Print Assumptions C14_other_planes.

Example C14_other_example : forall p, ~ names (PlStr "zx") p.
Proof. intros p [E|E]; [discriminate|destruct p; discriminate]. Qed.
