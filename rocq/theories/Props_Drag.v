(** C120: induced drag of plain wings with strips of equal widths. *)
From Coq Require Import Reals List ZArith Lra Lia.
From Verif Require Import Vec PanelModel VlmModel RowSpec DragSpec DragProofs.
Import ListNotations.
Open Scope R_scope.

(** For any circulations at all, the drag is positive unless all of them vanish; then it is zero. *)
Theorem C120_drag x0 z0 y subs lat s r eps h g : plain_wing 10000 x0 z0 y subs -> Forall2 tilted (lattice (trail_dir 0 0) subs) lat -> even h subs ->
  straight s -> 0 < eps -> 0 < f_rho s -> length g = length lat ->
  exists o, vlm_results eps lat s r g = Some o /\ (loaded g -> 0 < c_D (o_co o)) /\ (~ loaded g -> c_D (o_co o) = 0) /\
    (0 < f_airspeed s -> 0 < r_area r -> exists CD, c_CD (o_co o) = Some CD /\ (loaded g -> 0 < CD) /\ (~ loaded g -> CD = 0)).
Proof. exact (plain_drag x0 z0 y subs lat s r eps h g). Qed.
Print Assumptions C120_drag.

(** Hence the flow about a wing with a panel that is not parallel to the flow has positive drag. *)
Theorem C120_solved x0 z0 y subs lat s r eps h m g : plain_wing 10000 x0 z0 y subs -> Forall2 tilted (lattice (trail_dir 0 0) subs) lat -> even h subs ->
  straight s -> 0 < eps -> 0 < f_rho s -> 0 < f_airspeed s -> 0 < r_area r -> (exists j, In j lat /\ vx (pN j) <> 0) ->
  downwash eps lat = Some m -> solves m (boundary lat s r) g ->
  exists o CD, vlm_results eps lat s r g = Some o /\ 0 < c_D (o_co o) /\ c_CD (o_co o) = Some CD /\ 0 < CD.
Proof. exact (solved_drag x0 z0 y subs lat s r eps h m g). Qed.
Print Assumptions C120_solved.

(** A wing of two tapered halves of different spans with strips of one width; a panel is turned up and one down. *)
Definition even_wing : list (quad * (Z * Z)) := [(plain 0 0 (-6) 0 1 2, (3, 1)%Z); (plain 0 0 1 5 2 1, (2, 1)%Z)].
Definition turn (ps : list panel) : list panel :=
  match ps with p :: q :: r => set_normal p (mkV (-3 / 5) 0 (-4 / 5)) :: set_normal q (mkV (3 / 5) 0 (-4 / 5)) :: map (fun p => set_normal p (mkV 0 0 (-1))) r | _ => [] end.
Example C120_example :
  let lat := turn (lattice (trail_dir 0 0) even_wing) in
  plain_wing 10000 0 0 (-6) even_wing /\ even 2 even_wing /\ Forall2 tilted (lattice (trail_dir 0 0) even_wing) lat /\ length lat = 5%nat /\
  (exists j, In j lat /\ vx (pN j) <> 0) /\ loaded [1; -1; 0; 0; 2].
Proof.
  cbv zeta. unfold even_wing, lattice. cbn [flat_map fst snd]. unfold sub_panels. change (Z.to_nat (3 * 1)) with 3%nat. change (Z.to_nat (2 * 1)) with 2%nat.
  cbn [seq map app turn length]. split; [|split; [|split; [|split; [reflexivity|split]]]].
  - repeat (constructor; [lra|lra|lra|lra|reflexivity|]). constructor.
  - intros q ns nc [H|[H|[]]]; injection H as <- <- <-; unfold across, plain; cbn [qa qb vy]; lra.
  - repeat (constructor; [do 6 (split; [reflexivity|]); cbn [set_normal pN vz]; lra|]). constructor.
  - eexists. split; [left; reflexivity|]. cbn [set_normal pN vx]. lra.
  - exists 1. split; [left; reflexivity|lra].
Qed.
