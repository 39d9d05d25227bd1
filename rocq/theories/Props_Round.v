(** Strips in double precision (C103). *)
From Coq Require Import List ZArith QArith Qabs Lia.
From Verif Require Import PyBase PyFacts StripModel StripSpec StripSpan RoundModel RoundSpec RoundSpan RoundProofs Props_Strips.
Import ListNotations.
Open Scope Q_scope.

(** C103: the rounding used is the one of double precision, to the nearest number of 53 bits,
    and it has half a unit in the last place of relative error. *)
Theorem C103_rounding : (forall x, nearest_double x (rnd64 x)) /\ accurate rnd64.
Proof. split; [exact rnd64_nearest|exact rnd64_accurate]. Qed.
Print Assumptions C103_rounding.

(** Examples: the doubles of 1/100, 1/3 and a tie. *)
Example C103_rounding_examples :
  rnd64 (1 # 100) = (5764607523034235 # 576460752303423488) /\
  rnd64 (1 # 3) = (6004799503160661 # 18014398509481984) /\
  rnd64 (inject_Z (2 ^ 53 + 1)) = inject_Z (2 ^ 53) /\ rnd64 (inject_Z (2 ^ 53 + 3)) = inject_Z (2 ^ 53 + 4).
Proof. vm_compute. auto. Qed.

(** Whatever the rounding, the strips cover the span without gap or overlap after any calls,
    every span position below 1 is in exactly one strip, and cuts are vertical if asked for so. *)
Theorem C103_tiles_span :
  forall rnd interp ops,
    tiles_span (frun rnd interp ops) /\
    (forall eta, 0 <= eta -> eta < 1 -> exists i s b, get_subdiv_at_eta (frun rnd interp ops) eta = Some (i, s, b) /\
       nth_error (frun rnd interp ops) i = Some s /\ covers s eta) /\
    (Forall op_aligned ops -> cuts_aligned (frun rnd interp ops)).
Proof.
  intros rnd interp ops. pose proof (frun_tiles rnd interp ops) as T. split; [exact T|].
  split; [intros eta A B; exact (lookup_total _ eta T A B)|exact (frun_aligned rnd interp ops)].
Qed.
Print Assumptions C103_tiles_span.

(** Lines once made stay, whatever the rounding. *)
Theorem C103_lines_kept :
  forall rnd interp seg a d ig seg' r, fadd_subdivision rnd interp seg a d ig = (seg', r) ->
    (forall i s, nth_error seg i = Some s -> exists s', nth_error seg' i = Some s' /\ eta_a s' = eta_a s) /\
    (forall x, line_at seg' x -> line_at seg x \/ x == a) /\
    (List.length seg' = List.length seg \/ List.length seg' = S (List.length seg)).
Proof. exact fadd_subdivision_frame. Qed.
Print Assumptions C103_lines_kept.

Example C103_tiles_example : List.length (frun rnd64 lin_interp ex_ops) = 8%nat.
Proof. vm_compute. reflexivity. Qed.

(** As many equal strips as asked for, up to 99: the borders are within 2^-51 of i/n. *)
Theorem C103_equal_strips_partial :
  forall rnd interp n, accurate rnd -> (1 <= n <= 99)%Z ->
  exists l, fdivide rnd interp new_segment n = (l, Ok tt) /\ almost_equal_strips n l.
Proof. intros rnd interp n A [B C]. exact (fdivide_equal rnd interp A n B C). Qed.
Print Assumptions C103_equal_strips_partial.

(** The border positions are rounded: strip 49 of 49 does not start at 48/49. *)
Example C103_equal_strips_example :
  exists l s, fdivide rnd64 lin_interp new_segment 49 = (l, Ok tt) /\ nth_error l 48 = Some s /\ ~ eta_a s == 48 # 49.
Proof. eexists. eexists. split; [vm_compute; reflexivity|]. split; [vm_compute; reflexivity|]. vm_compute. discriminate. Qed.

(** 100 strips, which exact arithmetic would make, are not made: neighbouring lines may differ by less
    than the double of 0.01, and are then dropped without notice. *)
Theorem C103_equal_strips_refuted :
  exists l, fdivide rnd64 lin_interp new_segment 100 = (l, Ok tt) /\ List.length l = 84%nat /\
    List.length (fst (fdivide (fun x => x) lin_interp new_segment 100)) = 100%nat.
Proof. eexists. split; [vm_compute; reflexivity|]. vm_compute. auto. Qed.
Print Assumptions C103_equal_strips_refuted.

(** Without rounding the functions are those of [StripModel]. *)
Example C103_exact : forall interp ops, frun (fun x => x) interp ops = run interp ops.
Proof. reflexivity. Qed.
