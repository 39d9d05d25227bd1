(** A lattice (0), a state (1) and results (2) with all they need. *)
From Coq Require Import List ZArith String Bool Lia.
From Verif Require Import RefModel RefSpec.
Import ListNotations.
Open Scope Z_scope.

(** 3: array, 4: float, 5: int, 6: info, 7: aero, 8: refs, 9: panelwise, 10: forces, 11: coeffs, 12: None.
    One array stands for all result arrays; 13-18 are the arrays of the lattice.  Objects 0, 1 and 2
    are each referenced by one variable. *)
Definition ex_attrs : slots :=
  [(0, "p", 13); (0, "v", 14); (0, "c", 15); (0, "bound_leg_midpoints", 16); (0, "n", 17); (0, "a", 18); (0, "epsilon", 4); (0, "info", 6);
   (1, "aero", 7); (1, "refs", 8); (2, "panelwise", 9); (2, "forces", 10); (2, "coeffs", 11)]%string.
Definition all_of (d : Z) (l : list string) (v : Z) : slots := map (fun n => (d, n, v)) l.
Definition totals : list string := ["x"; "y"; "z"; "D"; "C"; "L"; "l"; "m"; "n"]%string.
Definition ex_items : slots :=
  all_of 6 ["num_panels"; "num_segments"]%string 5 ++
  all_of 6 ["area_min"; "area_max"; "area_avg"; "aspect_min"; "aspect_max"; "aspect_avg"]%string 12 ++
  all_of 7 ["airspeed"; "alpha"; "beta"; "rate_P"; "rate_Q"; "rate_R"; "density"]%string 4 ++
  all_of 8 ["area"; "span"; "chord"]%string 4 ++ all_of 8 ["gcenter"; "rcenter"]%string 3 ++
  all_of 9 ["gamma"; "vx"; "vy"; "vz"; "vmag"; "fx"; "fy"; "fz"; "fmag"; "cp"]%string 3 ++
  all_of 10 totals 12 ++ all_of 11 totals 12.
Definition ex_kinds : list kind :=
  [KOther; KOther; KOther; KFloatArray; KFloat; KLong; KDict; KDict; KDict; KDict; KDict; KDict; KOther;
   KFloatArray; KFloatArray; KFloatArray; KFloatArray; KFloatArray; KFloatArray].
Definition ex_objs : list (kind * Z) :=
  map (fun x => (fst x, held ex_attrs (snd x) + held ex_items (snd x) + (if snd x <? 3 then 1 else 0)))
    (combine ex_kinds (map Z.of_nat (seq 0 (List.length ex_kinds)))).
Definition ex_world : pyworld := mkPW ex_objs ex_attrs ex_items.

Lemma ex_closed : closed ex_world.
Proof.
  intros s H. assert (F : forallb (fun s => (0 <=? snd s) && (snd s <? 19)) (ex_attrs ++ ex_items) = true) by (vm_compute; reflexivity).
  rewrite forallb_forall in F. specialize (F s). rewrite in_app_iff in F. specialize (F H).
  apply andb_prop in F as [A B]. apply Z.leb_le in A. apply Z.ltb_lt in B.
  unfold exists_in. change (Z.of_nat (List.length (objs ex_world))) with 19. lia.
Qed.
Lemma ex_elsewhere o : exists_in ex_world o -> elsewhere ex_world o = if o <? 3 then 1 else 0.
Proof.
  intros H. assert (H' : 0 <= o < 19) by exact H.
  assert (F : forallb (fun o => elsewhere ex_world o =? (if o <? 3 then 1 else 0)) (map Z.of_nat (seq 0 19)) = true) by (vm_compute; reflexivity).
  rewrite forallb_forall in F. apply Z.eqb_eq, F. rewrite <- (Z2Nat.id o) by lia. apply in_map, in_seq. lia.
Qed.
Definition after (c : call) (w : pyworld) : pyworld := fst (perform 0 1 2 c w).
Lemma ex_calls : exists w', calls 0 1 2 [CLattice; CDownwash; CBoundary; CResults] ex_world w'.
Proof.
  eexists.
  eapply calls_cons; [vm_compute; reflexivity|]. eapply calls_cons; [vm_compute; reflexivity|].
  eapply calls_cons; [vm_compute; reflexivity|]. eapply calls_cons; [vm_compute; reflexivity|]. apply calls_nil.
Qed.
