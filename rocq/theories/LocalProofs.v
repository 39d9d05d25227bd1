(** Proofs for C132. *)
From Coq Require Import Reals String List ZArith QArith Qreals Lra Lia.
From Verif Require Import PyBase Vec StripModel AircraftModel LatticeModel LatticeSpec LatticeProofs PanelModel GeomModel GeomSpec GeomProofs MirrorProofs RotProofs
  NormalModel NormalSpec NormalProofs LatticeArrays VlmModel VlmSpec VlmProofs EnumProofs IsoSpec IsoProofs IsoAircraft OrderSpec OrderProofs VlmAircraft LocalSpec.
Import ListNotations.
Open Scope R_scope.

Lemma entry_count a st e : panel_count a = Ok st -> In e (bk_list (c_book st)) -> num_chordwise (e_visit e) = Ok (e_num_c e).
Proof.
  intros E I. pose proof (count_nrm0 _ _ _ E) as N. cbn [c_book clean_book bk_list map app] in N.
  apply (in_map nrm0) in I. rewrite N in I. apply in_flat_map in I. destruct I as (v & _ & I). unfold recs0 in I. destruct (num_chordwise v) as [n|] eqn:NV; [|destruct I].
  destruct (Z.eqb _ 0); repeat (destruct I as [I|I]; [unfold nrm0 in I; injection I; intros; subst; exact NV|]); destruct I.
Qed.
Section Local.
Variables geo geo' : string -> string -> quad.
Variables camber camber' : subarea_visit -> R -> R.
Lemma piece_num v v' : same_piece geo geo' camber camber' v v' -> num_chordwise v' = num_chordwise v.
Proof.
  intros (S & _ & _ & _ & NC & _ & CT). unfold num_chordwise. rewrite S, NC. destruct (sa_ctrl (v_sub v)) as [c|] eqn:E; [|reflexivity]. rewrite (CT c eq_refl). reflexivity.
Qed.
Lemma piece_vertices e e' : same_piece geo geo' camber camber' (e_visit e) (e_visit e') -> e_mirror e' = e_mirror e -> entry_vertices geo' e' = entry_vertices geo e.
Proof.
  intros (S & (A & B & C & D) & G & SY & _) M. unfold entry_vertices. rewrite G, SY, M. unfold v_etas, v_xsis. rewrite S, A, B, C, D. reflexivity.
Qed.
Lemma piece_hinge e e' : same_piece geo geo' camber camber' (e_visit e) (e_visit e') -> e_mirror e' = e_mirror e -> entry_hinge geo' e' = entry_hinge geo e.
Proof.
  intros (S & (A & B & C & D) & G & SY & _) M. unfold entry_hinge. rewrite S, G, SY, M. unfold v_etas. rewrite A, B, C, D. reflexivity.
Qed.
Lemma piece_defl e e' x : same_piece geo geo' camber camber' (e_visit e) (e_visit e') -> e_mirror e' = e_mirror e -> defl_f geo' e' x = defl_f geo e x.
Proof.
  intros SP M. unfold defl_f, entry_deflection. rewrite (piece_hinge e e' SP M), M. destruct SP as (S & _ & _ & _ & _ & _ & CT). rewrite S.
  destruct (sa_ctrl (v_sub (e_visit e))) as [c|] eqn:E; [|reflexivity]. rewrite (CT c eq_refl). reflexivity.
Qed.
Lemma piece_cam e e' k x : same_piece geo geo' camber camber' (e_visit e) (e_visit e') -> e_mirror e' = e_mirror e -> e_num_c e' = e_num_c e -> cam_f geo' camber' e' k x = cam_f geo camber e k x.
Proof.
  intros SP M N. unfold cam_f. rewrite (piece_vertices e e' SP M), N. destruct SP as (S & _ & _ & _ & _ & CA & _). unfold v_xsis. rewrite S. destruct (entry_vertices geo e); [|reflexivity]. rewrite CA. reflexivity.
Qed.
Lemma local_lattice alpha beta a a' : panelled a -> counts_set a -> flags_ok a -> panelled a' -> counts_set a' -> flags_ok a' ->
  exists st pans n st' pans' n', panel_count a = Ok st /\ gen_lattice geo camber true alpha beta a = Ok (pans, n) /\
    panel_count a' = Ok st' /\ gen_lattice geo' camber' true alpha beta a' = Ok (pans', n') /\
    forall e e', In e (bk_list (c_book st)) -> In e' (bk_list (c_book st')) -> same_piece geo geo' camber camber' (e_visit e) (e_visit e') -> e_mirror e' = e_mirror e ->
      (e_hi e' - e_lo e' = e_hi e - e_lo e)%Z /\
      forall k, (0 <= k < e_hi e - e_lo e)%Z -> exists p,
        nth_error (set_normals pans n) (Z.to_nat (e_lo e + k)) = Some p /\ nth_error (set_normals pans' n') (Z.to_nat (e_lo e' + k)) = Some p.
Proof.
  intros P C FL P' C' FL'.
  destruct (final_normals geo camber alpha beta a P C FL) as (st & pans & n & E & G & _ & _ & H).
  destruct (final_normals geo' camber' alpha beta a' P' C' FL') as (st' & pans' & n' & E' & G' & _ & _ & H').
  exists st, pans, n, st', pans', n'. do 4 (split; [assumption|]). intros e e' I I' SP M.
  assert (N : e_num_c e' = e_num_c e).
  { pose proof (entry_count _ _ _ E I) as X. pose proof (entry_count _ _ _ E' I') as X'. rewrite (piece_num _ _ SP), X in X'. injection X' as ->. reflexivity. }
  destruct (panel_count_inv a P C) as (st0 & E0 & _ & _ & _ & _ & I5 & _). rewrite E in E0. injection E0 as <-. destruct (I5 e I) as (HI & _).
  destruct (panel_count_inv a' P' C') as (st0 & E0 & _ & _ & _ & _ & I5' & _). rewrite E' in E0. injection E0 as <-. destruct (I5' e' I') as (HI' & _).
  split; [lia|]. intros k K.
  destruct (H e (e_lo e + k)%Z I ltac:(lia)) as (q & p & x & y & z & V & Ep & Np & Ex & _ & _ & Nz & Ey & Ez).
  destruct (H' e' (e_lo e' + k)%Z I' ltac:(lia)) as (q' & p' & x' & y' & z' & V' & Ep' & Np' & Ex' & _ & _ & Nz' & Ey' & Ez').
  replace (e_lo e + k - e_lo e)%Z with k in * by lia. replace (e_lo e' + k - e_lo e')%Z with k in * by lia.
  rewrite (piece_vertices e e' SP M), V in V'. injection V' as <-. rewrite N, <- Ep in Ep'. subst p'.
  exists (set_normal p z). split; [apply set_normals_nth; assumption|]. replace z with z'; [apply set_normals_nth; assumption|].
  subst x'. rewrite <- Ex in Ey'. rewrite (piece_defl e e' x SP M), <- Ey in Ey'. subst y'. rewrite Ez', (piece_cam e e' k y SP M N). symmetry. exact Ez.
Qed.
End Local.

Lemma added_lattice geo camber alpha beta a a' l1 l2 : a_wings a' = l1 ++ a_wings a ++ l2 -> camber_of_wing camber ->
  panelled a -> counts_set a -> flags_ok a -> panelled a' -> counts_set a' -> flags_ok a' ->
  exists pans n pans' n' x y, gen_lattice geo camber true alpha beta a = Ok (pans, n) /\ gen_lattice geo camber true alpha beta a' = Ok (pans', n') /\
    set_normals pans' n' = x ++ set_normals pans n ++ y /\
    (forall b, a_wings b = l1 -> panelled b -> counts_set b -> flags_ok b ->
      exists pb nb, gen_lattice geo camber true alpha beta b = Ok (pb, nb) /\ set_normals pb nb = x) /\
    (forall b, a_wings b = l2 -> panelled b -> counts_set b -> flags_ok b ->
      exists pb nb, gen_lattice geo camber true alpha beta b = Ok (pb, nb) /\ set_normals pb nb = y).
Proof.
  intros W CW P C FL P' C' FL'. destruct (lattice_by_wing geo camber alpha beta a P C FL CW) as (pans & n & G & E). destruct (lattice_by_wing geo camber alpha beta a' P' C' FL' CW) as (pans' & n' & G' & E').
  set (h := fun l => flat_map (panels_of geo camber alpha beta) (flat_map recs (flat_map wing_of l))).
  exists pans, n, pans', n', (h l1), (h l2). split; [exact G|]. split; [exact G'|]. split; [|split].
  - rewrite E', E, W. unfold h. rewrite !flat_map_app. reflexivity.
  - intros b <- Pb Cb Fb. exact (lattice_by_wing geo camber alpha beta b Pb Cb Fb CW).
  - intros b <- Pb Cb Fb. exact (lattice_by_wing geo camber alpha beta b Pb Cb Fb CW).
Qed.

Lemma wing_visits_wing w v : In v (wing_visits w) -> snd v = w.
Proof.
  unfold wing_visits. intro V. apply in_flat_map in V. destruct V as (d & D & V). apply in_map_iff in V. destruct V as (u & <- & _). cbn [snd].
  apply in_flat_map in D. destruct D as (s & S & D). apply in_map_iff in D. destruct D as (e & <- & _). cbn [snd]. apply in_map_iff in S. destruct S as (t & <- & _). reflexivity.
Qed.
Lemma visits_of_wing a w v : In w (all_wings a) -> In v (wing_visits w) -> In v (all_subareas a).
Proof. intros W V. rewrite all_by_wing. apply in_flat_map. exists w. split; assumption. Qed.
Lemma bare_of_wing i k w v : In v (wing_visits (i, k, w)) -> In (bare v) (wing_visits (0%nat, k, w)).
Proof. intro V. apply (in_map bare) in V. rewrite visits_bare in V. exact V. Qed.
Lemma bare_piece geo camber v : camber_of_wing camber -> same_piece geo geo camber camber v (bare v).
Proof.
  intro CW. destruct v as [[[sub st] seg] [[i k] w]]. split; [reflexivity|]. split; [split; [|split; [|split]]; reflexivity|]. split; [reflexivity|]. split; [reflexivity|]. split; [reflexivity|].
  split; [intro y; exact (CW sub st seg 0%nat i k w y)|]. intros; reflexivity.
Qed.
