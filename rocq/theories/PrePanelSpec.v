(** Specifications for the placement of controls and lines over a wing (C41, C42, C57, C58). *)
From Coq Require Import List String ZArith QArith.
From Verif Require Import PyBase StripModel StripSpec AircraftModel LatticeSpec WingSpec PrePanelModel.
Import ListNotations.
Open Scope Q_scope.

(** A line given piecewise by [f1] (inner end) and [f2] (outer end) runs without a step from
    [x] to [y]. *)
Fixpoint no_step (f1 f2 : prow -> Q) (x : Q) (rows : list prow) (y : Q) : Prop :=
  match rows with
  | [] => x == y
  | r :: rs => f1 r == x /\ no_step f1 f2 (f2 r) rs y
  end.

(** [z] lies between [x] and [y] (in either order). *)
Definition between (x y z : Q) : Prop := (x <= z /\ z <= y) \/ (y <= z /\ z <= x).

(** Ranges on the segments: from [a] to the end of the first one, all of the middle ones,
    from the root to [b] on the last one. *)
Fixpoint full_to (rows : list prow) (b : Q) : Prop :=
  match rows with
  | [] => False
  | [r] => p_eta1 r = 0 /\ p_eta2 r = b
  | r :: rs => p_eta1 r = 0 /\ p_eta2 r = 1 /\ full_to rs b
  end.
Definition ranges (a : Q) (rows : list prow) (b : Q) : Prop :=
  match rows with
  | [] => False
  | r :: rs => p_eta1 r = a /\ p_eta2 r = 1 /\ full_to rs b
  end.

(** The pieces of a control that runs over the segments [segs] of a wing. *)
Definition pieces (c : wcontrol) (h1 h2 : Q) (segs : list string) (rows : list prow) : Prop :=
  map p_seg rows = segs /\ ranges (wc_eta_inner c) rows (wc_eta_outer c) /\
  no_step p_x1 p_x2 (wc_xsi_inner c) rows (wc_xsi_outer c) /\
  no_step p_h1 p_h2 h1 rows h2 /\
  (forall r, In r rows ->
     between (wc_xsi_inner c) (wc_xsi_outer c) (p_x1 r) /\ between (wc_xsi_inner c) (wc_xsi_outer c) (p_x2 r) /\
     between h1 h2 (p_h1 r) /\ between h1 h2 (p_h2 r)).

(** Side conditions of C07/C50 for a control from [a] to [b] on the strips [seg]. *)
Definition fits (seg : segment) (a b : Q) (c : control) : Prop :=
  (forall s, In s seg -> ~ carries s c) /\
  0 <= a /\ a + (1 # 100) <= b /\ b <= 1 /\
  not_thin seg /\ (forall y, line_at seg y -> a < y -> a + (1 # 1000) < y) /\ clear_edge seg b.

(** No control surface on any strip, one strip per segment: the state after loading. *)
Definition fresh (a : aircraft) : Prop :=
  forall wn w, In (wn, w) (a_wings a) ->
    NoDup (dkeys (w_segs w)) /\ NoDup (dkeys (w_ctls w)) /\
    (forall sn s, In (sn, s) (w_segs w) -> ws_strips s = new_segment) /\
    (forall cn c, In (cn, c) (w_ctls w) -> ct_uid (wc_ctl c) = cn).

(** Same components with the same data apart from the strips. *)
Definition same_but_strips (a a' : aircraft) : Prop :=
  a_uid a' = a_uid a /\
  Forall2 (fun x y => fst y = fst x /\ w_uid (snd y) = w_uid (snd x) /\ w_symmetry (snd y) = w_symmetry (snd x) /\
      w_ctls (snd y) = w_ctls (snd x) /\
      Forall2 (fun p q => fst q = fst p /\ ws_uid (snd q) = ws_uid (snd p) /\ ws_num_c (snd q) = ws_num_c (snd p) /\
                          ws_num_s (snd q) = ws_num_s (snd p) /\ ws_span (snd q) = ws_span (snd p))
        (w_segs (snd x)) (w_segs (snd y)))
    (a_wings a) (a_wings a').

(** Every panel count that the user gave is at least one. *)
Definition given_counts_ok (a : aircraft) : Prop :=
  forall wn w, In (wn, w) (a_wings a) ->
    (forall sn s n, In (sn, s) (w_segs w) -> ws_num_c s = Some n \/ ws_num_s s = Some n -> (1 <= n)%Z) /\
    (forall cn c n, In (cn, c) (w_ctls w) -> wc_num_c c = Some n -> (1 <= n)%Z).

(** The strips of a segment divide it into [n] equal parts, without devices. *)
Definition equal_strips (n : Z) (l : segment) : Prop :=
  List.length l = Z.to_nat n /\
  forall i s, nth_error l i = Some s ->
    eta_a s == inject_Z (Z.of_nat i) / inject_Z n /\ eta_b s == inject_Z (Z.of_nat i + 1) / inject_Z n /\
    forall k, no_device s k.

(** Every segment of the wing got as many equal strips as its spanwise count says; nothing else
    changed. *)
Definition divided (w w' : wing) : Prop :=
  w_uid w' = w_uid w /\ w_symmetry w' = w_symmetry w /\ w_ctls w' = w_ctls w /\
  dict_rel (fun s s' => exists n x, ws_num_s s = Some n /\ s' = set_strips s x /\ equal_strips n x) (w_segs w) (w_segs w').

(** On the strips [l], the control [c] (of kind [k]) occupies [a, b) - up to a start snapped to a
    line less than 1/100 inboard - and its device and hinge lines run without a step from
    (x1, h1) to (x2, h2); at every strip border they are on the lines between these. *)
Definition occupies (interp : Q * Q -> Q * Q -> Q -> res Q) (l0 l : segment) (k : dkind) (c : control) (a b x1 h1 x2 h2 : Q) : Prop :=
  exists lo, lo <= a /\ a < lo + (1 # 100) /\
    ((forall y, line_at l0 y -> y < a -> y + (1 # 100) <= a) -> lo == a) /\
    (exists idx, unbroken (on_lines interp a x1 h1 b x2 h2) l k c x1 h1 idx x2 h2 /\ forall j s, nth_error l j = Some s -> (carries s c <-> In j idx)) /\
    (forall eta s, In s l -> covers s eta -> (carries s c <-> lo <= eta /\ eta < b)).

(** On segment [sn] the control goes from [a] to [b]; only its strips change. *)
Definition put (interp : string -> string -> Q * Q -> Q * Q -> Q -> res Q) (wuid : string) (w w' : wing) (sn : string) (c : control) (a b x1 h1 x2 h2 : Q) : Prop :=
  exists s l, dget (w_segs w) sn = Some s /\ dget (w_segs w') sn = Some (set_strips s l) /\
    forall ops k, sound_session (interp wuid sn) ops -> ws_strips s = run (interp wuid sn) ops ->
      ct_type c = Some k -> fits (ws_strips s) a b c -> occupies (interp wuid sn) (ws_strips s) l k c a b x1 h1 x2 h2.

(** A usable number of strips, an unusable one and the exception for it (C58). *)
Definition count_error (o : option Z) : res unit := match o with None => Err TypeError | Some _ => Err ValueError end.
Definition good_count (s : wsegment) : Prop := exists n, ws_num_s s = Some n /\ (1 <= n <= 100)%Z.
Definition bad_count (s : wsegment) : Prop := match ws_num_s s with None => True | Some n => (n < -1)%Z end.
