(** Specifications for aircraft read from CPACS documents (C77-C84).  Independent of the functions
    of the model; its records are used. *)
From Coq Require Import List String Ascii ZArith QArith.
From Verif Require Import PyBase PyVal ControlModel AircraftIOModel CpacsAircraftModel.
Import ListNotations.
Open Scope nat_scope.
Open Scope string_scope.

(** ** Names *)

(** Letters, digits, '-' and '_'. *)
Definition plain_char (c : ascii) : Prop :=
  exists p q, "abcdefghijklmnopqrstuvwxyzABCDEFGHIJKLMNOPQRSTUVWXYZ0123456789-_" = p ++ String c q.
Inductive plain : string -> Prop :=
| plain_nil : plain ""
| plain_cons c s : plain_char c -> plain s -> plain (String c s).
(** [stripped s t]: t is s without all other characters. *)
Inductive stripped : string -> string -> Prop :=
| st_nil : stripped "" ""
| st_keep c s t : plain_char c -> stripped s t -> stripped (String c s) (String c t)
| st_drop c s t : ~ plain_char c -> stripped s t -> stripped (String c s) t.

(** A decimal number with two digits at least, without further leading zeros. *)
Definition digit (c : ascii) (n : nat) : Prop := n <= 9 /\ nat_of_ascii c = 48 + n.
Inductive decimal : string -> nat -> Prop :=
| dec_one c n : digit c n -> decimal (String c "") n
| dec_more s c n m : decimal s n -> digit c m -> decimal (s ++ String c "") (10 * n + m).
Definition numeral2 (s : string) (n : nat) : Prop :=
  decimal s n /\ 2 <= String.length s /\ (String.length s = 2 \/ ~ exists r, s = "0" ++ r).

(** The name of the n-th component: the given one, or a prefix with its number. *)
Definition component_name (given : option string) (prefix : string) (n : nat) (name : string) : Prop :=
  match given with
  | Some u => stripped u name
  | None => exists s, numeral2 s n /\ name = prefix ++ s
  end.

(** ** Vertices *)

(** p lies before q in direction of the span: smaller y; smaller z if y is the same. *)
Definition before (p q : point) : Prop := (py p < py q)%Q \/ ((py p == py q)%Q /\ (pz p < pz q)%Q).
(** a and d at the root, b and c at the tip, a and b in front. *)
Definition proper (v : quad) : Prop :=
  before (qa v) (qb v) /\ before (qd v) (qc v) /\ (px (qa v) < px (qd v))%Q /\ (px (qb v) < px (qc v))%Q.
(** The same quadrilateral with root and tip or front and rear exchanged. *)
Definition flip_span (v : quad) : quad := mkQuad (qb v) (qa v) (qd v) (qc v).
Definition flip_chord (v : quad) : quad := mkQuad (qd v) (qc v) (qb v) (qa v).
Definition same_quad (v w : quad) : Prop := In w [v; flip_span v; flip_chord v; flip_chord (flip_span v)].
(** Front and rear edge point in the same direction of the span, and both sides in the same
    direction of x. *)
Definition same_sense (v : quad) : Prop :=
  ((before (qa v) (qb v) /\ before (qd v) (qc v)) \/ (before (qb v) (qa v) /\ before (qc v) (qd v))) /\
  (((px (qa v) < px (qd v))%Q /\ (px (qb v) < px (qc v))%Q) \/ ((px (qd v) < px (qa v))%Q /\ (px (qc v) < px (qb v))%Q)).
(** The segment runs from root to tip, or from tip to root. *)
Definition forward (v : quad) : Prop := before (qa v) (qb v) /\ before (qd v) (qc v).
Definition backward (v : quad) : Prop := before (qb v) (qa v) /\ before (qc v) (qd v).

(** Halfway between lower and upper point. *)
Definition halfway (s : cseg) (eta xsi : Q) (p : point) : Prop :=
  let l := cs_lower s eta xsi in let u := cs_upper s eta xsi in
  (2 * px p == px l + px u)%Q /\ (2 * py p == py l + py u)%Q /\ (2 * pz p == pz l + pz u)%Q.
Definition corners (s : cseg) (v : quad) : Prop :=
  halfway s 0 0 (qa v) /\ halfway s 1 0 (qb v) /\ halfway s 1 1 (qc v) /\ halfway s 0 1 (qd v).
Definition at_point (v : pyval) (p : point) : Prop := v = PList [PFlt (Some (px p)); PFlt (Some (py p)); PFlt (Some (pz p))].
Definition has_vertices (s : segdef) (v : quad) : Prop :=
  exists a b c d, sd_vertices s = [("a", a); ("b", b); ("c", c); ("d", d)] /\
    at_point a (qa v) /\ at_point b (qb v) /\ at_point c (qc v) /\ at_point d (qd v).

(** ** Correspondence of document and aircraft *)

(** The i-th wing, and its k-th segment, of the document and of the aircraft. *)
Definition wing_at (d : cdoc) (ac : acdef) (i : nat) (w : cwing) (w' : wingdef) : Prop :=
  exists l, cd_wings d = Some l /\ nth_error l i = Some w /\ nth_error (ad_wings ac) i = Some (wd_uid w', w').
Definition segment_at (w : cwing) (w' : wingdef) (k : nat) (s : cseg) (s' : segdef) : Prop :=
  exists l, cw_segments w = Some l /\ nth_error l k = Some s /\ nth_error (wd_segs w') k = Some (sd_uid s', s').

(** A path to an airfoil file in the folder airfoils of the project. *)
Definition blade (root name path : string) : Prop := path = root ++ "/airfoils/blade." ++ name.
(** The profile with index [i] has the name [n] and the points [pts]. *)
Definition profile (d : cdoc) (i : nat) (n : string) (pts : list (Q * Q)) : Prop :=
  exists f, nth_error (cd_foils d) i = Some f /\ cf_name f = Some n /\ cf_points f = pts.
Definition has_airfoil (root : string) (d : cdoc) (s' : segdef) (pos : string) (i : nat) : Prop :=
  exists n pts name path, profile d i n pts /\ stripped n name /\ name <> "" /\ blade root name path /\
    dget (sd_airfoils s') pos = Some (PStr path).

(** No two airfoils share a file name. *)
Definition foil_file (f : cfoil) (i : nat) (name : string) : Prop := component_name (cf_name f) "AIRFOIL" (S i) name.
Definition airfoils_distinct (d : cdoc) : Prop := forall i j f g n,
  nth_error (cd_foils d) i = Some f -> nth_error (cd_foils d) j = Some g -> foil_file f i n -> foil_file g j n -> i = j.

(** ** Controls *)
Section Controls.
Variable locate : string -> Q -> Q -> res (string * Q * Q).

(** A trailing edge device of the wing with all its positions. *)
Definition trailing_device (w : cwing) (name uid : string) (p : devpos) : Prop :=
  exists c t, In c (cw_comps w) /\ In t (cc_trailing c) /\ cc_uid c = name /\ dv_uid t = Some uid /\ dv_pos t = Some p.
Definition leading_device (w : cwing) (name : string) (uid : option string) (p : devpos) : Prop :=
  exists c t, In c (cw_comps w) /\ In t (cc_leading c) /\ cc_uid c = name /\ dv_uid t = uid /\ dv_pos t = Some p.
(** The uids of all trailing edge devices, in the order of the document. *)
Definition trailing_uids (w : cwing) : list string :=
  flat_map (fun c => flat_map (fun t => match dv_pos t, dv_uid t with Some _, Some u => [u] | _, _ => [] end) (cc_trailing c)) (cw_comps w).
(** The control is a flap from the front edge of the device to the trailing edge. *)
Definition flap_at (name uid : string) (p : devpos) (c : ctldef) : Prop :=
  exists si ei xi so eo xo s1 e1 h1 s2 e2 h2,
    locate name (etaLE_ib p) (xsiLE_ib p) = Ok (si, ei, xi) /\ locate name (etaLE_ob p) (xsiLE_ob p) = Ok (so, eo, xo) /\
    locate name (etaLE_ib p) (hinge_ib p) = Ok (s1, e1, h1) /\ locate name (etaLE_ob p) (hinge_ob p) = Ok (s2, e2, h2) /\
    cd_uid c = uid /\ cd_device c = Some "flap" /\
    dget (cd_segment c) "inner" = Some (PStr si) /\ dget (cd_segment c) "outer" = Some (PStr so) /\
    dget (cd_rel c) "eta_inner" = Some (PFlt (Some ei)) /\ dget (cd_rel c) "eta_outer" = Some (PFlt (Some eo)) /\
    dget (cd_rel c) "xsi_inner" = Some (PFlt (Some xi)) /\ dget (cd_rel c) "xsi_outer" = Some (PFlt (Some xo)) /\
    dget (cd_hinge c) "xsi_inner" = Some (PFlt (Some h1)) /\ dget (cd_hinge c) "xsi_outer" = Some (PFlt (Some h2)).
End Controls.

(** The deflections of a control for its entry in the list of control devices, if any. *)
Definition given_deflection (t : option ctool) : Q :=
  match t with Some t => match ct_deflection t with Some q => q | None => 0%Q end | None => 0%Q end.
Definition given_mirror (t : option ctool) : option Q := match t with Some t => ct_mirror t | None => None end.
Definition deflected (t : option ctool) (symmetric : bool) (c : ctldef) : Prop :=
  cd_deflection c = PFlt (Some (given_deflection t)) /\
  cd_mirror c = match given_mirror t with
                | Some m => PFlt (Some m)
                | None => if symmetric then PFlt (Some (given_deflection t)) else PNone
                end.
(** The last entry for a uid. *)
Fixpoint entry (l : list ctool) (u : string) : option ctool :=
  match l with
  | [] => None
  | t :: l' =>
    match entry l' u with
    | Some x => Some x
    | None => match ct_uid t with Some v => if String.eqb v u then Some t else None | None => None end
    end
  end.
Definition listed (d : cdoc) (u : string) (t : ctool) : Prop := In t (cd_tools d) /\ ct_uid t = Some u.
