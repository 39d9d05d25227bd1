(** Specification for C131: other deflections of the controls. *)
From Coq Require Import Reals String List ZArith QArith.
From Verif Require Import PyBase Vec StripModel AircraftModel LatticeModel PanelModel GeomModel.
Import ListNotations.

(** New deflections for each control: of the modelled and of the mirrored side. *)
Definition settings := wing -> wcontrol -> option Q * option Q.
Definition set_control (d : option Q * option Q) (c : wcontrol) : wcontrol :=
  mkWC (wc_ctl c) (wc_num_c c) (fst d) (snd d)
    (wc_inner c) (wc_outer c) (wc_eta_inner c) (wc_eta_outer c) (wc_xsi_inner c) (wc_xsi_outer c) (wc_h_inner c) (wc_h_outer c).
Definition set_wing (f : settings) (w : wing) : wing :=
  mkWing (w_uid w) (w_symmetry w) (w_segs w) (map (fun x => (fst x, set_control (f w (snd x)) (snd x))) (w_ctls w)).
Definition set_aircraft (f : settings) (a : aircraft) : aircraft := mkAC (a_uid a) (map (fun x => (fst x, set_wing f (snd x))) (a_wings a)).
(** The camber is that of the airfoils, whatever the deflections. *)
Definition camber_kept (f : settings) (camber : subarea_visit -> R -> R) : Prop :=
  forall sub st seg i k w y, camber (sub, st, seg, (i, k, set_wing f w)) y = camber (sub, st, seg, (i, k, w)) y.
(** The same deflection; none is the same as zero. *)
Definition same_setting (d d' : option Q) : Prop :=
  match d, d' with
  | Some x, Some y => x == y
  | None, None => True
  | Some x, None | None, Some x => x == 0
  end.
(** The subarea on this side has no control, or its control is set as before on this side. *)
Definition setting_kept (f : settings) (v : subarea_visit) (mirror : bool) : Prop :=
  forall c wc, sa_ctrl (v_sub v) = Some c -> dget (w_ctls (v_wing v)) (ct_uid c) = Some wc ->
    let d := f (v_wing v) wc in
    if mirror then same_setting (wc_deflection_mirror wc) (snd d) else same_setting (wc_deflection wc) (fst d).
