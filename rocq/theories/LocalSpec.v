(** Specification for C132: pieces of surface that two aircraft have in common. *)
From Coq Require Import Reals String List ZArith QArith.
From Verif Require Import PyBase Vec StripModel AircraftModel LatticeModel PanelModel GeomModel NormalModel.
Import ListNotations.

(** The same piece of surface: a subarea with the same place on the same strip of a segment with the same vertices, mirror plane, number of
    panels and camber; and with the same settings of its control.  Names, numbers and everything else of the aircraft may be different. *)
Definition same_piece (geo geo' : string -> string -> quad) (camber camber' : subarea_visit -> R -> R) (v v' : subarea_visit) : Prop :=
  v_sub v' = v_sub v /\
  (let s := v_strip v in let s' := v_strip v' in eta_a s' = eta_a s /\ eta_b s' = eta_b s /\ eta_c s' = eta_c s /\ eta_d s' = eta_d s) /\
  v_quad geo' v' = v_quad geo v /\ w_symmetry (v_wing v') = w_symmetry (v_wing v) /\ ws_num_c (v_seg v') = ws_num_c (v_seg v) /\
  (forall y, camber' v' y = camber v y) /\
  (forall c, sa_ctrl (v_sub v) = Some c -> dget (w_ctls (v_wing v')) (ct_uid c) = dget (w_ctls (v_wing v)) (ct_uid c)).
