(** Specification of the results in a CPACS file (C49). *)
From Coq Require Import List String QArith.
From Verif Require Import PyBase CpacsModel.
Import ListNotations.
Open Scope string_scope.

(** CPACS fields and the coefficients they hold: lift, drag, side force; moments about x, y, z. *)
Inductive field_of : string -> string -> Prop :=
| f_lift : field_of "cl" "CL" | f_drag : field_of "cd" "CD" | f_side : field_of "cs" "CC"
| f_roll : field_of "cmd" "Cl" | f_pitch : field_of "cms" "Cm" | f_yaw : field_of "cml" "Cn".

(** The performance map of the document is the only one, or the one named for this program. *)
Definition map_at (d : xdoc) (p : string) : Prop :=
  exists uid at_uid, p = at_uid ++ "/aeroPerformanceMap" /\ x_where d uid = Some at_uid /\
    ((x_children d "/cpacs/vehicles/aircraft/model/analyses/aeroPerformance" = 1%nat /\
      x_uid d "/cpacs/vehicles/aircraft/model/analyses/aeroPerformance/aeroMap" = Some uid) \/
     (x_children d "/cpacs/vehicles/aircraft/model/analyses/aeroPerformance" <> 1%nat /\
      exists l, x_text d "/cpacs/toolspecific/pytornado/aeroMapUID" = Some l /\ uid = String.concat " " l)).
(** The element that names the map is no field of the map. *)
Definition field_path (p q : string) : Prop := exists k n, field_of k n /\ q = p ++ "/" ++ k.

(** The results of the document: each field holds the formatted numbers, the rest is untouched. *)
Definition holds (fmt : Q -> string) (results : dict (list Q)) (d d' : xdoc) (p : string) : Prop :=
  (forall k n v, field_of k n -> dget results n = Some v -> x_text d' (p ++ "/" ++ k) = Some (map fmt v)) /\
  (forall q, ~ field_path p q -> x_text d' q = x_text d q) /\
  x_children d' = x_children d /\ x_uid d' = x_uid d /\ x_where d' = x_where d.
