(** Model of the arrow of the free stream and the marker of the centre of gravity in the figures:
    [add_freestream_vector] (src/lib/pytornado/plot/plottools.py:653-667), [_add_CG_plot3d] (360-370),
    [_add_CG_plot2d] (373-387), [add_CG] (390-401).

    Simplifications: real numbers; the label of the arrow and all markings are left out.  External:
    [unit_vector] of commonlibs divides by the norm, which gives NaN ([None]) for the zero vector. *)
From Coq Require Import Reals List.
From Verif Require Import PyBase Vec VlmModel.
Import ListNotations.
Open Scope R_scope.

Definition unit_vector (v : vec) : option vec := if Req_EM_T (vnorm v) 0 then None else Some (vscale (1 / vnorm v) v).

(** Start and components of the arrow (663-666) *)
Definition add_freestream_vector (tip_pos : vec) (vector_len : R) (s : flow) : option (vec * vec) :=
  match unit_vector (free_stream_velocity_vector s) with
  | None => None
  | Some u => let free_stream_vel := vscale vector_len u in Some (vsub tip_pos free_stream_vel, free_stream_vel)
  end.
(** [tip_pos=np.array([0, 0, 0]), vector_len=3] (653); that is how [plot_results_aircraft]
    (plot/makeplots.py:130) calls it. *)
Definition freestream_arrow (s : flow) : option (vec * vec) := add_freestream_vector vzero 3 s.

(** [add_CG]: the point in space and in the views yz, xz, xy. *)
Record marks := mkMarks { m_3d : vec; m_yz : R * R; m_xz : R * R; m_xy : R * R }.
Definition add_CG (r : refs) : marks :=
  let g := r_CG r in mkMarks g (vy g, vz g) (vx g, vz g) (vx g, vy g).
