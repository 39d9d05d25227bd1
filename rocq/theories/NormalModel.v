(** Model of [gen_lattice] (aero/vlm.py:230-418) from the bookkeeping to the final lattice:
    corner points of all subareas, compiled lattice generator, rotation of the normals for
    control deflections and camber.

    Simplifications: exact real arithmetic; undeformed wings; [geo] gives the vertices of each
    segment (a degenerate segment is not excluded); [camber] stands for
    [segment_airfoil.at_eta(eta_m).camber_line_angle(xsi)] in degrees (external library). *)
From Coq Require Import Reals List ZArith String QArith Qreals Bool.
From Verif Require Import PyBase Vec StripModel AircraftModel LatticeModel PanelModel GeomModel.
Import ListNotations.
Open Scope R_scope.

(** [axis_rot_matrix] (commonlibs.math.vectors, external) applied to a vector: rotation about
    [axis] by the angle [th] (radians, right-hand rule), by Rodrigues' formula. *)
Definition rot (axis : vec) (th : R) (v : vec) : vec :=
  let k := vscale (/ vnorm axis) axis in
  vadd (vadd (vscale (cos th) v) (vscale (sin th) (vcross k v)))
       (vscale ((1 - cos th) * vdot k v) k).

(** Python truth value of a number: `if deflection:` (394), `if angle:` (415). *)
Definition truthy (x : R) : bool := if Req_EM_T x 0 then false else true.

Section Lattice.
  Variable geo : string -> string -> quad.            (* wing uid, segment uid: vertices *)
  Variable camber : subarea_visit -> R -> R.          (* camber line angle in degrees at xsi *)

  Definition v_strip (v : subarea_visit) : strip := obj (snd (fst (fst v))).
  Definition v_quad (v : subarea_visit) : quad := geo (w_uid (v_wing v)) (ws_uid (v_seg v)).
  Definition v_etas (v : subarea_visit) : etas :=
    let s := v_strip v in mkEtas (Q2R (eta_a s)) (Q2R (eta_b s)) (Q2R (eta_c s)) (Q2R (eta_d s)).
  Definition v_xsis (v : subarea_visit) : xsis :=
    let s := v_sub v in mkXsis (Q2R (xsi_a s)) (Q2R (xsi_b s)) (Q2R (xsi_c s)) (Q2R (xsi_d s)).

  (** [subarea.abs_vertices(mirror)] for a bookkeeping entry (343). *)
  Definition entry_vertices (e : entry) : res quad :=
    let v := e_visit e in
    subarea_vertices (v_quad v) (v_etas v) (v_xsis v) (e_mirror e) (w_symmetry (v_wing v)).

  (** 337-351: rows of [array_subareas] and [array_panels]. *)
  Fixpoint entry_rows (l : list entry) : res (list (quad * (Z * Z))) :=
    match l with
    | [] => Ok []
    | e :: l' =>
      let? q := entry_vertices e in
      let? r := entry_rows l' in
      Ok ((q, (1%Z, e_num_c e)) :: r)
    end.

  (** Hinge axis of an entry (387); [rel_hinge_vertices] missing is a TypeError. *)
  Definition entry_hinge (e : entry) : res vec :=
    let v := e_visit e in
    match sa_hinge (v_sub v) with
    | None => Err TypeError
    | Some (h1, h2) => hinge_axis (v_quad v) (v_etas v) (Q2R h1) (Q2R h2) (e_mirror e) (w_symmetry (v_wing v))
    end.

  (** 389-392 *)
  Definition entry_deflection (e : entry) (wc : wcontrol) : option Q :=
    if e_mirror e then wc_deflection_mirror wc else wc_deflection wc.

  (** [lattice.n[i, :] = R @ lattice.n[i, :]] (400, 417). *)
  Definition upd (n : list vec) (i : Z) (f : vec -> vec) : res (list vec) :=
    match nth_error n (Z.to_nat i) with
    | None => Err IndexError
    | Some x => Ok (firstn (Z.to_nat i) n ++ f x :: skipn (S (Z.to_nat i)) n)
    end.
  Fixpoint upd_all (n : list vec) (l : list Z) (f : Z -> vec -> vec) : res (list vec) :=
    match l with
    | [] => Ok n
    | i :: l' => let? n' := upd n i (f i) in upd_all n' l' f
    end.

  (** Control surface deflections of one entry (385-400). *)
  Definition deflect (e : entry) (n : list vec) : res (list vec) :=
    match sa_ctrl (v_sub (e_visit e)) with
    | None => Ok n
    | Some c =>
      match dget (w_ctls (v_wing (e_visit e))) (ct_uid c) with
      | None => Err KeyError
      | Some wc =>
        let? axis := entry_hinge e in
        match entry_deflection e wc with
        | None => Ok n
        | Some d =>
          if truthy (Q2R d)
          then upd_all n (py_range (e_lo e) (e_hi e)) (fun _ => rot axis (deg2rad (Q2R d)))
          else Ok n
        end
      end
    end.

  (** Camber line rotation of one entry (402-417). *)
  Definition camber_rot (e : entry) (n : list vec) : res (list vec) :=
    let? sub := entry_vertices e in
    let np := Z.of_nat (List.length (py_range (e_lo e) (e_hi e))) in
    upd_all n (py_range (e_lo e) (e_hi e)) (fun i x =>
      let angle := deg2rad (camber (e_visit e) (collocation_xsi (v_xsis (e_visit e)) np (i - e_lo e))) in
      if truthy angle then rot (camber_axis sub) angle x else x).

  Fixpoint rotate_loop (l : list entry) (n : list vec) : res (list vec) :=
    match l with
    | [] => Ok n
    | e :: l' =>
      let? n1 := deflect e n in
      let? n2 := camber_rot e n1 in
      rotate_loop l' n2
    end.

  (** [gen_lattice] after [pre_panelling]: rows of the lattice before rotation, and the final
      normals.  [alpha], [beta] in degrees. *)
  Definition gen_lattice (do_rot : bool) (alpha beta : R) (a : aircraft) : res (list panel * list vec) :=
    let? st := panel_count a in
    let? rows := entry_rows (bk_list (c_book st)) in
    let pans := lattice (trail_dir alpha beta) rows in
    let? n := (if do_rot then rotate_loop (bk_list (c_book st)) (map pN pans) else Ok (map pN pans)) in
    Ok (pans, n).
End Lattice.
