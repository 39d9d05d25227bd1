{
 "claims": [
  {
   "property": "C01",
   "status": "proved",
   "theorems": [
    "C01_strips_tile_span"
   ],
   "note": "All call sequences, accepted or rejected, any interpolation. Alignment of leading- and trailing-edge cuts is for calls that ask for aligned cuts (eta_a = eta_d), as every caller in the package does."
  },
  {
   "property": "C02",
   "status": "proved",
   "theorems": [
    "C02_cuts_preserved"
   ],
   "note": "Any reachable segment, any request."
  },
  {
   "property": "C03",
   "status": "partial",
   "theorems": [
    "C03_no_slivers_refuted",
    "C03_no_slivers_partial"
   ],
   "note": "The property is false of the code: only the distance to the line on the inboard side is checked (witness: lines 0.5 then 0.495). Proved: the inboard-side distance, and that only the new outboard strip can be narrow."
  },
  {
   "property": "C04",
   "status": "proved",
   "theorems": [
    "C04_chord_tiled"
   ],
   "note": "For sessions with a well behaved interpolation (rejected calls allowed) and for sessions with any interpolation in which every call returned normally."
  },
  {
   "property": "C05",
   "status": "proved",
   "theorems": [
    "C05_device_decision"
   ],
   "note": "Complete decision table on every reachable strip; a rejection leaves the strip unchanged."
  },
  {
   "property": "C06",
   "status": "proved",
   "theorems": [
    "C06_split_keeps_devices",
    "C06_split_never_raises"
   ],
   "note": ""
  },
  {
   "property": "C07",
   "status": "partial",
   "theorems": [
    "C07_exact_range_refuted",
    "C07_no_hole_refuted",
    "C07_exact_range_partial"
   ],
   "note": "False in general: an outer edge less than 0.01 outboard of an existing line makes the control spread over the whole strip, and strips thinner than 0.001 are skipped. Proved for segments without these two situations."
  },
  {
   "property": "C08",
   "status": "proved",
   "theorems": [
    "C08_numbering"
   ],
   "note": "Any aircraft whose strips come from any session of cuts and control insertions and whose panel counts are positive; that counting succeeds is part of the claim."
  },
  {
   "property": "C09",
   "status": "proved",
   "theorems": [
    "C09_records_split",
    "C09_records_split_aircraft"
   ],
   "note": "Any sequence of bookkeeping updates; the second theorem is the instance made by gen_lattice."
  },
  {
   "property": "C10",
   "status": "proved",
   "theorems": [
    "C10_array_accesses",
    "C10_array_accesses_aircraft",
    "C10_c_mirroring_overruns_refuted",
    "C10_inputs"
   ],
   "note": "Index arithmetic of c_lattice.cpp with unbounded integers (C int overflow not modelled). The third theorem shows why the zero symmetry flags passed by gen_lattice are needed."
  },
  {
   "property": "C11",
   "status": "proved",
   "theorems": [
    "C11_panels_tile"
   ],
   "note": "Any four corner points (degenerate included), any positive panel counts; exact real arithmetic."
  },
  {
   "property": "C12",
   "status": "proved",
   "theorems": [
    "C12_horseshoe"
   ],
   "note": "Every panel of every lattice; the trailing legs have the fixed length 10000 along the free stream."
  },
  {
   "property": "C13",
   "status": "proved",
   "theorems": [
    "C13_normals"
   ],
   "note": "Exact reals. 'Rotation' is Rodrigues' formula, standing for the external axis_rot_matrix."
  },
  {
   "property": "C14",
   "status": "proved",
   "theorems": [
    "C14_mirror_point",
    "C14_mirror_vertices",
    "C14_other_planes"
   ],
   "note": "All points and all plane arguments (integers and strings)."
  },
  {
   "property": "C15",
   "status": "partial",
   "theorems": [
    "C15_mirror_image_partial",
    "C15_mirror_image_refuted",
    "C15_hinge_refuted"
   ],
   "note": "False for symmetry 3: chord fractions are swapped instead of complemented, so devices and hinge lines are mirrored to the wrong end of the chord. Proved for symmetry 1 and 2 and, for symmetry 3, when the chord fractions are symmetric about mid-chord. Undeformed wings."
  },
  {
   "property": "C16",
   "status": "partial",
   "theorems": [
    "C16_mirrored_up",
    "C16_panels_partial",
    "C16_subarea_refuted"
   ],
   "note": "The vertex reordering itself is proved for all three planes and all quadrilaterals. Panels of mirrored subareas: proved for symmetry 1 and 2, refuted for symmetry 3 (the second reordering in StripSubdivision.abs_vertices undoes the first)."
  },
  {
   "property": "C17",
   "status": "proved",
   "theorems": [
    "C17_free_stream",
    "C17_along_x"
   ],
   "note": "Over the reals; angles in degrees."
  },
  {
   "property": "C18",
   "status": "proved",
   "theorems": [
    "C18_wind_axes",
    "C18_wind_components"
   ],
   "note": ""
  },
  {
   "property": "C19",
   "status": "proved",
   "theorems": [
    "C19_total_loads",
    "C19_moment_transfer"
   ],
   "note": "Holds for any circulation vector."
  },
  {
   "property": "C20",
   "status": "proved",
   "theorems": [
    "C20_panel_forces"
   ],
   "note": ""
  },
  {
   "property": "C21",
   "status": "proved",
   "theorems": [
    "C21_speed_density"
   ],
   "note": "Unique solvability of the linear system is a hypothesis (dgesv's info is ignored by the code)."
  },
  {
   "property": "C22",
   "status": "proved",
   "theorems": [
    "C22_no_flow_through"
   ],
   "note": "Equivalence: the system is solved iff there is no flow through any panel."
  },
  {
   "property": "C23",
   "status": "proved",
   "theorems": [
    "C23_finite",
    "C23_on_line",
    "C23_reversed",
    "C23_translated",
    "C23_own_bound_leg",
    "C23_regular_lattice"
   ],
   "note": ""
  },
  {
   "property": "C24",
   "status": "proved",
   "theorems": [
    "C24_symmetric_flow",
    "C24_symmetric_aircraft",
    "C24_symmetric_aircraft_loads"
   ],
   "note": "Unique solvability is a hypothesis. The second and third theorem start from the aircraft."
  },
  {
   "property": "C25",
   "status": "partial",
   "theorems": [
    "C25_coefficients_partial",
    "C25_zero_pressure_partial",
    "C25_panel_cp_refuted"
   ],
   "note": "All global coefficients are as stated, also for zero dynamic pressure; the panel pressure coefficients are 0/0 for zero dynamic pressure (refuted with a witness)."
  },
  {
   "property": "C26",
   "status": "proved",
   "theorems": [
    "C26_autopanels",
    "C26_autopanel_bounds",
    "C26_autopanels_idempotent",
    "C26_autopanels_zero_span"
   ],
   "note": "exact rationals; the rounding of span/wing_span*n before ceil is not modelled"
  },
  {
   "property": "C27",
   "status": "proved",
   "theorems": [
    "C27_positions",
    "C27_areas",
    "C27_zero_span"
   ],
   "note": "exact rationals; positive spans as in the quantifier"
  },
  {
   "property": "C28",
   "status": "proved",
   "theorems": [
    "C28_combinations",
    "C28_meaning",
    "C28_failures",
    "C28_nothing"
   ],
   "note": "Acceptance is characterised exactly (iff) for a new state object; the derived values are specified elementwise. The atmosphere and string parsing are parameters; the atmosphere is assumed to work altitude by altitude."
  },
  {
   "property": "C29",
   "status": "partial",
   "theorems": [
    "C29_rows_partial",
    "C29_rows_refuted"
   ],
   "note": "False as stated: a state without rates is accepted and the iteration then raises TypeError (refuted). Proved: different lengths are rejected from any object, scalars equal one-element lists, and with all rates given the rows are exactly the i-th values."
  },
  {
   "property": "C30",
   "status": "partial",
   "theorems": [
    "C30_angles_refuted",
    "C30_angles_partial"
   ],
   "note": "False: the range test uses '&' of two exclusive conditions. Witness with alpha = 100; general theorem: the check never raises ValueError."
  },
  {
   "property": "C31",
   "status": "partial",
   "theorems": [
    "C31_update_refuted",
    "C31_update_partial"
   ],
   "note": "False: a second update after mach/altitude is rejected, and a rejected update leaves the object changed (witnesses). Proved: dictionaries that mention all nine parameters have the same outcome and values on every object."
  },
  {
   "property": "C32",
   "status": "partial",
   "theorems": [
    "C32_update_partial",
    "C32_update_refuted",
    "C32_defaults",
    "C32_quiet"
   ],
   "note": "Exact acceptance condition and values after an update proved. False in one respect: the 'deformation' entry is in the template but its type is not checked (witness)."
  },
  {
   "property": "C33",
   "status": "partial",
   "theorems": [
    "C33_saved_file",
    "C33_reload_partial",
    "C33_after_plots",
    "C33_session_refuted"
   ],
   "note": "Contents of the file and reload proved. False: saving removes the hidden settings of the running session, and after plots have been made saving raises TypeError (witnesses)."
  },
  {
   "property": "C34",
   "status": "partial",
   "theorems": [
    "C34_roundtrip",
    "C34_definition",
    "C34_subfolder_refuted"
   ],
   "note": "Exact condition under which an aircraft read from a file is written and read back unchanged: airfoil names are kept (a blade file must lie directly in the airfoil folder) and the computed angles are in the accepted ranges. Without these conditions the statement is false (witness: coordinate file in a subfolder). Reading and writing JSON text is external."
  },
  {
   "property": "C35",
   "status": "partial",
   "theorems": [
    "C35_reload_refuted",
    "C35_reload_partial"
   ],
   "note": "False for states given with mach or altitude, or with several states (witness). Proved: an exact characterisation of the states that can be reloaded, and that their values are preserved."
  },
  {
   "property": "C36",
   "status": "proved",
   "theorems": [
    "C36_files",
    "C36_abort",
    "C36_numerals"
   ],
   "note": "Exact set of (path, content) written by a finished run, for any accepted settings and any number of states; C36_abort says what has been written when a run stops early. Numerics, plotting and CPACS output are parameters (any function, may raise). File creation itself is not modelled."
  },
  {
   "property": "C37",
   "status": "proved",
   "theorems": [
    "C37_uids_unique",
    "C37_add_duplicate",
    "C37_enumeration",
    "C37_counts"
   ],
   "note": "Any session of add calls; any aircraft."
  },
  {
   "property": "C38",
   "status": "partial",
   "theorems": [
    "C38_control_listing_refuted",
    "C38_control_listing_partial"
   ],
   "note": "The property is false: the listing raises AttributeError for every uid on every panelled aircraft with at least one segment."
  },
  {
   "property": "C39",
   "status": "partial",
   "theorems": [
    "C39_check",
    "C39_device",
    "C39_result",
    "C39_null_refuted",
    "C39_exception"
   ],
   "note": "Exact acceptance condition proved (order, ranges, device type, deflections), for either behaviour of the schema library on None and on integers. If None passes the library, as the test files need, missing edges and segments are accepted (witness)."
  },
  {
   "property": "C40",
   "status": "proved",
   "theorems": [
    "C40_final_normals",
    "C40_nothing_deflected",
    "C40_turned_meaning"
   ],
   "note": "Rotation matrix of the external library modelled by Rodrigues' formula; segment airfoil camber angle is a parameter."
  },
  {
   "property": "C41",
   "status": "proved",
   "theorems": [
    "C41_spanning_control",
    "C41_single_segment"
   ],
   "note": "the segment lengths are any positive distance function; coverage of the strips on each segment carries the side conditions of C07 (predicate fits)"
  },
  {
   "property": "C42",
   "status": "partial",
   "theorems": [
    "C42_bad_reference_refuted",
    "C42_bad_reference_partial",
    "C42_stops"
   ],
   "note": "false: an unknown inner or outer segment and a reversed order pass silently; only an unknown uid used for both edges raises"
  },
  {
   "property": "C43",
   "status": "partial",
   "theorems": [
    "C43_collocation_xsi",
    "C43_collocation_mirrored_partial",
    "C43_collocation_mirrored_refuted"
   ],
   "note": "Proved for all unmirrored subareas and for mirrored ones of symmetry 1 and 2; refuted for mirrored subareas of symmetry 3."
  },
  {
   "property": "C44",
   "status": "proved",
   "theorems": [
    "C44_device_line_straight",
    "C44_trapezoid"
   ],
   "note": "All planar strictly convex segments; the external plane/line intersection is modelled by its defining formula."
  },
  {
   "property": "C45",
   "status": "proved",
   "theorems": [
    "C45_panel_counts"
   ],
   "note": "Same hypotheses as C08."
  },
  {
   "property": "C46",
   "status": "partial",
   "theorems": [
    "C46_fields_partial",
    "C46_suffix_refuted",
    "C46_inside_refuted",
    "C46_unknown_refuted",
    "C46_no_file"
   ],
   "note": "True for names that neither start with an underscore nor contain '_m' (exact characterisation). False in general: str.replace removes every occurrence of the suffix, so fields of some wings go to other wings, some mirrored sides cannot be addressed, and some unknown keys are accepted."
  },
  {
   "property": "C47",
   "status": "partial",
   "theorems": [
    "C47_actions",
    "C47_empty_refuted"
   ],
   "note": "For every combination the parser accepts, with non-empty file names, the documented actions happen in order until one fails; cleaning without --run is refused. With an empty file name the option is ignored and the help text is shown (refuted)."
  },
  {
   "property": "C48",
   "status": "partial",
   "theorems": [
    "C48_setup",
    "C48_leftover_refuted",
    "C48_refused"
   ],
   "note": "Refusal without any change, frame condition and the exact project tree are proved for every file system. The tree is not completed when the given aircraft file cannot be loaded or saved: the incomplete directory stays and blocks the next attempt (refuted)."
  },
  {
   "property": "C49",
   "status": "proved",
   "theorems": [
    "C49_results"
   ],
   "note": "For every processing order of the six mappings and every prior document. Numbers are written with the format %g, which is a parameter (tixi rounds to six digits)."
  },
  {
   "property": "C50",
   "status": "partial",
   "theorems": [
    "C50_control_line_unbroken_partial",
    "C50_gap_refuted"
   ],
   "note": "False in general: strips thinner than 0.001 are skipped, so the strips of a control need not be adjacent (witness). Proved without the two situations of C07."
  },
  {
   "property": "C51",
   "status": "partial",
   "theorems": [
    "C51_symmetric_normals_partial",
    "C51_camber_asymmetric_refuted"
   ],
   "note": "False with camber when the chords of a subarea are not parallel: the mirrored side rotates about an axis perpendicular to the other chord (refuted). True when the chords are parallel or the camber angle is zero."
  },
  {
   "property": "C52",
   "status": "proved",
   "theorems": [
    "C52_exact_law",
    "C52_regularised",
    "C52_damping"
   ],
   "note": "Riemann integral of the standard library."
  },
  {
   "property": "C53",
   "status": "proved",
   "theorems": [
    "C53_superposition"
   ],
   "note": ""
  },
  {
   "property": "C54",
   "status": "proved",
   "theorems": [
    "C54_translation"
   ],
   "note": ""
  },
  {
   "property": "C55",
   "status": "proved",
   "theorems": [
    "C55_scale"
   ],
   "note": ""
  },
  {
   "property": "C56",
   "status": "partial",
   "theorems": [
    "C56_area_refuted",
    "C56_area_partial"
   ],
   "note": "False for swept panels (witness). Proved: never smaller than the true area, and equal exactly if the panel's mid lines are perpendicular."
  },
  {
   "property": "C57",
   "status": "proved",
   "theorems": [
    "C57_ready_for_lattice",
    "C57_plain_aircraft"
   ],
   "note": "the success of pre_panelling with controls is a hypothesis (it may raise: C05, C07)"
  },
  {
   "property": "C58",
   "status": "partial",
   "theorems": [
    "C58_equal_strips_partial",
    "C58_equal_strips_refuted",
    "C58_requested_lines",
    "C58_division_succeeds",
    "C58_bad_count"
   ],
   "note": "false above 100 strips (lines closer than 0.01 are dropped); in double precision the limit is 99 (C103)"
  },
  {
   "property": "C59",
   "status": "partial",
   "theorems": [
    "C59_numbers_refuted",
    "C59_numbers_partial"
   ],
   "note": "False: null angles are accepted and become NaN (witness). Proved when all given values are proper numbers and the atmosphere gives numbers."
  },
  {
   "property": "C60",
   "status": "proved",
   "theorems": [
    "C60_aeroperformance_map"
   ],
   "note": "The atmosphere is a parameter that works altitude by altitude; tixi access is not modelled."
  },
  {
   "property": "C61",
   "status": "proved",
   "theorems": [
    "C61_check_dict"
   ],
   "note": "Both directions, any nesting."
  },
  {
   "property": "C62",
   "status": "partial",
   "theorems": [
    "C62_caller_refuted",
    "C62_caller_partial"
   ],
   "note": "False: the option of the results plot is filled in in the caller's nested dictionary (witness). Proved: nothing else is changed."
  },
  {
   "property": "C63",
   "status": "partial",
   "theorems": [
    "C63_finishes",
    "C63_empty_refuted"
   ],
   "note": "True for at least one state (C63_finishes). False as stated: a state with empty lists is accepted, and every run with it raises UnboundLocalError after the loop (C63_empty_refuted)."
  },
  {
   "property": "C64",
   "status": "proved",
   "theorems": [
    "C64_figures",
    "C64_drawn"
   ],
   "note": "For every finished run, whatever the externals do. A figure is an event with the index of the state and the file stem; the file format and the drawing are not modelled."
  },
  {
   "property": "C65",
   "status": "proved",
   "theorems": [
    "C65_at_rest"
   ],
   "note": "The interpolation of the displacement field is an external function of the point; exact real arithmetic."
  },
  {
   "property": "C66",
   "status": "partial",
   "theorems": [
    "C66_symmetric_partial",
    "C66_panels_partial",
    "C66_symmetric_refuted"
   ],
   "note": "Proved for symmetry planes 1 and 2; false for plane 3 (as for the undeformed wing, C15)."
  },
  {
   "property": "C67",
   "status": "proved",
   "theorems": [
    "C67_strips",
    "C67_segments",
    "C67_subareas",
    "C67_devices"
   ],
   "note": "Exact real arithmetic; the displacement is an arbitrary function of the point. The tiling in relative coordinates is C01 and C04."
  },
  {
   "property": "C68",
   "status": "partial",
   "theorems": [
    "C68_database_partial",
    "C68_dot_refuted"
   ],
   "note": "Listing is exact for every database. Lookup is proved for names without a dot; a listed aircraft whose name contains a dot cannot be asked for by its name because the extension is removed twice (refuted)."
  },
  {
   "property": "C69",
   "status": "proved",
   "theorems": [
    "C69_usable"
   ],
   "note": "With none_ok, i.e. the schema library accepts None for optional entries. The aircraft is reproduced under the conditions of C34."
  },
  {
   "property": "C70",
   "status": "proved",
   "theorems": [
    "C70_vertices",
    "C70_ranges"
   ],
   "note": "Real arithmetic; NaN as None."
  },
  {
   "property": "C71",
   "status": "partial",
   "theorems": [
    "C71_dihedral_partial",
    "C71_dihedral_refuted"
   ],
   "note": "False in general (sign of the vertical axis offset); proved if the offset is the same on both chords."
  },
  {
   "property": "C72",
   "status": "partial",
   "theorems": [
    "C72_area_partial",
    "C72_area_refuted"
   ],
   "note": "False in general; proved for chords in x direction."
  },
  {
   "property": "C73",
   "status": "partial",
   "theorems": [
    "C73_size",
    "C73_origin_refuted"
   ],
   "note": "The box always includes the origin; otherwise exact."
  },
  {
   "property": "C74",
   "status": "proved",
   "theorems": [
    "C74_figure"
   ],
   "note": "Lines of wings; matplotlib itself is not modelled."
  },
  {
   "property": "C75",
   "status": "proved",
   "theorems": [
    "C75_results"
   ],
   "note": "Surfaces and colour values; the colour map itself is not modelled."
  },
  {
   "property": "C76",
   "status": "proved",
   "theorems": [
    "C76_direction"
   ],
   "note": ""
  },
  {
   "property": "C77",
   "status": "partial",
   "theorems": [
    "C77_vertices_partial",
    "C77_winglet_refuted"
   ],
   "note": "Holds exactly if front and rear edge run in the same direction of the span and both sides in the same direction of x. Refuted for a vertical segment whose rear edge leans the other way: the vertices cross."
  },
  {
   "property": "C78",
   "status": "partial",
   "theorems": [
    "C78_airfoils_partial",
    "C78_reversed_refuted"
   ],
   "note": "Holds for segments defined from root to tip. Refuted for segments defined from tip to root: vertices are exchanged, airfoils are not."
  },
  {
   "property": "C79",
   "status": "partial",
   "theorems": [
    "C79_controls_partial",
    "C79_no_slats",
    "C79_slat_refuted"
   ],
   "note": "Holds for wings without leading edge devices. Refuted otherwise: a slat is ignored or an exception (unbound variable); beside complete trailing edge devices no slat is ever read."
  },
  {
   "property": "C80",
   "status": "partial",
   "theorems": [
    "C80_deflections_partial",
    "C80_second_wing_refuted"
   ],
   "note": "Holds for documents that are read; then all listed devices are on the first wing. Refuted for a listed device of another wing: ComponentDefinitionError."
  },
  {
   "property": "C81",
   "status": "proved",
   "theorems": [
    "C81_files",
    "C81_segment",
    "C81_clash_refuted"
   ],
   "note": "With the proviso on names; C81_clash_refuted shows that it is needed."
  },
  {
   "property": "C82",
   "status": "proved",
   "theorems": [
    "C82_structure"
   ],
   "note": ""
  },
  {
   "property": "C83",
   "status": "proved",
   "theorems": [
    "C83_convert"
   ],
   "note": "The generation of the geometry is external to this theorem (any function)."
  },
  {
   "property": "C84",
   "status": "partial",
   "theorems": [
    "C84_segments_partial",
    "C84_special_refuted"
   ],
   "note": "Holds for uids without special characters, for wings without leading edge devices. Refuted for a segment uid with a space."
  },
  {
   "property": "C85",
   "status": "proved",
   "theorems": [
    "C85_independent"
   ],
   "note": "For any interpolation, geometry, camber and solver functions; drawing of figures is assumed not to raise."
  },
  {
   "property": "C86",
   "status": "proved",
   "theorems": [
    "C86_interface"
   ],
   "note": "For states whose values are numbers (not NaN) and lattices without division by zero. The solver is external: any function that meets solver_ok."
  },
  {
   "property": "C87",
   "status": "proved",
   "theorems": [
    "C87_files_agree"
   ],
   "note": "The solver is external: any function that meets solver_ok."
  },
  {
   "property": "C88",
   "status": "proved",
   "theorems": [
    "C88_finishes"
   ],
   "note": "Success of pre_panelling is a hypothesis (C41, C42, C57 say when it holds). Drawing is assumed not to raise."
  },
  {
   "property": "C89",
   "status": "partial",
   "theorems": [
    "C89_unique_solution_refuted",
    "C87_files_agree"
   ],
   "note": "Refuted by two wings in the same place: the info value of dgesv is dropped and all files are written. C87 says that the circulations solve the system whenever it is regular."
  },
  {
   "property": "C90",
   "status": "proved",
   "theorems": [
    "C90_inputs"
   ],
   "note": "Whole run on a file system (StartModel); CPACS airfoil files are written by the run before they are read and are therefore no input."
  },
  {
   "property": "C91",
   "status": "partial",
   "theorems": [
    "C91_airfoils",
    "C91_directory_refuted"
   ],
   "note": "True for airfoils of the project, and for NACA names unless a file of that name is in the working directory. Refuted in general: such a file is taken instead of the NACA airfoil, so the outcome depends on the working directory."
  },
  {
   "property": "C92",
   "status": "proved",
   "theorems": [
    "C92_formats"
   ],
   "note": "The reader in use is identified by its errors: an error of the reader of that format is the outcome of the run."
  },
  {
   "property": "C93",
   "status": "proved",
   "theorems": [
    "C93_repeat"
   ],
   "note": "Includes runs that fail."
  },
  {
   "property": "C94",
   "status": "partial",
   "theorems": [
    "C94_apart",
    "C94_two_files_refuted"
   ],
   "note": "True for all settings whose names without extension differ (the log file is common). Refuted for settings/x.json and x.json beside it (or x.json and x.txt), which share all results."
  },
  {
   "property": "C95",
   "status": "partial",
   "theorems": [
    "C95_saved",
    "C95_replaced_refuted"
   ],
   "note": "True exactly for files in a folder 'settings' with extension 'json'. Refuted otherwise: saving can replace the settings of another run."
  },
  {
   "property": "C96",
   "status": "proved",
   "theorems": [
    "C96_clean",
    "C96_run"
   ],
   "note": "Cleaning may make missing project directories; results of all settings of the project are removed."
  },
  {
   "property": "C97",
   "status": "proved",
   "theorems": [
    "C97_changes",
    "C97_contents"
   ],
   "note": ""
  },
  {
   "property": "C98",
   "status": "proved",
   "theorems": [
    "C98_mirrored_lattice",
    "C98_mirrored_aircraft",
    "C98_mirrored_aircraft_loads"
   ],
   "note": "Exact real arithmetic. Symmetric aircraft: wings mirrored at the xz-plane with parallel chords or without camber, and uncambered wings in that plane."
  },
  {
   "property": "C99",
   "status": "proved",
   "theorems": [
    "C99_pitched_lattice",
    "C99_pitched_aircraft",
    "C99_pitched_aircraft_loads"
   ],
   "note": "Exact real arithmetic; wings with symmetry 0 or 2. Angular velocities have to be turned too (lattice theorem); the aircraft theorem on loads is stated without rotation."
  },
  {
   "property": "C100",
   "status": "proved",
   "theorems": [
    "C100_aligned",
    "C100_flat_aircraft"
   ],
   "note": "Exact real arithmetic."
  },
  {
   "property": "C101",
   "status": "partial",
   "theorems": [
    "C101_matrix_partial",
    "C101_matrix_refuted",
    "C101_matrix_overrun",
    "C101_counter_undefined",
    "C101_reads_partial",
    "C101_lattice_partial",
    "C101_starts_partial",
    "C101_lattice_run",
    "C101_runs"
   ],
   "note": "False in general: from 46341 panels on the index of the matrix, a long expression stored in an int, wraps around and the function writes before the matrix. Proved up to 46340 panels for the matrix and up to 178956970 panels for the other arrays. LP64 and wrapping conversion are assumed. Whole runs of all four functions, counters included, are modelled: the limits 178956970 (vlm_lattice, vlm_downwash, vlm_results) and 715827882 (vlm_boundary) are sharp."
  },
  {
   "property": "C102",
   "status": "partial",
   "theorems": [
    "C102_nothing_lost_partial",
    "C102_balanced_refuted",
    "C102_kept",
    "C102_never_freed"
   ],
   "note": "False: every call keeps references (there is no Py_DECREF). Proved: no call loses a reference, whatever its outcome; exactly which references a successful call keeps and how many objects it makes and never releases; the arrays of a lattice keep two references per call after every container has dropped them, so they are never freed."
  },
  {
   "property": "C103",
   "status": "partial",
   "theorems": [
    "C103_rounding",
    "C103_tiles_span",
    "C103_lines_kept",
    "C103_equal_strips_partial",
    "C103_equal_strips_refuted"
   ],
   "note": "Proved for tiling, lookup and kept lines with any rounding, and for equal strips up to n = 99 with any rounding as accurate as doubles (proved of rounding to nearest with 53 bits). False for n = 100: 84 strips. The exponent range of the rounding is unbounded; the rounding inside the chord interpolation is arbitrary."
  },
  {
   "property": "C104",
   "status": "proved",
   "theorems": [
    "C104_leg",
    "C104_regularised",
    "C104_size",
    "C104_horseshoe"
   ],
   "note": "Limit of the Biot-Savart integrals as the length grows. C104_horseshoe is for epsilon 0; C104_regularised gives the bound per leg for epsilon >= 0."
  },
  {
   "property": "C105",
   "status": "proved",
   "theorems": [
    "C105_row",
    "C105_total",
    "C105_lattice_rows",
    "C105_next_subarea"
   ],
   "note": "Across subareas for equal corner points and equal chordwise numbers of panels."
  },
  {
   "property": "C106",
   "status": "partial",
   "theorems": [
    "C106_scaled_aircraft_partial",
    "C106_scaled_aircraft_refuted"
   ],
   "note": "False as stated: the trailing legs are 10000 long for every aircraft (e.g. lengths in millimetres). Proved: the scaled aircraft has the coefficients of the original with legs of length 10000/k. C55 is the statement for lattices with their legs."
  },
  {
   "property": "C107",
   "status": "proved",
   "theorems": [
    "C107_number",
    "C107_width",
    "C107_table",
    "C107_panelwise",
    "C107_panelwise_complete",
    "C107_names",
    "C107_matrix",
    "C107_columns"
   ],
   "note": "numpy.savetxt, numpy.stack and the conversion %e are modelled; -0.0 is identified with 0."
  },
  {
   "property": "C108",
   "status": "proved",
   "theorems": [
    "C108_unique",
    "C108_monotone"
   ],
   "note": "For each lattice there is a bound e0 > 0 such that this holds for all 0 <= epsilon < e0; the bound is not given explicitly (the program's default is 1e-6). For arbitrary aircraft the matrix can be singular (C89)."
  },
  {
   "property": "C109",
   "status": "proved",
   "theorems": [
    "C109_lift",
    "C109_positive"
   ],
   "note": "C109_lift holds for every epsilon > 0; C109_positive for all sufficiently small ones (as C108). Computed with real numbers."
  },
  {
   "property": "C110",
   "status": "proved",
   "theorems": [
    "C110_built",
    "C110_outcome",
    "C110_refused"
   ],
   "note": "A span or relative position that is still None is the number 0 in the model."
  },
  {
   "property": "C111",
   "status": "proved",
   "theorems": [
    "C111_load",
    "C111_one"
   ],
   "note": "Names within an object of the document are distinct, as json.load makes them; the schema library behaves as described in SchemaModel."
  },
  {
   "property": "C112",
   "status": "partial",
   "theorems": [
    "C112_unread_zero",
    "C112_reported_refuted"
   ],
   "note": "False: the run ends normally. Proved instead: in every such run all forces, coefficients, velocities and right-hand sides in the files are zero (C88 shows that such runs end normally). Aircraft from files are not affected (C86)."
  },
  {
   "property": "C113",
   "status": "proved",
   "theorems": [
    "C113_totals",
    "C113_panels",
    "C113_coefficients",
    "C113_bound",
    "C113_exact",
    "C113_double"
   ],
   "note": "Every operation is followed by a rounding; C113_double: doubles are one (overflow and underflow are not modelled). C113_exact: without rounding the model is the exact one of C19-C28."
  },
  {
   "property": "C114",
   "status": "partial",
   "theorems": [
    "C114_figure",
    "C114_lattice",
    "C114_acts_partial",
    "C114_two_segments_refuted",
    "C114_yz_refuted"
   ],
   "note": "Contents of the figures are proved. Drawn where it acts: proved for controls on one segment (planar convex segment, accepted operations), mirrored about xy and xz; false for the yz-plane (C114_yz_refuted: the flap is drawn at the trailing edge of the mirrored side and acts at its leading edge). False for a control over segments of different dihedral: the figure joins the ends by one straight line off the wing (C114_two_segments_refuted)."
  },
  {
   "property": "C115",
   "status": "proved",
   "theorems": [
    "C115_missing",
    "C115_missing_state",
    "C115_missing_deformation"
   ],
   "note": "On the file system model of StartModel (no permissions, links or full disks). A settings file that is missing is found by open(): the check in native.settings.load never fires."
  },
  {
   "property": "C116",
   "status": "partial",
   "theorems": [
    "C116_shared",
    "C116_accuracy",
    "C116_normal",
    "C116_first",
    "C116_gap",
    "C116_gap_refuted",
    "C116_exact"
   ],
   "note": "That panels of adjacent subareas share their edge exactly is refuted for doubles (C116_gap_refuted); C116_gap bounds the gap. No overflow or underflow; the direction of the trailing legs is given."
  },
  {
   "property": "C117",
   "status": "partial",
   "theorems": [
    "C117_finite",
    "C117_lattice",
    "C117_velocity",
    "C117_matrix",
    "C117_boundary",
    "C117_double",
    "C117_epsilon_refuted",
    "C117_exact"
   ],
   "note": "That every _epsilon in (0, 1) avoids nan away from the ends of a leg is refuted for doubles (C117_epsilon_refuted: 2^-60); the theorems assume that _epsilon exceeds a few rounding units. No overflow or underflow; the solver dgesv is not modelled."
  },
  {
   "property": "C118",
   "status": "proved",
   "theorems": [
    "C118_tangency",
    "C118_stream",
    "C118_induced",
    "C118_circulations",
    "C118_double"
   ],
   "note": "The residual of dgesv (external) is a hypothesis value, not bounded; sin and cos of the C library are assumed accurate to one rounding unit in C118_stream and C118_circulations. No overflow or underflow."
  },
  {
   "property": "C119",
   "status": "partial",
   "theorems": [
    "C119_joined",
    "C119_wing",
    "C119_apart_partial",
    "C119_line",
    "C119_gap_refuted",
    "C119_tip_to_root_refuted",
    "C119_other",
    "C119_turned"
   ],
   "note": "False in general: segments one far behind the other on one line are not reported (C119_gap_refuted), and a wing without gaps is reported if described from tip to root with parallel chords (C119_tip_to_root_refuted). Proved: joined segments are never reported, sideways gaps of straight segments are reported if not small compared with the corner distances, segments without parallel edges are always reported, and the wing is reported exactly if one of its edges is."
  },
  {
   "property": "C120",
   "status": "proved",
   "theorems": [
    "C120_drag",
    "C120_solved"
   ],
   "note": "Exact arithmetic. Strips of unequal widths, several rows of panels and swept or twisted quarter-chord lines are outside the statement; for strongly graded strips the form need not be positive."
  },
  {
   "property": "C121",
   "status": "proved",
   "theorems": [
    "C121_unique",
    "C121_monotone",
    "C121_positive",
    "C121_default"
   ],
   "note": "Exact arithmetic; the condition is sufficient, not necessary. Same wings as C108 (which holds for all sufficiently small regularisations without naming a bound)."
  },
  {
   "property": "C122",
   "status": "proved",
   "theorems": [
    "C122_panels",
    "C122_no_gaps",
    "C122_aligned",
    "C122_divided"
   ],
   "note": "Exact arithmetic, undeformed wings. About 'yz' the actual positions are stated (chord positions counted from the trailing edge, see C15) and the gaps are not excluded. Points of the leading and trailing edge at rational stations."
  },
  {
   "property": "C123",
   "status": "partial",
   "theorems": [
    "C123_standard",
    "C123_python",
    "C123_nan_refuted",
    "C123_nan",
    "C123_paths",
    "C123_ascii",
    "C123_dump",
    "C123_global",
    "C123_map"
   ],
   "note": "True of all values without NaN or infinity (C123_standard). Refuted with NaN, and exactly then (C123_nan): it is written as the word NaN, which is not JSON; Python's own reader accepts it (C123_python). Assumed: the text of a float (float.__repr__) is read as this float. Characters are code points below 256."
  },
  {
   "property": "C124",
   "status": "partial",
   "theorems": [
    "C124_checked",
    "C124_unchecked_refuted"
   ],
   "note": "True if the attributes used as dictionaries are dictionaries. Refuted otherwise: that is not checked, and PyDict_Contains on another object is undefined. The shapes of the arrays are not checked by the code either (C101)."
  },
  {
   "property": "C125",
   "status": "proved",
   "theorems": [
    "C125_arrow",
    "C125_no_arrow",
    "C125_marker"
   ],
   "note": "Exact arithmetic; the label of the arrow is not modelled."
  },
  {
   "property": "C126",
   "status": "proved",
   "theorems": [
    "C126_lattice",
    "C126_loads",
    "C126_aircraft",
    "C126_segments"
   ],
   "note": "Exact arithmetic, undeformed wings, after pre-panelling; the system is assumed to have one solution, as in C98. In C126_lattice and C126_aircraft the camber of a subarea is assumed not to depend on the number of its wing."
  },
  {
   "property": "C127",
   "status": "proved",
   "theorems": [
    "C127_both_sides"
   ],
   "note": "Exact arithmetic, undeformed wings, mirror planes xz and xy (yz is false already for single subareas, see C15); the system is assumed to have one solution, as in C98. The camber line of a subarea and that of its mirror image are assumed to be the same."
  },
  {
   "property": "C128",
   "status": "proved",
   "theorems": [
    "C128_divided"
   ],
   "note": "Exact arithmetic, undeformed wings, after pre-panelling; the system is assumed to have one solution, as in C98. Camber lines of corresponding subareas are assumed to be the same."
  },
  {
   "property": "C129",
   "status": "proved",
   "theorems": [
    "C129_flipped",
    "C129_flat",
    "C129_undeflected"
   ],
   "note": "Exact arithmetic, undeformed wings; the system is assumed to have one solution, as in C98."
  },
  {
   "property": "C130",
   "status": "proved",
   "theorems": [
    "C130_turned",
    "C130_angles",
    "C130_yaw",
    "C130_banked"
   ],
   "note": "Exact arithmetic, undeformed wings; the system is assumed to have one solution, as in C98. The angles exist within 180 and 90 degrees; the code accepts every angle (C30)."
  },
  {
   "property": "C131",
   "status": "proved",
   "theorems": [
    "C131_frame",
    "C131_same"
   ],
   "note": "Exact arithmetic, undeformed wings. How the normals of a changed control are turned is C40."
  },
  {
   "property": "C132",
   "status": "proved",
   "theorems": [
    "C132_pieces",
    "C132_added"
   ],
   "note": "Exact arithmetic, undeformed wings, same angles of attack and sideslip. The loads depend on all panels."
  }
 ]
}