{"id": "C01", "title": "Spanwise strips always tile the segment", "statement": "However a wing segment is cut up by add_subdivision / add_subdivision_for_control, its strips stay a partition of the span: every relative position eta in [0,1) lies in exactly one strip [eta_a, eta_b), each strip has eta_a < eta_b, leading- and trailing-edge cuts agree (eta_a = eta_d, eta_b = eta_c), and nothing extends outside [0,1]. The lookup of a strip at a valid eta therefore never comes back empty.", "quantifier": "every finite sequence of subdivision requests and control insertions with arbitrary numeric arguments (accepted or rejected), starting from a fresh segment", "why_tests_cant": "tests try a handful of cut positions in one order; the partition has to survive any sequence, including refused requests and cuts landing on or near existing lines", "anchors": [{"file": "src/lib/pytornado/objects/aircraft.py", "symbols": ["WingSegment.add_subdivision", "WingSegment._get_subdiv_at_eta", "WingSegment.add_subdivision_for_control", "SegmentStrip"]}]}
{"id": "C02", "title": "Cutting a segment never loses or moves an existing cut", "statement": "After any call of add_subdivision all previously existing division lines are still present at the same positions, at most one line (the requested one) is added, asking again for an existing line changes nothing and returns the strip starting there, and a position outside the open interval (0,1) changes nothing (ValueError, or None with ignore_inval_eta).", "quantifier": "every reachable segment and every requested eta", "why_tests_cant": "it is a frame condition over all reachable segment states; a test can only compare a few before/after pairs", "anchors": [{"file": "src/lib/pytornado/objects/aircraft.py", "symbols": ["WingSegment.add_subdivision", "WingSegment._get_subdiv_at_eta"]}]}
{"id": "C03", "title": "No sliver strips", "statement": "A division line 'very close' (closer than 0.01 in eta) to an existing division line is not created, so no strip of a segment is ever narrower than 0.01.", "quantifier": "every reachable segment and every requested eta", "why_tests_cant": "needs all pairs of neighbouring lines after all request orders; the documented rule mentions closeness without saying on which side", "anchors": [{"file": "src/lib/pytornado/objects/aircraft.py", "symbols": ["WingSegment.add_subdivision", "MIN_ETA_LIMIT"]}]}
{"id": "C04", "title": "Slat, main surface and flap tile the chord of every strip", "statement": "In every strip the slat (if any), the main surface and the flap (if any) tile the chord at both strip edges: slat from 0 to its line, main surface from the slat line to the flap line, flap from its line to 1, with 0 < slat line < flap line < 1, so no two subareas of a strip overlap and no part of the chord is left without panels; the relative lengths of the subareas add up to 1.", "quantifier": "every strip of every segment reachable by control insertions and subdivisions in any order", "why_tests_cant": "depends on every interleaving of slat/flap insertion with strip splitting; a unit test checks isolated strips", "anchors": [{"file": "src/lib/pytornado/objects/aircraft.py", "symbols": ["SegmentStrip._add_subarea", "SegmentStrip._update_subarea", "StripSubdivision.rel_length", "StripSubdivision.__init__"]}]}
{"id": "C05", "title": "A second device of the same kind on the same strip is rejected without effect", "statement": "Adding a flap where a flap exists (or slat where a slat exists), adding a device whose line is outside (0,1), whose hinge is outside [0,1], or that comes closer than 0.01 chord to the other device raises ValueError and leaves the strip exactly as it was; otherwise the device is added with the requested line, hinge and control and the other device is unchanged.", "quantifier": "every strip state, every control and all line and hinge positions", "why_tests_cant": "the accept/reject rule is a decision table over continuous values in combination with the strip's existing devices", "anchors": [{"file": "src/lib/pytornado/objects/aircraft.py", "symbols": ["SegmentStrip._add_subarea", "MIN_XSI_LIMIT"]}]}
{"id": "C06", "title": "Splitting a strip preserves the control surfaces on it", "statement": "When a strip carrying devices is cut, both halves carry the same devices belonging to the same controls, the outer edge values of the outer half and the inner edge values of the inner half are those of the old strip, and at the cut both halves agree on the device line and hinge line (no step in the control surface).", "quantifier": "every reachable strip with any set of devices and every cut position that is accepted", "why_tests_cant": "quantifies over all device layouts and cut positions; tests check one cut of one flap", "anchors": [{"file": "src/lib/pytornado/objects/aircraft.py", "symbols": ["WingSegment.add_subdivision", "SegmentStrip._update_subarea", "xsi_interpol"]}]}
{"id": "C07", "title": "A control occupies exactly the spanwise range it was given", "statement": "After a control with inner edge eta_inner and outer edge eta_outer has been placed on a segment without error, the strips carrying that control cover exactly [eta_inner, eta_outer] up to the documented 0.01 snapping tolerance - no hole inside the range and nothing outside.", "quantifier": "every reachable segment and every valid eta_inner < eta_outer", "why_tests_cant": "requires reasoning about all previously existing division lines inside and near the range", "anchors": [{"file": "src/lib/pytornado/objects/aircraft.py", "symbols": ["WingSegment.add_subdivision_for_control", "WingSegment._get_outer_neighbour_subdiv"]}]}
{"id": "C08", "title": "Panel numbering is a gap-free partition in enumeration order", "statement": "The panel index ranges recorded for the subareas are consecutive and disjoint, start at 0, end at the number of panels, follow the wing/segment/strip/subarea enumeration order, and every panel index belongs to exactly one record; the record of a mirrored subarea directly follows that of the original and has the same size, and exists exactly for wings with a symmetry flag.", "quantifier": "every aircraft (any number of wings, segments, strips, subareas, symmetry flags and panel settings)", "why_tests_cant": "a property of a nested loop over arbitrary aircraft; wrong offsets only appear for particular combinations", "anchors": [{"file": "src/lib/pytornado/aero/vlm.py", "symbols": ["gen_lattice"]}, {"file": "src/lib/pytornado/objects/vlm_struct.py", "symbols": ["VLMLattice.update_bookkeeping", "BookKeepingEntry"]}, {"file": "src/lib/pytornado/objects/objecttools.py", "symbols": ["all_subareas"]}]}
{"id": "C09", "title": "Per-wing panel records are exactly the split of the overall record list", "statement": "The per-wing panel record lists contain, for each wing uid, precisely the records of that wing's non-mirrored (resp. mirrored) subareas in the overall order; no record is lost, duplicated or filed under another wing.", "quantifier": "every sequence of bookkeeping updates", "why_tests_cant": "needs all sequences of updates over arbitrary wing uids", "anchors": [{"file": "src/lib/pytornado/objects/vlm_struct.py", "symbols": ["VLMLattice.update_bookkeeping", "VLMLattice.clean_bookkeeping"]}, {"file": "src/lib/pytornado/aero/vlm.py", "symbols": ["gen_lattice"]}]}
{"id": "C10", "title": "The compiled lattice generator writes every panel once and stays in bounds", "statement": "When the lattice is generated, the compiled code writes every panel's data exactly once, in the index range recorded for its subarea, and never reads or writes outside the arrays passed in.", "quantifier": "every list of subareas with positive panel counts", "why_tests_cant": "memory safety of index arithmetic for arbitrary panel counts; a test that happens not to crash shows nothing", "anchors": [{"file": "src/lib/pytornado/aero/c_lattice.cpp", "symbols": ["vlm_lattice"]}, {"file": "src/lib/pytornado/aero/vlm.py", "symbols": ["gen_lattice"]}]}
{"id": "C11", "title": "Lattice panels tile their subarea without cracks", "statement": "Neighbouring panels of a subarea share their common corner points exactly, the first and last panels end exactly in the subarea's four corner points, and all panel corners lie on the bilinear surface spanned by these corners.", "quantifier": "every subarea (four arbitrary points) and all positive numbers of chord- and spanwise panels", "why_tests_cant": "needs all panel counts and all geometries", "anchors": [{"file": "src/lib/pytornado/aero/c_lattice.cpp", "symbols": ["vlm_lattice"]}]}
{"id": "C12", "title": "Horseshoe vortices sit at the quarter chord and collocation points at three quarters", "statement": "For every panel the bound vortex leg joins the quarter-chord points of the panel's two side edges, its midpoint is the stored bound-leg midpoint, the collocation point is midway between the three-quarter-chord points of the side edges, and the two trailing legs leave the bound leg exactly along the free-stream direction.", "quantifier": "every panel of every lattice and every free-stream direction", "why_tests_cant": "geometric identity over all real coordinates", "anchors": [{"file": "src/lib/pytornado/aero/c_lattice.cpp", "symbols": ["vlm_lattice"]}, {"file": "src/lib/pytornado/aero/c_vlm.cpp", "symbols": ["get_freestream_direction"]}]}
{"id": "C13", "title": "Panel normals are unit vectors perpendicular to the panel diagonals", "statement": "For every non-degenerate panel the stored normal has length 1, is perpendicular to the two panel vectors that define it, and panel areas are non-negative; rotating normals for control deflection or camber keeps them unit vectors.", "quantifier": "every non-degenerate panel and every rotation", "why_tests_cant": "identity over all real coordinates; tests sample flat wings", "anchors": [{"file": "src/lib/pytornado/aero/c_lattice.cpp", "symbols": ["vlm_lattice"]}, {"file": "src/lib/pytornado/aero/vlm.py", "symbols": ["gen_lattice"]}]}
{"id": "C14", "title": "Mirroring is an isometric involution and leaves its argument alone", "statement": "Mirroring a point about the xy, xz or yz plane twice returns the point, preserves distances, fixes exactly the points of the plane, does not modify the argument, and any other plane value raises ValueError; mirroring the four vertices twice restores vertices and order.", "quantifier": "all points and all plane arguments", "why_tests_cant": "algebraic law over all reals", "anchors": [{"file": "src/lib/pytornado/objects/aircraft.py", "symbols": ["mirror_point", "mirror_vertices", "order_mirrored_vertex_points"]}]}
{"id": "C15", "title": "The mirrored half of a wing is the mirror image of the modelled half", "statement": "For every wing with a symmetry flag 1, 2 or 3, the set of points of each mirrored subarea (main surface, flap, slat) and of its hinge line is the mirror image of the original subarea and hinge line.", "quantifier": "every undeformed segment, strip, subarea and every symmetry flag", "why_tests_cant": "needs all geometries and all three planes; the integration tests only use symmetry 2", "anchors": [{"file": "src/lib/pytornado/objects/aircraft.py", "symbols": ["SegmentStrip.abs_vertices", "StripSubdivision.abs_vertices", "StripSubdivision.abs_hinge_vertices", "mirror_vertices"]}]}
{"id": "C16", "title": "Mirrored surfaces keep their upper side up", "statement": "For every symmetry flag the vertex reordering makes the (vertical) z component of the mirrored surface's normal equal to that of the original, so the same panel orientation convention holds on both sides.", "quantifier": "all planar quadrilaterals and all three planes", "why_tests_cant": "algebraic law over all reals", "anchors": [{"file": "src/lib/pytornado/objects/aircraft.py", "symbols": ["mirror_vertices", "order_mirrored_vertex_points"]}]}
{"id": "C17", "title": "Free-stream vector has magnitude airspeed and is the same in Python and C", "statement": "The free-stream velocity vector has norm equal to the airspeed, points along +x for zero angles, and equals the airspeed times the free-stream direction used by the compiled solver for the same angles.", "quantifier": "all airspeeds and all aerodynamic angles (degrees)", "why_tests_cant": "trigonometric identity over all reals and agreement of two independent implementations", "anchors": [{"file": "src/lib/pytornado/objects/state.py", "symbols": ["FlightState.free_stream_velocity_vector"]}, {"file": "src/lib/pytornado/aero/c_vlm.cpp", "symbols": ["get_freestream_direction"]}]}
{"id": "C18", "title": "Drag, side force and lift are an orthonormal decomposition of the total force", "statement": "Drag, side force and lift are the components of the total force along three mutually perpendicular unit vectors, drag along the free stream; hence CD^2+CC^2+CL^2 = CX^2+CY^2+CZ^2, and a pure free-stream force gives only drag.", "quantifier": "all forces and all angles", "why_tests_cant": "trigonometric identity over all reals", "anchors": [{"file": "src/lib/pytornado/aero/c_results.cpp", "symbols": ["vlm_coeffs"]}]}
{"id": "C19", "title": "Global loads are the sums of the panel loads and transfer correctly between reference points", "statement": "Total force is the sum of panel forces, total moment is the sum of the panel moments about the rotation centre, and moving the rotation centre by d changes the moment by minus d x total force and leaves forces unchanged.", "quantifier": "every lattice, flow state and reference point", "why_tests_cant": "summation law over arbitrarily many panels", "anchors": [{"file": "src/lib/pytornado/aero/c_results.cpp", "symbols": ["vlm_results"]}]}
{"id": "C20", "title": "Panel forces obey Kutta-Joukowski", "statement": "The force on each panel is perpendicular to both the local relative velocity and the bound leg, proportional to density and circulation, and zero for zero circulation.", "quantifier": "every panel, velocity, density and circulation", "why_tests_cant": "vector identity over all reals", "anchors": [{"file": "src/lib/pytornado/aero/c_results.cpp", "symbols": ["vlm_results"]}]}
{"id": "C21", "title": "Force coefficients do not depend on air density or airspeed without rotation", "statement": "With zero rotation rates, scaling the airspeed by any positive factor scales the circulation by the same factor and leaves all force and moment coefficients and the panel pressure coefficients unchanged; scaling the density by any positive factor leaves circulation and all coefficients unchanged.", "quantifier": "every lattice, positive airspeed, positive density and positive factor", "why_tests_cant": "scaling law of the whole solve-and-postprocess pipeline", "anchors": [{"file": "src/lib/pytornado/aero/c_boundary.cpp", "symbols": ["vlm_boundary"]}, {"file": "src/lib/pytornado/aero/c_results.cpp", "symbols": ["vlm_results", "vlm_coeffs"]}, {"file": "src/lib/pytornado/aero/vlm.py", "symbols": ["solver", "calc_results"]}]}
{"id": "C22", "title": "A solved system means no flow through the panels", "statement": "If the circulations satisfy the linear system, then at every collocation point the induced velocity minus the relative onset flow has no component along the panel normal (flow tangency), with the rotation contribution taken about the centre of gravity.", "quantifier": "every lattice, flight state and solution vector", "why_tests_cant": "links two separately implemented routines (matrix and right-hand side) for all inputs", "anchors": [{"file": "src/lib/pytornado/aero/c_boundary.cpp", "symbols": ["vlm_boundary"]}, {"file": "src/lib/pytornado/aero/c_downwash.cpp", "symbols": ["vlm_downwash"]}, {"file": "src/lib/pytornado/aero/vlm.py", "symbols": ["calc_downwash", "calc_boundary", "solver"]}]}
{"id": "C23", "title": "Induced velocity of a vortex leg is regular off its end points", "statement": "For a positive epsilon the influence of a straight vortex leg never divides by zero except when the point coincides with an end point of the leg, vanishes on the line through the leg, changes sign when the leg is reversed, and is unaffected by translating everything.", "quantifier": "all legs, all field points, all positive epsilon", "why_tests_cant": "needs Cauchy-Schwarz over all reals; tests cannot hit every near-singular configuration", "anchors": [{"file": "src/lib/pytornado/aero/c_downwash.cpp", "symbols": ["vlm_downwash"]}, {"file": "src/lib/pytornado/aero/c_results.cpp", "symbols": ["vlm_results"]}]}
{"id": "C24", "title": "Symmetric aircraft in symmetric flow has no side force, roll or yaw", "statement": "For a lattice that is symmetric about the xz plane, zero sideslip and zero roll and yaw rate, a moment reference point in the symmetry plane and a uniquely solvable system, the circulation is symmetric and the side force, rolling moment and yawing moment (coefficients CY, CC, Cl, Cn) are exactly zero. In particular this holds for the lattice generated from a symmetric aircraft: every wing either mirrored in xz with equal deflections on both sides, or lying in the plane without deflection.", "quantifier": "every xz-symmetric lattice, every symmetric aircraft and symmetric flight state", "why_tests_cant": "emergent property of the full solver; numerical tests can only show it to rounding for one wing", "anchors": [{"file": "src/lib/pytornado/aero/c_downwash.cpp", "symbols": ["vlm_downwash"]}, {"file": "src/lib/pytornado/aero/c_boundary.cpp", "symbols": ["vlm_boundary"]}, {"file": "src/lib/pytornado/aero/c_results.cpp", "symbols": ["vlm_results", "vlm_coeffs"]}, {"file": "src/lib/pytornado/aero/vlm.py", "symbols": ["solver"]}]}
{"id": "C25", "title": "Aerodynamic coefficients are normalised as documented", "statement": "Force coefficients are force over dynamic pressure times reference area; rolling and yawing moment coefficients additionally divide by span, pitching by chord; the same dynamic pressure is used for panel pressure coefficients; zero dynamic pressure yields finite values for every output.", "quantifier": "all loads, reference values and flight states including zero airspeed", "why_tests_cant": "decision at the zero-pressure corner plus per-component normalisation", "anchors": [{"file": "src/lib/pytornado/aero/c_results.cpp", "symbols": ["vlm_coeffs", "vlm_results"]}]}
{"id": "C26", "title": "Automatic panel counts respect user values and are never zero", "statement": "set_autopanels leaves every panel count that the user gave unchanged, sets every missing chordwise count to the setting, and gives every segment at least one spanwise panel and at most the setting, with the sum over the segments of a wing between the setting and the setting plus the number of segments.", "quantifier": "every aircraft with positive segment spans and every positive setting", "why_tests_cant": "rounding-up over arbitrary span ratios; sums over arbitrarily many segments", "anchors": [{"file": "src/lib/pytornado/aero/vlm.py", "symbols": ["set_autopanels"]}, {"file": "src/lib/pytornado/objects/aircraft.py", "symbols": ["Wing.span"]}]}
{"id": "C27", "title": "Segments cover the wing's span position range contiguously", "statement": "After generation, the first segment of a wing starts at position 0, every next segment starts where the previous ended, and the last ends at 1; the wing span and area are the sums of the segment spans and areas.", "quantifier": "every wing with any number of segments with positive spans", "why_tests_cant": "accumulating loop over arbitrary segments", "anchors": [{"file": "src/lib/pytornado/objects/aircraft.py", "symbols": ["Wing.generate", "Wing.span", "Wing.area", "Aircraft.area"]}]}
{"id": "C28", "title": "Exactly three input combinations define a flight state", "statement": "A flight state is accepted only if, among airspeed, density, mach and altitude, the given (non-null) properties are exactly {airspeed, density}, {airspeed, altitude} or {mach, altitude}; every other combination raises ValueError. After acceptance airspeed and density are defined for every state, taken from the input when given and derived from the atmosphere otherwise.", "quantifier": "every input dictionary and every atmosphere model", "why_tests_cant": "2^4 combinations times arbitrary value shapes and missing keys", "anchors": [{"file": "src/lib/pytornado/objects/state.py", "symbols": ["FlightState.update_from_dict", "STATE_ALLOWED_INPUT_SETS"]}]}
{"id": "C29", "title": "All state lists have one common length and iteration yields matching rows", "statement": "A state definition whose lists differ in length is rejected; otherwise iterating over the states yields exactly as many states as the list length, the i-th consisting of the i-th entries of every parameter, and scalars are one-element lists.", "quantifier": "every state dictionary", "why_tests_cant": "arbitrary list lengths and parameter sets", "anchors": [{"file": "src/lib/pytornado/objects/state.py", "symbols": ["FlightState.update_from_dict", "FlightState.iter_states"]}]}
{"id": "C30", "title": "Aerodynamic angles outside [-90, 90] degrees are rejected", "statement": "Updating a flight state with an angle of attack or sideslip angle below -90 or above 90 degrees raises ValueError.", "quantifier": "every state dictionary", "why_tests_cant": "needs all values; no test in the suite tries an illegal angle", "anchors": [{"file": "src/lib/pytornado/objects/state.py", "symbols": ["FlightState.check_values"]}]}
{"id": "C31", "title": "A flight state can be updated repeatedly", "statement": "Updating a flight state with a valid dictionary gives the same result whether or not the object has been updated before, and a rejected update leaves the object as it was.", "quantifier": "every pair of consecutive updates", "why_tests_cant": "history-dependent behaviour; tests create fresh objects", "anchors": [{"file": "src/lib/pytornado/objects/state.py", "symbols": ["FlightState.update_from_dict"]}]}
{"id": "C32", "title": "User settings override defaults key by key and every accepted setting is well-typed", "statement": "After updating settings from a dictionary, every key given has the given value, every other key keeps its previous value, an empty results plot option becomes ['cp'], and the update is accepted exactly if every templated key has a value of an allowed type (recursively) and 0 < epsilon < 1; the defaults are themselves acceptable apart from the mandatory file names.", "quantifier": "every settings dictionary", "why_tests_cant": "recursive template check over arbitrary nested dictionaries", "anchors": [{"file": "src/lib/pytornado/objects/settings.py", "symbols": ["Settings.update_from_dict", "Settings._check_settings_dict", "DEFAULT_SETTINGS"]}, {"file": "src/lib/pytornado/objects/utils.py", "symbols": ["check_dict", "get_default_dict"]}]}
{"id": "C33", "title": "Saving settings writes exactly the public settings and does not change the session", "statement": "The saved settings file contains exactly the entries whose key (at any nesting level) does not start with an underscore, with unchanged values and order, loading it restores all public settings, and saving has no effect on the settings object in memory.", "quantifier": "every settings dictionary (any nesting)", "why_tests_cant": "recursion over arbitrary nested dictionaries plus a frame condition on live objects", "anchors": [{"file": "src/lib/pytornado/fileio/native/settings.py", "symbols": ["save", "clean_dict", "load"]}]}
{"id": "C34", "title": "Saving and reloading an aircraft file preserves the aircraft definition", "statement": "Writing an aircraft to the native JSON format and loading it gives an aircraft with the same uid, reference values, wings, segments, controls, panels, symmetry and deflections in the same order.", "quantifier": "every well-formed aircraft", "why_tests_cant": "round-trip over arbitrary nested data", "anchors": [{"file": "src/lib/pytornado/fileio/native/aircraft.py", "symbols": ["load", "save"]}]}
{"id": "C35", "title": "Saving and reloading a state file preserves the flight state", "statement": "Writing a flight state and loading it again yields an equivalent flight state (the same airspeed, density, angles and rates for every state).", "quantifier": "every accepted flight state", "why_tests_cant": "round-trip through input/derived bookkeeping for all input combinations", "anchors": [{"file": "src/lib/pytornado/fileio/native/state.py", "symbols": ["load", "save"]}, {"file": "src/lib/pytornado/objects/state.py", "symbols": ["FlightState"]}]}
{"id": "C36", "title": "Only the requested result files are written, once per state", "statement": "For each flight state exactly the result files whose save flag is set are written, each under its own name with the state index, and the aeroperformance map lists for every state, in order, the coefficients computed for that state.", "quantifier": "every combination of save flags and every number of states", "why_tests_cant": "file-set as a function of flags and loop count", "anchors": [{"file": "src/lib/pytornado/fileio/native/results.py", "symbols": ["save_all", "save_aeroperformance_map"]}, {"file": "src/lib/pytornado/stdfun/run.py", "symbols": ["standard_run"]}]}
{"id": "C37", "title": "Component uids are unique and enumeration follows definition order", "statement": "Within an aircraft wing uids, and within a wing segment and control uids, are unique: adding a component with an existing uid raises and changes nothing. The enumeration helpers visit every component exactly once, in definition order with consecutive indices, together with its true parents, and the count functions equal the number of visits.", "quantifier": "every sequence of add calls and every aircraft", "why_tests_cant": "nested generators over arbitrary aircraft", "anchors": [{"file": "src/lib/pytornado/objects/aircraft.py", "symbols": ["Aircraft.add_wing", "Wing.add_segment", "Wing.add_control"]}, {"file": "src/lib/pytornado/objects/objecttools.py", "symbols": ["all_wings", "all_segments", "all_controls", "all_subdivisions", "all_subareas", "count_all_wings"]}]}
{"id": "C38", "title": "Subareas of a control can be listed", "statement": "Listing the subareas of a control by uid yields exactly the strips' subareas that belong to that control, for every panelled aircraft.", "quantifier": "every aircraft and every control uid", "why_tests_cant": "depends on all subareas including those without a control", "anchors": [{"file": "src/lib/pytornado/objects/objecttools.py", "symbols": ["all_subareas_of_control"]}]}
{"id": "C39", "title": "Control definitions are range-checked", "statement": "A control is accepted exactly if its edges satisfy the documented ordering and range rules (inner edge inboard of outer edge on the same segment, 0 <= eta <= 1, device lines inside the chord, hinge on the chord) and its device type is 'flap' or 'slat'.", "quantifier": "every control definition", "why_tests_cant": "decision table over continuous values", "anchors": [{"file": "src/lib/pytornado/objects/aircraft.py", "symbols": ["WingControl.check", "WingControl.device_type", "WingControl.generate"]}]}
{"id": "C40", "title": "Control deflections act on the right side with the right angle", "statement": "Normals of panels of a control's subareas are rotated about that subarea's hinge axis by the control's deflection on the modelled side and by its mirror deflection on the mirrored side; all other panels are not rotated by deflections; zero deflections change nothing.", "quantifier": "every aircraft, every control and every panel", "why_tests_cant": "loop over all records and panels, both sides", "anchors": [{"file": "src/lib/pytornado/aero/vlm.py", "symbols": ["gen_lattice"]}, {"file": "src/lib/pytornado/objects/aircraft.py", "symbols": ["StripSubdivision.abs_hinge_axis"]}]}
{"id": "C41", "title": "A control spanning several segments is continuous", "statement": "A control whose inner and outer edge lie on different segments is placed on the inner segment from its inner edge to the segment end, fully on all segments in between, and on the outer segment up to its outer edge; the device and hinge lines agree at every segment border and reach the given values at the two ends.", "quantifier": "every wing (any number of segments) and every pair of inner/outer segments", "why_tests_cant": "list-processing loop with flags and interpolation over arbitrary segment lists", "anchors": [{"file": "src/lib/pytornado/aero/vlm.py", "symbols": ["pre_panelling"]}]}
{"id": "C42", "title": "Bad segment references of a control are reported", "statement": "A control that refers to a segment uid that does not exist, or whose outer segment precedes its inner segment, leads to an error rather than a silently wrong or missing control surface.", "quantifier": "every wing and every pair of segment uids", "why_tests_cant": "silent behaviour; nothing to assert in ordinary tests", "anchors": [{"file": "src/lib/pytornado/aero/vlm.py", "symbols": ["pre_panelling"]}, {"file": "src/lib/pytornado/objects/aircraft.py", "symbols": ["WingControl.check"]}]}
{"id": "C43", "title": "Collocation chord positions agree between Python and C", "statement": "The chordwise positions used for the camber correction are the chordwise positions of the panel collocation points produced by the compiled lattice generator, lie strictly inside the subarea and increase with the panel index.", "quantifier": "every subarea and every positive number of panels", "why_tests_cant": "agreement of two implementations for all panel counts", "anchors": [{"file": "src/lib/pytornado/objects/aircraft.py", "symbols": ["StripSubdivision.get_xsi_for_collocation_points"]}, {"file": "src/lib/pytornado/aero/c_lattice.cpp", "symbols": ["vlm_lattice"]}]}
{"id": "C44", "title": "Interpolated device lines are straight in space", "statement": "xsi_interpol returns, for a planar segment with straight edges, the chord fraction at which the straight line between the two given points crosses the given span station; in particular it returns the end values at the end stations and stays between 0 and 1 when both ends do.", "quantifier": "every planar convex segment, every pair of end points and every station between them", "why_tests_cant": "geometric identity over all reals", "anchors": [{"file": "src/lib/pytornado/objects/aircraft.py", "symbols": ["xsi_interpol", "get_abs_segment_point_coords"]}]}
{"id": "C45", "title": "Every surface piece gets at least one panel", "statement": "Every subarea gets at least one chordwise panel, the main surface between devices gets no more than the segment's count, and the total number of panels is the sum over subareas counted twice for mirrored wings.", "quantifier": "every reachable aircraft with positive panel counts", "why_tests_cant": "rounding-up over arbitrary device layouts", "anchors": [{"file": "src/lib/pytornado/aero/vlm.py", "symbols": ["gen_lattice"]}, {"file": "src/lib/pytornado/objects/aircraft.py", "symbols": ["StripSubdivision.rel_length"]}]}
{"id": "C46", "title": "Deformations reach the wing they were defined for", "statement": "A deformation field stored under a wing's uid is applied to that wing, one stored under the uid with the mirror suffix to that wing's mirrored side, and a key that does not match any wing is reported.", "quantifier": "every deformation file and every set of wing uids", "why_tests_cant": "string manipulation over arbitrary uids", "anchors": [{"file": "src/lib/pytornado/fileio/native/deformation.py", "symbols": ["load"]}]}
{"id": "C47", "title": "Command line actions", "statement": "Exactly one action is performed per invocation as documented; cleaning requires a settings file, happens before the run, and --clean-only never runs an analysis.", "quantifier": "every combination of command line arguments accepted by the parser", "why_tests_cant": "dispatch over all flag combinations", "anchors": [{"file": "src/bin/_pytornado_exe.py", "symbols": ["main"]}]}
{"id": "C48", "title": "Generating an example never overwrites an existing project", "statement": "setup_wkdir refuses to write into an existing project directory, leaving the file system unchanged, and otherwise creates the complete project tree.", "quantifier": "every initial file system", "why_tests_cant": "frame condition over arbitrary file systems", "anchors": [{"file": "src/lib/pytornado/stdfun/setup.py", "symbols": ["setup_wkdir"]}]}
{"id": "C49", "title": "CPACS result mapping", "statement": "The coefficient written to each CPACS aero-performance field is the coefficient of the corresponding name for every state in order, regardless of pre-existing values in the file.", "quantifier": "every results dictionary and every CPACS document state", "why_tests_cant": "mapping plus overwrite-or-add branch", "anchors": [{"file": "src/lib/pytornado/fileio/cpacs/results.py", "symbols": ["save_aeroperformance_map"]}, {"file": "src/lib/pytornado/fileio/cpacs/utils.py", "symbols": ["add_vector"]}]}
{"id": "C50", "title": "A control surface placed over several strips has no steps", "statement": "After a control has been placed on a segment without error, the strips carrying it are adjacent, neighbouring strips agree on the device line and the hinge line at their common edge, the innermost strip starts with the requested inner values and the outermost strip ends with the requested outer values; at every common edge the device line and the hinge line are where the segment's interpolation puts the lines between the requested end values.", "quantifier": "all segments reachable by any calls, all control positions, all device types, all interpolation rules", "why_tests_cant": "depends on the whole history of cuts and on arbitrarily many strips under the control; a test sees one history", "anchors": ["src/lib/pytornado/objects/aircraft.py: WingSegment.add_subdivision_for_control", "src/lib/pytornado/objects/aircraft.py: SegmentStrip._add_subarea"]}
{"id": "C51", "title": "Symmetric deflections give a symmetric lattice", "statement": "For a wing with symmetry plane xz whose controls have the same deflection on both sides, every panel of a mirrored subarea has its collocation point, bound-leg midpoint and final normal at the mirror image of those of the original panel.", "quantifier": "every aircraft, every mirrored subarea, every panel", "why_tests_cant": "depends on the rotation axes built from mirrored, reordered vertices for arbitrary geometry", "anchors": [{"file": "src/lib/pytornado/aero/vlm.py", "symbols": ["gen_lattice"]}, {"file": "src/lib/pytornado/objects/aircraft.py", "symbols": ["StripSubdivision.abs_hinge_axis", "StripSubdivision.abs_camber_line_rot_axis", "mirror_vertices"]}]}
{"id": "C52", "title": "Vortex legs induce the Biot-Savart velocity", "statement": "The velocity induced by a straight vortex leg of unit circulation at a point off its line is the Biot-Savart line integral over the leg, exactly for epsilon zero and otherwise multiplied by a factor in (0,1] whose distance from 1 is bounded in terms of epsilon.", "quantifier": "all legs, all points off the line, all epsilon >= 0", "why_tests_cant": "an integral identity over all geometries", "anchors": [{"file": "src/lib/pytornado/aero/c_downwash.cpp", "symbols": ["vlm_downwash"]}, {"file": "src/lib/pytornado/aero/c_results.cpp", "symbols": ["vlm_results", "vlm_coeffs"]}]}
{"id": "C53", "title": "Circulations superpose", "statement": "For fixed flow angles the circulation solving a linear combination of airspeeds and rotation rates is the same linear combination of the circulations.", "quantifier": "every lattice, all flow states with equal angles, all factors", "why_tests_cant": "linearity over all inputs of the boundary routine together with the system", "anchors": [{"file": "src/lib/pytornado/aero/c_boundary.cpp", "symbols": ["vlm_boundary"]}, {"file": "src/lib/pytornado/aero/vlm.py", "symbols": ["solver"]}]}
{"id": "C54", "title": "Results do not depend on where the aircraft is placed", "statement": "Translating the lattice together with the centre of gravity and the moment reference point leaves the influence matrix, the right-hand side and every result unchanged.", "quantifier": "every lattice, translation, flow state and circulation", "why_tests_cant": "invariance under all translations", "anchors": [{"file": "src/lib/pytornado/aero/c_downwash.cpp", "symbols": ["vlm_downwash"]}, {"file": "src/lib/pytornado/aero/c_boundary.cpp", "symbols": ["vlm_boundary"]}, {"file": "src/lib/pytornado/aero/c_results.cpp", "symbols": ["vlm_results", "vlm_coeffs"]}]}
{"id": "C55", "title": "Coefficients do not depend on the size of the model", "statement": "Scaling the lattice and all reference values by k>0 and the rotation rates by 1/k multiplies circulations by k, forces by k^2, moments by k^3 and leaves all coefficients, pressure coefficients and induced velocities unchanged.", "quantifier": "every lattice, factor k>0, flow state and circulation", "why_tests_cant": "dimensional invariance of the whole pipeline for all inputs", "anchors": [{"file": "src/lib/pytornado/aero/c_downwash.cpp", "symbols": ["vlm_downwash"]}, {"file": "src/lib/pytornado/aero/c_boundary.cpp", "symbols": ["vlm_boundary"]}, {"file": "src/lib/pytornado/aero/c_results.cpp", "symbols": ["vlm_results", "vlm_coeffs"]}]}
{"id": "C56", "title": "The area stored for a panel is the panel's area", "statement": "The area stored with a panel (used for the panel pressure coefficient) equals the area of the panel quadrilateral.", "quantifier": "every plane panel", "why_tests_cant": "holds on unswept rectangular test wings and fails on swept ones", "anchors": [{"file": "src/lib/pytornado/aero/c_lattice.cpp", "symbols": ["vlm_lattice"]}, {"file": "src/lib/pytornado/aero/c_results.cpp", "symbols": ["vlm_results"]}]}
{"id": "C57", "title": "A loaded aircraft is brought into the state that lattice generation needs", "statement": "For a freshly loaded aircraft, set_autopanels followed by pre_panelling, if it returns, leaves every segment with strips built by accepted cuts and control placements, every device attached to a control of its own wing, and all panel counts positive; only the strips change; the panel count then succeeds with consecutive numbering. Without controls pre_panelling never fails.", "quantifier": "every fresh aircraft with positive spans and positive given counts, every geometry", "why_tests_cant": "composition of three stages over arbitrary component trees", "anchors": [{"file": "src/lib/pytornado/aero/vlm.py", "symbols": ["set_autopanels", "pre_panelling", "gen_lattice"]}]}
{"id": "C58", "title": "A segment is divided into the requested number of equal spanwise strips", "statement": "A segment without controls is divided into exactly num_s strips of equal width; with controls every requested division line is present, or a line less than 0.01 inboard of it, and no line is lost.", "quantifier": "every segment, every spanwise count", "why_tests_cant": "loop over arbitrary counts interacting with the minimum strip width", "anchors": [{"file": "src/lib/pytornado/aero/vlm.py", "symbols": ["pre_panelling"]}, {"file": "src/lib/pytornado/objects/aircraft.py", "symbols": ["WingSegment.add_subdivision"]}]}
{"id": "C59", "title": "An accepted flight state contains numbers only", "statement": "After a flight state has been accepted, all values of all parameters used by the solver (airspeed, density, angles, rates) are numbers, never NaN.", "quantifier": "every state dictionary and atmosphere model", "why_tests_cant": "nulls, strings and NaN in any entry of any parameter", "anchors": [{"file": "src/lib/pytornado/objects/state.py", "symbols": ["FlightState.update_from_dict", "FlightState.iter_states"]}]}
{"id": "C60", "title": "A CPACS aeroperformance map is read row by row", "statement": "Loading the flight states of a CPACS aeroperformance map raises ValueError if the four vectors differ in length; otherwise there is one state per row, with the angles of the row, zero rates, density and airspeed (mach times speed of sound) at the altitude of the row.", "quantifier": "every aeroperformance map and atmosphere model", "why_tests_cant": "arbitrary vector lengths and values", "anchors": [{"file": "src/lib/pytornado/fileio/cpacs/state.py", "symbols": ["load", "_get_aero_dict_from_APM"]}, {"file": "src/lib/pytornado/objects/state.py", "symbols": ["FlightState"]}]}
{"id": "C61", "title": "A dictionary is accepted by the template check exactly if it fits the template", "statement": "check_dict raises nothing exactly if every key of the template is present with a value of one of the allowed types, recursively for nested templates; the default dictionary of a template with consistent defaults passes the check.", "quantifier": "every template and every dictionary", "why_tests_cant": "recursion over arbitrarily nested templates and values", "anchors": [{"file": "src/lib/pytornado/objects/utils.py", "symbols": ["check_dict", "get_default_dict"]}]}
{"id": "C62", "title": "Updating settings does not change the caller's dictionary", "statement": "The dictionary handed to the settings update is left as it was.", "quantifier": "every settings object and every dictionary", "why_tests_cant": "aliasing between the caller's nested dictionaries and the settings", "anchors": [{"file": "src/lib/pytornado/objects/settings.py", "symbols": ["Settings.update_from_dict"]}]}
{"id": "C63", "title": "A run with accepted input comes to its end", "statement": "If settings and flight states have been accepted and the numerics, plotting and file system succeed, the standard run processes every state and returns; it does not stop because of the settings or the number of states.", "quantifier": "every accepted settings dictionary, every accepted state (any number of states)", "why_tests_cant": "the tests run a handful of settings files with at least one state; the loop has to be covered for every number of states including none", "anchors": [{"file": "src/lib/pytornado/stdfun/run.py", "symbols": ["standard_run"]}, {"file": "src/lib/pytornado/plot/makeplots.py", "symbols": ["make_all"]}, {"file": "src/lib/pytornado/fileio/native/results.py", "symbols": ["save_all"]}]}
{"id": "C64", "title": "Exactly the requested figures are saved and shown", "statement": "For every state, the figures saved are exactly those of the plots whose 'save' option is set, and figures are displayed for exactly those plots whose 'show' option is set; each of the geometry, lattice and results plots consists of a 2D and a 3D figure, results plots of one pair per requested option.", "quantifier": "every combination of plot options and every number of states", "why_tests_cant": "figure set as a function of nested options and loop count; plots are not checked by any test", "anchors": [{"file": "src/lib/pytornado/plot/makeplots.py", "symbols": ["make_all", "_geometry", "_lattice", "_results", "_downwash"]}, {"file": "src/lib/pytornado/plot/plottools.py", "symbols": ["plot2d3d", "show_and_save"]}, {"file": "src/lib/pytornado/stdfun/run.py", "symbols": ["standard_run"]}]}
{"id": "C65", "title": "A side without displacement keeps its undeformed geometry", "statement": "If the deformation of one side of a wing is absent or does not displace any point, all strips, subareas and hinge lines of that side are exactly those of the undeformed wing, whether or not the other side is deformed.", "quantifier": "every segment, strip, subarea, symmetry plane and deformation of the other side", "why_tests_cant": "relates two code branches for arbitrary geometry", "anchors": [{"file": "src/lib/pytornado/objects/aircraft.py", "symbols": ["SegmentStrip.abs_vertices", "StripSubdivision.abs_vertices", "StripSubdivision.abs_hinge_vertices", "WingSegment.get_deformed_segment_point"]}]}
{"id": "C66", "title": "A symmetric deformation gives a symmetric mesh", "statement": "If the mirrored side moves as the mirror image of the other side, the mirrored subareas, hinge lines and panels are the mirror images of those of the other side, with normals pointing to the same side.", "quantifier": "every segment, strip, subarea, symmetric pair of deformation fields and symmetry plane", "why_tests_cant": "arbitrary displacement fields and geometry", "anchors": [{"file": "src/lib/pytornado/objects/aircraft.py", "symbols": ["SegmentStrip.abs_vertices", "StripSubdivision.abs_vertices", "StripSubdivision.abs_hinge_vertices", "WingSegment.get_deformed_segment_point"]}]}
{"id": "C67", "title": "The mesh has no cracks", "statement": "Neighbouring strips have a common edge, strips on both sides of a common segment edge have a common edge, and the subareas of one strip follow each other without a gap; this holds on both sides of a wing and also for deformed wings.", "quantifier": "every segment geometry, division, symmetry plane and deformation field", "why_tests_cant": "arbitrary geometry and displacement fields; tests look at few coordinates", "anchors": [{"file": "src/lib/pytornado/objects/aircraft.py", "symbols": ["SegmentStrip.abs_vertices", "StripSubdivision.abs_vertices", "StripSubdivision.abs_hinge_vertices", "WingSegment.get_deformed_segment_point"]}]}
{"id": "C68", "title": "Aircraft database lookup", "statement": "The names listed for the aircraft database are exactly the names of the aircraft files in it. Asking for a listed aircraft by name or file name generates a project from the file of that name; asking for any other name lists the database and exits with an error without creating anything.", "quantifier": "every database content and every requested name", "why_tests_cant": "string processing of arbitrary names over arbitrary directory contents", "anchors": [{"file": "src/bin/_pytornado_exe.py", "symbols": ["main"]}, {"file": "src/lib/pytornado/database/tools.py", "symbols": ["list_aircraft_names", "get_aircraft_file_path"]}]}
{"id": "C69", "title": "A generated project can be analysed", "statement": "The settings, state and aircraft files of a project made by setup_wkdir can be read back: the settings are valid and name files that exist in the project, the state file holds exactly one flight state with the template values, and the aircraft file describes the aircraft it was made from.", "quantifier": "every initial file system, every working directory, every given aircraft file that loads", "why_tests_cant": "composition of writers and readers over arbitrary aircraft and file systems", "anchors": [{"file": "src/lib/pytornado/stdfun/setup.py", "symbols": ["setup_wkdir"]}, {"file": "src/lib/pytornado/fileio/native/settings.py", "symbols": ["save", "load"]}, {"file": "src/lib/pytornado/fileio/native/state.py", "symbols": ["save", "load"]}, {"file": "src/lib/pytornado/fileio/native/aircraft.py", "symbols": ["save", "load"]}]}
{"id": "C70", "title": "Chords, span, sweep, incidence and yaw of a segment are those of its vertices", "statement": "After a segment with four given vertices is generated, chords are the lengths of AD and BC, span and sweep describe AB, incidence and yaw are the angles of the chords; the values lie in the ranges an aircraft file may contain, except for upright or upstream chords.", "quantifier": "all four vertices in space", "why_tests_cant": "all quadrants of atan2 and the degenerate chords", "anchors": [{"file": "src/lib/pytornado/objects/aircraft.py", "symbols": ["WingSegment.generate"]}]}
{"id": "C71", "title": "The dihedral of a segment is that of its axis", "statement": "The dihedral computed from the vertices is the angle of the axis line (documented: measured at the axis) in the y-z plane.", "quantifier": "all segments and axis positions", "why_tests_cant": "wrong only with different incidence of the chords", "anchors": [{"file": "src/lib/pytornado/objects/aircraft.py", "symbols": ["WingSegment.generate"]}]}
{"id": "C72", "title": "The area of a segment is the area of its quadrilateral", "statement": "WingSegment.area (from span and chords) is the area of the quadrilateral ABCD.", "quantifier": "all plane segments", "why_tests_cant": "holds for common examples only", "anchors": [{"file": "src/lib/pytornado/objects/aircraft.py", "symbols": ["WingSegment.area"]}]}
{"id": "C73", "title": "The size of an aircraft is the diagonal of its bounding box", "statement": "Aircraft.size is the diagonal of the smallest box around all segments of all wings including mirrored sides.", "quantifier": "all aircraft", "why_tests_cant": "minimum and maximum over arbitrary lists with all symmetries", "anchors": [{"file": "src/lib/pytornado/objects/aircraft.py", "symbols": ["Aircraft.size"]}]}
{"id": "C74", "title": "A geometry figure shows the whole aircraft in every view", "statement": "The 3D view and the three plane views draw the projections of all segments and of their mirror images on the labelled axes, inside the limits of the axes, with equal scale of all axes.", "quantifier": "all aircraft", "why_tests_cant": "figures are not inspected by tests", "anchors": [{"file": "src/lib/pytornado/plot/plottools.py", "symbols": ["_get_limits", "_scale_fig", "_scale_plots", "add_wings", "_plot_XYZ_points"]}]}
{"id": "C75", "title": "A results figure shows each panel with a colour proportional to its value", "statement": "Every panel is drawn as a surface through its four corners; colours are 0 for the smallest value, 1 for the largest and linear between; constant data gives one colour.", "quantifier": "all data, lattices and aircraft of nonzero size", "why_tests_cant": "figures are not inspected by tests", "anchors": [{"file": "src/lib/pytornado/plot/plottools.py", "symbols": ["add_results", "interpolate_quad"]}]}
{"id": "C76", "title": "Normal and main direction of a segment are perpendicular to its edges", "statement": "The normal of a segment is perpendicular to AB and AD; the main direction is perpendicular to AD and points from AD to the side of B.", "quantifier": "all segments", "why_tests_cant": "all orientations in space", "anchors": [{"file": "src/lib/pytornado/objects/aircraft.py", "symbols": ["WingSegment.normal_vector", "WingSegment.main_direction"]}]}
{"id": "C77", "title": "Vertices of a CPACS segment are put in the expected order", "statement": "Whatever the orientation in which a CPACS segment is defined, the vertices of the loaded segment are the mid points of its corners, re-ordered so that A and D lie at the root, B and C at the tip, A and B in front of D and C.", "quantifier": "for all CPACS documents that are read without exception, all wings, all segments, all corner positions", "why_tests_cant": "Tests use a few aircraft with ordinary wings; the order for arbitrary corner positions (vertical, swept-back, reversed, leaning) is an infinite case distinction.", "anchors": [{"file": "src/lib/pytornado/fileio/cpacs/aircraft.py", "symbols": ["get_aircraft_wing_segments"]}, {"file": "src/lib/pytornado/fileio/cpacs/utils.py", "symbols": ["get_segment_mid_point"]}]}
{"id": "C78", "title": "Airfoils of a CPACS segment stay at their sections", "statement": "In an aircraft loaded from CPACS, the airfoil called 'inner' of a segment is the profile of the section at the root side (A, D), the airfoil called 'outer' that of the section at the tip side (B, C).", "quantifier": "for all CPACS documents that are read without exception, all segments, both orientations", "why_tests_cant": "Needs segments in both orientations with different profiles at both ends; test aircraft are defined from root to tip.", "anchors": [{"file": "src/lib/pytornado/fileio/cpacs/aircraft.py", "symbols": ["get_aircraft_wing_segments", "get_aircraft_airfoils"]}]}
{"id": "C79", "title": "Control devices of a CPACS wing become controls", "statement": "Each control device of a component segment (leading or trailing edge) becomes a control of the wing with the uid of the device: a slat or a flap, with the positions of its edge and hinge line.", "quantifier": "for all CPACS documents that are read without exception, all numbers and combinations of leading and trailing edge devices", "why_tests_cant": "Combinations of leading and trailing edge devices with missing data are unbounded; test aircraft have flaps only.", "anchors": [{"file": "src/lib/pytornado/fileio/cpacs/aircraft.py", "symbols": ["get_aircraft_controls"]}, {"file": "src/lib/pytornado/fileio/cpacs/__patch.py", "symbols": ["PATCH_getControlSurfaceCount", "PATCH_getControlSurfaceUID"]}]}
{"id": "C80", "title": "Deflections given in a CPACS document are used", "statement": "The deflections listed in the tool-specific part of a CPACS document are those of the controls with these uids, on whatever wing they are; controls not listed have deflection zero; without mirrored deflection, the deflection holds for both sides.", "quantifier": "for all CPACS documents, all numbers of wings, controls and list entries", "why_tests_cant": "The outcome depends on the order of wings, of controls and of list entries.", "anchors": [{"file": "src/lib/pytornado/fileio/cpacs/aircraft.py", "symbols": ["get_aircraft_controls"]}, {"file": "src/lib/pytornado/objects/aircraft.py", "symbols": ["WingControl.check"]}]}
{"id": "C81", "title": "Airfoil files written from CPACS hold the profiles of the segments", "statement": "For each airfoil of a CPACS document exactly one file is written, with its points; the inner and outer airfoil file of each segment hold the points of the profile of its inner and outer section, provided no two airfoil names agree after removal of special characters.", "quantifier": "for all CPACS documents that are read without exception, all airfoil names, all segments", "why_tests_cant": "Two functions compute the file name independently; that they agree for all names cannot be tested.", "anchors": [{"file": "src/lib/pytornado/fileio/cpacs/aircraft.py", "symbols": ["get_aircraft_airfoils", "write_airfoil_files"]}, {"file": "src/lib/pytornado/fileio/utils.py", "symbols": ["parse_str"]}, {"file": "src/lib/pytornado/objects/settings.py", "symbols": ["PATHS.FILES.AIRFOIL"]}]}
{"id": "C82", "title": "Structure of an aircraft read from CPACS", "statement": "The loaded aircraft has the wings and segments of the document in the same order, with the names of the document reduced to letters, digits, '-' and '_' (numbered names where there is none), all different; the symmetry of the wings; and the reference values of the document.", "quantifier": "for all CPACS documents that are read without exception", "why_tests_cant": "Numbers of wings and segments and their names are unbounded.", "anchors": [{"file": "src/lib/pytornado/fileio/cpacs/aircraft.py", "symbols": ["get_aircraft_name", "get_aircraft_wings", "get_aircraft_wing_segments", "get_aircraft_refs", "load"]}]}
{"id": "C83", "title": "A CPACS aircraft can be converted to a native aircraft file", "statement": "An aircraft loaded from CPACS that is saved as native aircraft file and loaded from there is the same aircraft (names, reference values, segments, airfoils, controls with deflections), exactly if its computed angles are in the ranges accepted for given angles.", "quantifier": "for all CPACS documents that are read without exception", "why_tests_cant": "Equality of all parts after conversion for arbitrary aircraft; the condition on the angles is found by proof only.", "anchors": [{"file": "src/lib/pytornado/fileio/cpacs/aircraft.py", "symbols": ["load"]}, {"file": "src/lib/pytornado/fileio/native/aircraft.py", "symbols": ["load", "save"]}, {"file": "src/lib/pytornado/stdfun/setup.py", "symbols": ["cpacs2pytornado"]}]}
{"id": "C84", "title": "Controls read from CPACS refer to segments of their wing", "statement": "The segment uids of a control loaded from CPACS are uids of segments of the loaded wing.", "quantifier": "for all CPACS documents that are read without exception, all uids", "why_tests_cant": "Segment uids pass through two different paths; agreement for all strings is not testable.", "anchors": [{"file": "src/lib/pytornado/fileio/cpacs/aircraft.py", "symbols": ["get_aircraft_wing_segments", "get_aircraft_controls"]}, {"file": "src/lib/pytornado/fileio/utils.py", "symbols": ["parse_str"]}]}
{"id": "C85", "title": "Flight states of one run do not influence each other", "statement": "The result files of a state and its entries in the performance map are those of a run with this state alone, although aircraft, lattice and result arrays are reused from state to state.", "quantifier": "for all aircraft, settings, lists of states, positions of a state in the list", "why_tests_cant": "Left-over values of an earlier state show only for particular sequences of states; the claim is about all sequences.", "anchors": [{"file": "src/lib/pytornado/stdfun/run.py", "symbols": ["standard_run"]}, {"file": "src/lib/pytornado/aero/vlm.py", "symbols": ["calc_downwash", "calc_boundary", "solver", "calc_results"]}]}
{"id": "C86", "title": "The compiled functions compute with the values of the user", "statement": "The files of a state contain what the VLM equations give for the numbers of this state, of the reference dictionary of the aircraft (floats or integers) and of the settings, under the right names and in the right columns.", "quantifier": "for all aircraft, reference values, settings and states of a finished run", "why_tests_cant": "The C code checks types and silently returns zeros on a mismatch; that no accepted input leads there is a claim about all inputs.", "anchors": [{"file": "src/lib/pytornado/aero/c_vlm.cpp", "symbols": ["get_statestruct", "get_refstruct", "get_latticestruct", "py2c_results"]}, {"file": "src/lib/pytornado/aero/vlm.py", "symbols": ["calc_downwash", "calc_boundary", "solver", "calc_results"]}, {"file": "src/lib/pytornado/fileio/native/results.py", "symbols": ["save_all", "_save_panelwise", "_save_matrix_system", "_save_global"]}]}
{"id": "C87", "title": "The files of one state agree with each other", "statement": "The forces in global.json are the sums of the columns of panelwise.dat, magnitudes are those of their components, matrix.dat has one equation per row of panelwise.dat and the circulations solve these equations if the matrix is regular.", "quantifier": "for all finished runs, states and combinations of saved files", "why_tests_cant": "Relates three files for every run; examples cover single numbers.", "anchors": [{"file": "src/lib/pytornado/fileio/native/results.py", "symbols": ["save_all", "_save_panelwise", "_save_matrix_system", "_save_global"]}, {"file": "src/lib/pytornado/aero/vlm.py", "symbols": ["calc_downwash", "calc_boundary", "solver", "calc_results"]}]}
{"id": "C88", "title": "A run of a panelled aircraft comes to its end", "statement": "If the settings are accepted, the aircraft is freshly loaded with panel counts set, pre-panelling succeeds and there is at least one state and one segment, the run finishes; without any segment it fails before writing a file.", "quantifier": "for all aircraft, settings, non-empty lists of states", "why_tests_cant": "Absence of exceptions for all geometries, control layouts and symmetry flags.", "anchors": [{"file": "src/lib/pytornado/stdfun/run.py", "symbols": ["standard_run"]}, {"file": "src/lib/pytornado/aero/vlm.py", "symbols": ["gen_lattice", "solver"]}]}
{"id": "C89", "title": "A finished run has a uniquely determined solution", "statement": "If a run finishes, the system of equations of each state has exactly one solution; otherwise the user is told.", "quantifier": "for all aircraft and states", "why_tests_cant": "Singular systems arise from particular geometries, such as coinciding wings, that test cases avoid.", "anchors": [{"file": "src/lib/pytornado/aero/vlm.py", "symbols": ["solver"]}, {"file": "src/lib/pytornado/stdfun/run.py", "symbols": ["standard_run"]}]}
{"id": "C90", "title": "A run depends only on the files named by its settings", "statement": "Two runs with the same settings file give the same outcome, the same result files and the same figures if the settings file, the aircraft file, the state file, the deformation file and the airfoil files named there agree; all other files, such as old results, make no difference.", "quantifier": "for all pairs of file systems, settings files and behaviours of the readers and the solver", "why_tests_cant": "Independence of all other files quantifies over every other content of the disk.", "anchors": [{"file": "src/lib/pytornado/stdfun/run.py", "symbols": ["standard_run"]}, {"file": "src/lib/pytornado/objects/settings.py", "symbols": ["Settings.__init__", "Settings.generate_paths"]}, {"file": "src/lib/pytornado/fileio/native/settings.py", "symbols": ["load"]}]}
{"id": "C91", "title": "Airfoil names mean the same wherever the program is started", "statement": "An airfoil name that starts with the folder 'airfoils' means the file of that name in the project; 'NACA' followed by digits, in upper or lower case, means the NACA airfoil; any other name that is no file is refused; the meaning does not depend on the directory where the program is started.", "quantifier": "for all names, file systems and working directories", "why_tests_cant": "The tests start in one directory; a file that happens to have the name of a NACA airfoil is not among them.", "anchors": [{"file": "src/lib/pytornado/objects/aircraft.py", "symbols": ["WingSegment._import_airfoils"]}, {"file": "src/lib/pytornado/fileio/native/aircraft.py", "symbols": ["load"]}]}
{"id": "C92", "title": "The aircraft file is read according to its extension", "statement": "A file with extension 'xml' is read as CPACS and a file with extension 'json' as native format, in upper or lower case. Any other extension ends the run with an error before anything is written. CPACS states are refused for an aircraft that is not CPACS.", "quantifier": "for all settings, file names and contents", "why_tests_cant": "All spellings of extensions, and that nothing at all is changed, cannot be enumerated.", "anchors": [{"file": "src/lib/pytornado/objects/settings.py", "symbols": ["Settings._check_aircraft_file_type", "Settings.state_is_cpacs"]}, {"file": "src/lib/pytornado/stdfun/run.py", "symbols": ["standard_run"]}]}
{"id": "C93", "title": "Runs can be repeated", "statement": "Running the same settings again, on the files as the first run left them, gives the same outcome, result files and figures, provided that no input file is a log, result or figure file, and for CPACS aircraft that the states are not stored in the aircraft file and no input is in the folder for airfoils.", "quantifier": "for all file systems, settings and behaviours of the readers and the solver", "why_tests_cant": "Tests clean up or start from a fixed project; a leftover can influence a later run in any project.", "anchors": [{"file": "src/lib/pytornado/stdfun/run.py", "symbols": ["standard_run"]}, {"file": "src/lib/pytornado/objects/settings.py", "symbols": ["Settings.__init__"]}]}
{"id": "C94", "title": "Different settings keep their results apart", "statement": "Two different settings files of one project never write to the same result files or figures; a run leaves the results of other settings unchanged.", "quantifier": "for all projects, names of settings and file systems", "why_tests_cant": "Names such as 'a' and 'a_000' could collide; all pairs of names have to be considered.", "anchors": [{"file": "src/lib/pytornado/objects/settings.py", "symbols": ["Settings.generate_paths"]}, {"file": "src/lib/pytornado/fileio/native/settings.py", "symbols": ["load"]}]}
{"id": "C95", "title": "Saved settings return to their file", "statement": "Settings that were loaded from a file are saved to the same file.", "quantifier": "for all settings files", "why_tests_cant": "The test project has its settings in the usual folder.", "anchors": [{"file": "src/lib/pytornado/fileio/native/settings.py", "symbols": ["load", "save"]}, {"file": "src/lib/pytornado/objects/settings.py", "symbols": ["Settings.generate_paths"]}]}
{"id": "C96", "title": "Cleaning removes the results and nothing else", "statement": "Cleaning a project removes everything in the folders for results and figures and no other file; a later run gives the same outcome, result files and figures as without cleaning.", "quantifier": "for all projects and file systems", "why_tests_cant": "That nothing else is removed quantifies over all other files.", "anchors": [{"file": "src/lib/pytornado/stdfun/run.py", "symbols": ["clean_project_dir", "get_settings"]}, {"file": "src/lib/pytornado/objects/settings.py", "symbols": ["Settings.clean"]}]}
{"id": "C97", "title": "A run writes only its own output", "statement": "A run changes nothing but its own results and figures, the log file and missing directories; for a CPACS aircraft also files in the folder for airfoils, and the aircraft file if the states come from it. Every result file reported by the run is there afterwards with its content.", "quantifier": "for all file systems, settings and outcomes of the run, including failures", "why_tests_cant": "That nothing else is changed quantifies over all other paths; names given by the user can contain '..' and '/'.", "anchors": [{"file": "src/lib/pytornado/stdfun/run.py", "symbols": ["standard_run"]}, {"file": "src/lib/pytornado/objects/settings.py", "symbols": ["Settings.generate_paths"]}, {"file": "src/lib/pytornado/fileio/native/results.py", "symbols": ["save_all"]}]}
{"id": "C98", "title": "Mirrored flight conditions give mirrored loads", "statement": "If the sign of sideslip, roll rate and yaw rate is changed and the deflections of both sides are exchanged (surfaces on the plane of symmetry: reversed), a symmetric aircraft has the same drag, lift and pitching moment and the opposite side force, rolling moment and yawing moment, with reference points on the plane of symmetry; the force on every panel is the mirror image of the force on its counterpart. For lattices that are mirror images of each other this holds without any assumption on the aircraft.", "quantifier": "for all lattices, symmetric aircraft, deflections, flight states and reference values for which the equations have a unique solution", "why_tests_cant": "Every aircraft, state and setting, including the association of each panel with its counterpart, is beyond enumeration.", "anchors": [{"file": "src/lib/pytornado/aero/c_lattice.cpp", "symbols": ["vlm_lattice"]}, {"file": "src/lib/pytornado/aero/c_downwash.cpp", "symbols": ["vlm_downwash"]}, {"file": "src/lib/pytornado/aero/c_boundary.cpp", "symbols": ["vlm_boundary"]}, {"file": "src/lib/pytornado/aero/c_results.cpp", "symbols": ["vlm_results"]}, {"file": "src/lib/pytornado/aero/vlm.py", "symbols": ["gen_lattice", "calc_boundary", "calc_results"]}]}
{"id": "C99", "title": "Turning the aircraft in pitch is the same as changing the angle of attack", "statement": "If the whole geometry, including reference points, is turned nose down by an angle and the aircraft is flown at an angle of attack larger by that angle, all circulations, lift, drag, side force and pitching moment and their coefficients are unchanged, and all forces are turned with the aircraft.", "quantifier": "for all lattices, aircraft, angles, states and reference values for which the equations have a unique solution", "why_tests_cant": "An identity between two continuous families of configurations.", "anchors": [{"file": "src/lib/pytornado/aero/c_vlm.cpp", "symbols": ["get_freestream_direction"]}, {"file": "src/lib/pytornado/aero/c_lattice.cpp", "symbols": ["vlm_lattice"]}, {"file": "src/lib/pytornado/aero/c_downwash.cpp", "symbols": ["vlm_downwash"]}, {"file": "src/lib/pytornado/aero/c_boundary.cpp", "symbols": ["vlm_boundary"]}, {"file": "src/lib/pytornado/aero/c_results.cpp", "symbols": ["vlm_results"]}, {"file": "src/lib/pytornado/aero/vlm.py", "symbols": ["gen_lattice"]}]}
{"id": "C100", "title": "Surfaces aligned with the flow carry no load", "statement": "If the onset flow is tangential at every collocation point, all circulations, induced velocities, panel forces, the total force and the moment are zero. This is the case for an aircraft of uncambered segments in planes parallel to the x-axis, with no deflection, at zero angle of attack and sideslip without rotation.", "quantifier": "for all lattices, aircraft, speeds, densities and reference values for which the equations have a unique solution", "why_tests_cant": "All planforms, dihedral angles and panel numbers.", "anchors": [{"file": "src/lib/pytornado/aero/c_lattice.cpp", "symbols": ["vlm_lattice"]}, {"file": "src/lib/pytornado/aero/c_boundary.cpp", "symbols": ["vlm_boundary"]}, {"file": "src/lib/pytornado/aero/c_results.cpp", "symbols": ["vlm_results"]}, {"file": "src/lib/pytornado/aero/vlm.py", "symbols": ["gen_lattice", "calc_results"]}]}
{"id": "C101", "title": "The compiled functions address the intended cells for any number of panels", "statement": "With 32 bit int indices, the compiled functions read and write exactly the cells of the arrays that belong to the panels concerned: the influence coefficient of panels i, j is stored in row i, column j of the matrix and nothing else in memory changes, and the lattice generator fills exactly the row of each panel.", "quantifier": "for all numbers of panels and all subdivisions of the lattice", "why_tests_cant": "The arithmetic fails only for matrices of more than 2^31 entries (17 GB), which no test allocates.", "anchors": [{"file": "src/lib/pytornado/aero/c_downwash.cpp", "symbols": ["vlm_downwash"]}, {"file": "src/lib/pytornado/aero/c_boundary.cpp", "symbols": ["vlm_boundary"]}, {"file": "src/lib/pytornado/aero/c_results.cpp", "symbols": ["vlm_results"]}, {"file": "src/lib/pytornado/aero/c_lattice.cpp", "symbols": ["vlm_lattice"]}]}
{"id": "C102", "title": "Calls of the compiled functions leave the reference counts of Python objects balanced", "statement": "A call of py2c_lattice, py2c_downwash, py2c_boundary or py2c_results leaves every Python object with as many references from outside containers as before, so that lattices and results are freed when Python no longer uses them; and no call releases a reference that it does not own, so that no object in use is freed.", "quantifier": "for all lattices, states and results objects, all four functions and all outcomes of a call, and for all sequences of calls", "why_tests_cant": "A leak changes no result; tests do not look at reference counts and do not reach every error exit.", "anchors": [{"file": "src/lib/pytornado/aero/c_vlm.cpp", "symbols": ["py2c_lattice", "py2c_downwash", "py2c_boundary", "py2c_results", "get_latticestruct", "get_infostruct", "set_infostruct", "get_statestruct", "get_refstruct", "get_resultstruct", "set_resultstruct"]}]}
{"id": "C103", "title": "Rounding does not change the division of a segment into strips", "statement": "With positions and distances rounded to double precision, the strips of a segment still cover the span without gap or overlap, every position is found in exactly one strip, lines stay where they were made, and a segment without controls divided into n parts by the automatic spanwise division has n strips whose borders are at i/n up to rounding.", "quantifier": "for all sequences of calls of add_subdivision and add_subdivision_for_control, all rounding functions (tiling) or all roundings with the accuracy of doubles (equal strips), and all n", "why_tests_cant": "Whether two lines are closer than 0.01 depends on the last bit of their positions, for some n only.", "anchors": [{"file": "src/lib/pytornado/objects/aircraft.py", "symbols": ["WingSegment.add_subdivision", "WingSegment.get_subdiv_at_eta", "WingSegment.add_subdivision_for_control"]}, {"file": "src/lib/pytornado/aero/vlm.py", "symbols": ["pre_panelling"]}]}
{"id": "C104", "title": "Trailing vortices act as if they extended to infinity", "statement": "The trailing legs of every horseshoe start at the ends of its bound leg and run 10000 length units in the direction of the free stream; the velocity they induce at a point differs from that of vortices of infinite length by at most the distance of the point from the line divided by 8 pi times the square of the remaining length (plus the effect of the regularisation).", "quantifier": "for all lattices, angles of attack and sideslip, horseshoes and points not on the lines of the legs and upstream of their ends", "why_tests_cant": "The wake of infinite length cannot be computed for comparison; tests compare with tabulated loads.", "anchors": [{"file": "src/lib/pytornado/aero/c_lattice.cpp", "symbols": ["vlm_lattice"]}, {"file": "src/lib/pytornado/aero/c_downwash.cpp", "symbols": ["vlm_downwash"]}, {"file": "src/lib/pytornado/aero/c_results.cpp", "symbols": ["vlm_results"]}]}
{"id": "C105", "title": "Trailing vortices carry the difference of neighbouring circulations", "statement": "The velocity induced by a spanwise row of panels is that of the bound legs with the circulations of the panels plus that of one vortex per trailing line whose strength is the difference of the circulations on its two sides; the strengths of the trailing lines add up to zero. Neighbouring panels share their lines within a subarea and across subareas that meet.", "quantifier": "for all rows of panels, circulations, points and epsilon at which the velocities are defined", "why_tests_cant": "A gap between the trailing lines of neighbours changes the loads a little in every case; no reference value shows it.", "anchors": [{"file": "src/lib/pytornado/aero/c_lattice.cpp", "symbols": ["vlm_lattice"]}, {"file": "src/lib/pytornado/aero/c_results.cpp", "symbols": ["vlm_results"]}]}
{"id": "C106", "title": "Coefficients do not depend on the size of the aircraft", "statement": "An aircraft scaled by k, flown at the same speed, density and angles with rates divided by k, has the same coefficients, k^2 times the forces and k^3 times the moments.", "quantifier": "for all aircraft, flight states and factors k > 0", "why_tests_cant": "The trailing legs have a fixed length; the deviation is visible only for aircraft comparable to it in size.", "anchors": [{"file": "src/lib/pytornado/aero/c_lattice.cpp", "symbols": ["vlm_lattice"]}, {"file": "src/lib/pytornado/aero/vlm.py", "symbols": ["solver", "calc_results"]}]}
{"id": "C107", "title": "Result tables can be read back", "statement": "The panel table has one line per panel and one column per quantity in the order named in its comment line; the matrix file has one line per equation with the coefficients followed by the right-hand side. Reading the comma-separated fields gives every value rounded to the nearest number with seven decimal digits (relative error at most 5e-7), with nan and inf kept; numbers never run into each other.", "quantifier": "for all numbers of panels and all values, finite or not", "why_tests_cant": "Tests read a few files with ordinary values; signs, carries of the rounding and long exponents occur for some values only.", "anchors": [{"file": "src/lib/pytornado/fileio/native/results.py", "symbols": ["_save_panelwise", "_save_matrix_system", "FMT_NUM"]}]}
{"id": "C108", "title": "Equations of a plain wing have exactly one solution", "statement": "For a plane wing with one row of panels and a straight unswept quarter-chord line at zero angle of attack and sideslip, the downwash matrix is regular: for every right-hand side there is exactly one vector of circulations, as long as the regularisation epsilon is small enough for the lattice. The circulations are non-negative if the right-hand side is, and all positive if moreover one entry of the right-hand side is positive.", "quantifier": "for all numbers, widths and chord lengths of strips, gaps between wing parts, all tilted normals (camber, controls) and all right-hand sides", "why_tests_cant": "Tests solve some lattices; a matrix that is singular or badly signed for some division of the span would not be noticed, as the info of dgesv is ignored.", "anchors": [{"file": "src/lib/pytornado/aero/c_downwash.cpp", "symbols": ["vlm_downwash"]}, {"file": "src/lib/pytornado/aero/c_lattice.cpp", "symbols": ["vlm_lattice"]}, {"file": "src/lib/pytornado/aero/vlm.py", "symbols": ["calc_downwash", "solver"]}]}
{"id": "C109", "title": "Lift of a plain wing", "statement": "For a plane wing with one row of panels and a straight unswept quarter-chord line in straight flow, the force of each panel has no side component and its vertical component is density times airspeed times circulation times width; the total lift is the sum. If no panel is turned up and at least one is turned down at the trailing edge (camber or flap), then every panel carries positive lift and the lift coefficient is positive.", "quantifier": "for all numbers, widths and chord lengths of strips, all tilted normals, all circulations, densities and airspeeds", "why_tests_cant": "Tests compare a few coefficients with reference values; that a deflected flap increases the lift of all panels is a statement about all divisions of the span.", "anchors": [{"file": "src/lib/pytornado/aero/c_results.cpp", "symbols": ["vlm_results"]}, {"file": "src/lib/pytornado/aero/c_boundary.cpp", "symbols": ["vlm_boundary"]}, {"file": "src/lib/pytornado/aero/c_downwash.cpp", "symbols": ["vlm_downwash"]}]}
{"id": "C110", "title": "An aircraft built by calls is determined by the accepted calls", "statement": "After any session of add_wing, add_segment, add_control and symmetry calls, the aircraft holds exactly the wings that were added, each with exactly the segments and controls added to it since, in the order of their first addition, the last valid symmetry, and default contents otherwise. Each call returns or raises according to the names used before it: KeyError for an unknown wing, ComponentDefinitionError for an empty name, ValueError for a name in use or an invalid symmetry. A call that raises changes nothing.", "quantifier": "for all sequences of calls with all names and values, valid or not", "why_tests_cant": "Tests build a few aircraft with valid calls in the usual order; the effect of rejected calls between accepted ones and of arbitrary orders is not tried.", "anchors": [{"file": "src/lib/pytornado/objects/aircraft.py", "symbols": ["Aircraft.__init__", "Aircraft.add_wing", "Wing.__init__", "Wing.symmetry", "Wing.add_segment", "Wing.add_control", "WingSegment.__init__", "WingControl.__init__"]}]}
{"id": "C111", "title": "A loaded aircraft is exactly the one defined by its file", "statement": "Loading a native aircraft file succeeds exactly if the file is a valid definition, and the resulting aircraft then has exactly the values of the file: positive reference area, chord and span, three-dimensional centres, wings, segments and controls in file order under unique non-empty names, valid symmetries, four vertices per segment (a missing or additional vertex is refused), axis positions in [0,1] with default 1/4, the other geometry values computed, airfoil names (files under the project directory), positive panel counts, and controls with valid type, deflection within 90 degrees, mirrored deflection by default on symmetric wings, relative positions in [0,1] in increasing order. A file defines at most one aircraft.", "quantifier": "for all JSON documents, all aircraft, both behaviours of the schema library on None and on integers, and all behaviours of the geometry and airfoil functions", "why_tests_cant": "Tests load a handful of valid files; acceptance and result for every combination of missing, additional and wrongly typed entries cannot be enumerated.", "anchors": [{"file": "src/lib/pytornado/fileio/native/aircraft.py", "symbols": ["load"]}, {"file": "src/lib/pytornado/objects/aircraft.py", "symbols": ["Aircraft.generate", "Wing.generate", "WingSegment.generate", "WingSegment.check_vertices", "WingSegment.check_geometry", "WingSegment.check_airfoils", "WingSegment.check_panels", "WingControl.check"]}]}
{"id": "C112", "title": "Reference values that cannot be read are reported", "statement": "If a reference length or area is missing or not a float, for example an integer in an aircraft built by calls, the analysis stops with an error instead of presenting numbers.", "quantifier": "for all aircraft, settings, states and reference values of the wrong type", "why_tests_cant": "Tests use reference values from files, which are always converted; the wrong type shows only as a printed line and zeros in the result files.", "anchors": [{"file": "src/lib/pytornado/aero/c_vlm.cpp", "symbols": ["get_refstruct", "py2c_boundary", "py2c_results"]}, {"file": "src/lib/pytornado/aero/vlm.py", "symbols": ["calc_boundary", "calc_results"]}]}
{"id": "C113", "title": "The numbers in the results agree with each other up to rounding", "statement": "In floating-point arithmetic, the total forces and moments are the sums over the panels, the drag, side force and lift belong to the total force, the coefficients to the totals, and the panel forces, magnitudes and pressure coefficients to the stored velocities and vectors; each with an error of a few roundings (for sums, one per panel).", "quantifier": "for all lattices, states, reference values, circulations, and all roundings with a relative error below 1", "why_tests_cant": "Tests compare a few runs with stored values and a guessed tolerance; they do not bound the error for any number of panels.", "anchors": [{"file": "src/lib/pytornado/aero/c_results.cpp", "symbols": ["vlm_results", "vlm_coeffs"]}]}
{"id": "C114", "title": "Control surfaces are drawn where they act", "statement": "The geometry and lattice figures show, in every view and for the wing and its mirror image, exactly the outlines of the segments (or panels) and of every control its outline and hinge line, inside the axes; and on each strip that carries a control the line bounding the device and its hinge axis lie on the drawn lines, the strips with the control being exactly those in the drawn range.", "quantifier": "for all aircraft, controls, segment geometries, sequences of strip operations and all four views", "why_tests_cant": "Tests only check that plotting does not raise; nobody compares the drawn line with the strips that are rotated, and a deviation only shows on tapered or mirrored wings with later subdivisions.", "anchors": [{"file": "src/lib/pytornado/objects/aircraft.py", "symbols": ["WingControl.abs_vertices", "WingControl.abs_hinge_vertices", "WingSegment.add_subdivision_for_control", "SegmentStrip.add_subarea"]}, {"file": "src/lib/pytornado/plot/plottools.py", "symbols": ["add_controls", "add_lattice", "add_wings"]}, {"file": "src/lib/pytornado/plot/makeplots.py", "symbols": ["plot_geometry_aircraft", "plot_lattice_aircraft"]}]}
{"id": "C115", "title": "A missing input file ends the run before any result", "statement": "If the settings file, the aircraft file, the state file or a requested deformation file is missing, the run writes no result and no figure and ends with an error; if the files that are read before it are accepted, the error is the one for missing files (FileNotFoundError or IOError).", "quantifier": "for all projects, file systems, settings, aircraft formats and working numerics", "why_tests_cant": "Tests run complete projects; which of many missing combinations is tried, with which format, order of reading and leftover directories, is never enumerated.", "anchors": [{"file": "src/lib/pytornado/stdfun/run.py", "symbols": ["standard_run"]}, {"file": "src/lib/pytornado/fileio/native/settings.py", "symbols": ["load"]}, {"file": "src/lib/pytornado/fileio/native/aircraft.py", "symbols": ["load"]}, {"file": "src/lib/pytornado/fileio/native/state.py", "symbols": ["load"]}, {"file": "src/lib/pytornado/fileio/native/deformation.py", "symbols": ["load"]}, {"file": "src/lib/pytornado/fileio/cpacs/aircraft.py", "symbols": ["load"]}]}
{"id": "C116", "title": "Rounding leaves no cracks in the lattice and moves it only slightly", "statement": "Computed in floating-point arithmetic, neighbouring panels of a subarea have bit-identical common edges and vortex legs; corners, vortices, collocation points, areas and unscaled normals are those of the exact lattice up to a small multiple of the rounding unit and the size of the coordinates; normals exist unless a panel is too small for its coordinates and have length one up to rounding; panels of different subareas with a common edge meet up to rounding (not always exactly).", "quantifier": "for all roundings with a relative error bound, subareas, numbers of panels and panel indices", "why_tests_cant": "Tests compare lattices with reference values for a few wings within a tolerance; they cannot show that no combination of corners and panel numbers opens a crack or loses a normal.", "anchors": [{"file": "src/lib/pytornado/aero/c_lattice.cpp", "symbols": ["vlm_lattice"]}]}
{"id": "C117", "title": "Rounding leaves the linear system finite and accurate", "statement": "Computed in floating-point arithmetic, the velocity induced by a vortex leg is inf or nan only at the ends of the leg, provided the regularisation _epsilon is not lost in rounding; the matrix, the right-hand side and the results of a lattice without coinciding points are then finite, and the entries of the matrix and of the right-hand side are the exact ones up to rounding errors divided by _epsilon (relative error at most 1e-8 for doubles and _epsilon from the default 1e-6 on). Not every _epsilon accepted by the settings is large enough.", "quantifier": "for all roundings with a relative error bound, points, legs, lattices, flight states and regularisations", "why_tests_cant": "Tests use the default regularisation and a few wings; a point close to the line of a leg, where rounding errors are divided by _epsilon, or an _epsilon below the rounding unit does not occur in them.", "anchors": [{"file": "src/lib/pytornado/aero/c_downwash.cpp", "symbols": ["vlm_downwash"]}, {"file": "src/lib/pytornado/aero/c_boundary.cpp", "symbols": ["vlm_boundary"]}, {"file": "src/lib/pytornado/aero/c_results.cpp", "symbols": ["vlm_results"]}]}
{"id": "C118", "title": "The computed flow respects the panels up to rounding errors and the residual of the solver", "statement": "For the circulations returned by the solver, the exact flow (induced by the exact vortices plus onset flow) through every panel is at most the residual of the computed equation plus stated rounding errors; the free stream used is that of the flight state up to the errors of the angles; the induced velocities stored with the results are those of the circulations up to rounding; and the circulations differ from the exact solution by at most these errors times the condition of the exact matrix.", "quantifier": "for all roundings with a relative error bound, library functions sin and cos of that accuracy, lattices, flight states, regularisations and circulations", "why_tests_cant": "Tests compare a few coefficients with stored values; they cannot tell a wrong flow from an inaccurate solution, nor bound the flow through panels of arbitrary wings.", "anchors": [{"file": "src/lib/pytornado/aero/c_downwash.cpp", "symbols": ["vlm_downwash"]}, {"file": "src/lib/pytornado/aero/c_boundary.cpp", "symbols": ["vlm_boundary"]}, {"file": "src/lib/pytornado/aero/c_results.cpp", "symbols": ["vlm_results"]}, {"file": "src/lib/pytornado/aero/vlm.py", "symbols": ["solver"]}]}
{"id": "C119", "title": "A wing with a gap between its segments is reported, and one without is not", "statement": "When a wing is generated, neighbouring segments that do not meet are reported with their index, the wing is reported exactly if one of its edges is, and segments that share the edge between them are not reported.", "quantifier": "for all wings with any number of segments and any corner points", "why_tests_cant": "The warnings depend on directions of edges and distances between any two corner points; tests look at joined wings described from root to tip only.", "anchors": [{"file": "src/lib/pytornado/objects/aircraft.py", "symbols": ["Wing.generate", "TOL"]}]}
{"id": "C120", "title": "The induced drag of a plain wing with equal strips is positive", "statement": "For a plane wing of one row of panels with a straight quarter-chord line and strips of equal widths in straight flow, the drag and its coefficient are positive for every distribution of circulation, symmetric or not, and zero only if all circulations vanish; in particular the solution for a wing of which any panel is inclined to the flow has positive drag.", "quantifier": "for all numbers of strips and subareas, gaps, taper, inclinations of the panels, densities, airspeeds, regularisations and circulations", "why_tests_cant": "Tests compare the drag of a few wings with stored values; that no distribution of circulation gives a negative drag is a statement about a quadratic form of arbitrary size.", "anchors": [{"file": "src/lib/pytornado/aero/c_results.cpp", "symbols": ["vlm_results"]}, {"file": "src/lib/pytornado/aero/c_downwash.cpp", "symbols": ["vlm_downwash"]}, {"file": "src/lib/pytornado/aero/c_lattice.cpp", "symbols": ["vlm_lattice"]}, {"file": "src/lib/pytornado/aero/vlm.py", "symbols": ["solver", "calc_results"]}]}
{"id": "C121", "title": "The default regularisation is small enough for ordinary plain wings", "statement": "How small the regularisation of the vortices must be for a plane wing of one row of panels with a straight quarter-chord line follows from its dimensions: if 16 eps (1 + (cm/w)^2) D < w and n eps (16 (1 + (cm/w)^2) cm/w + 2 (1 + (2 wm/c)^2)) <= 1 for n panels, chord lengths from c to cm, strip widths from w to wm and extent D, then the equations for the circulations have exactly one solution, circulations rise with the right-hand side, and a wing turned down at the trailing edge has positive lift on all panels. Settings without a value of their own ('_epsilon' 1e-6) satisfy this for up to 800 strips which are at most four times as long as wide or as wide as long, on a wing of up to 1000 strip widths.", "quantifier": "for all numbers of strips and subareas, gaps, taper, inclinations of the panels, regularisations, flow conditions and settings without '_epsilon'", "why_tests_cant": "Tests run with the default on a few wings; that the default never spoils the system of equations of an ordinary wing of any size needs a bound that holds for all of them.", "anchors": [{"file": "src/lib/pytornado/aero/c_downwash.cpp", "symbols": ["vlm_downwash"]}, {"file": "src/lib/pytornado/aero/c_lattice.cpp", "symbols": ["vlm_lattice"]}, {"file": "src/lib/pytornado/aero/vlm.py", "symbols": ["calc_downwash", "solver"]}, {"file": "src/lib/pytornado/objects/settings.py", "symbols": ["DEFAULT_SETTINGS"]}]}
{"id": "C122", "title": "Every panel lies on its wing where strips and subareas say, with its normal turned for its own control", "statement": "Lattice generation gives every subarea (main surface, flap, slat) of every strip of every segment, on each side of the wing, consecutive panels in the number set for it, and no other panels. Panel k of n has its corners on the inner and outer edge of the strip, at k/n and (k+1)/n of the way between the chord positions of the subarea; on a wing mirrored about xy or xz these are the mirrored points. Its normal is the normal of the flat panel, turned about the line between the hinge points of its own subarea by the deflection of its own control on that side, then by the camber angle at the mean chord position of its collocation point. The panels leave no gap along the edges of the strips, the leading edge and the trailing edge.", "quantifier": "for all aircraft with divided segments and set panel counts, all segment vertices, camber functions, angles of attack and sideslip, sides of wings and positions", "why_tests_cant": "Tests compare a few lattices with stored numbers; that no subarea is left out, doubled or placed with the coordinates of another must hold for any number of wings, segments, strips and devices.", "anchors": [{"file": "src/lib/pytornado/aero/vlm.py", "symbols": ["gen_lattice"]}, {"file": "src/lib/pytornado/objects/aircraft.py", "symbols": ["SegmentStrip.abs_vertices", "StripSubdivision.abs_vertices", "abs_hinge_vertices", "get_xsi_for_collocation_points"]}, {"file": "src/lib/pytornado/aero/c_lattice.cpp", "symbols": ["vlm_lattice"]}]}
{"id": "C123", "title": "JSON files can be read back by any JSON reader", "statement": "The text that dump_pretty_json writes for a value (dictionary with string keys, list, string, integer, float, truth value, None, nested in any way) is JSON, and reading it gives the same value. It is plain ASCII whatever characters strings have. Values holding a path anywhere are refused with a TypeError, and no others. In the file of global results each quantity is found under its section (aero, refs, global_forces, global_coeffs) and its name; the performance map has one list per flight parameter and result.", "quantifier": "for all values, all depths of nesting, all strings including quotes, backslashes and control characters, all integers", "why_tests_cant": "Tests read back a few files; escapes, separators and indentation must fit at every depth and for every character.", "anchors": [{"file": "src/lib/pytornado/fileio/utils.py", "symbols": ["dump_pretty_json", "NDArrayEncoder"]}, {"file": "src/lib/pytornado/fileio/native/results.py", "symbols": ["_save_glob_results", "save_aeroperformance_map"]}, {"file": "src/lib/pytornado/fileio/native/settings.py", "symbols": ["save"]}, {"file": "src/lib/pytornado/fileio/native/state.py", "symbols": ["save"]}, {"file": "src/lib/pytornado/fileio/native/aircraft.py", "symbols": ["save"]}]}
{"id": "C124", "title": "The compiled functions check the Python objects they are given", "statement": "A call of py2c_lattice, py2c_downwash, py2c_boundary or py2c_results succeeds exactly if every attribute and dictionary entry that it needs is there and of the right type (array of doubles, float, integer); otherwise it ends with an error code and never with undefined behaviour. It adds no entries to the dictionaries and removes none.", "quantifier": "for all objects with any attributes and entries of any types, all four functions", "why_tests_cant": "Tests call the functions with complete objects; that no missing or wrongly typed entry slips through needs all combinations.", "anchors": [{"file": "src/lib/pytornado/aero/c_vlm.cpp", "symbols": ["get_latticestruct", "get_infostruct", "set_infostruct", "get_statestruct", "get_refstruct", "get_resultstruct", "set_resultstruct", "py2c_lattice", "py2c_downwash", "py2c_boundary", "py2c_results"]}]}
{"id": "C125", "title": "The arrow and the marker in the figures show the flow and the centre of rotation of the analysis", "statement": "The arrow of the free stream in the results plot ends in the origin, is three units long and points against the velocity of the aircraft that the boundary conditions use. The trailing vortices run along it, and the drag is the component of the total force along it. At zero airspeed there is no arrow. The marker of the centre of gravity is at the same point in all views; it is the point about which the angular rates turn the aircraft.", "quantifier": "for all airspeeds, angles of attack and sideslip, rates, reference points and forces", "why_tests_cant": "Tests do not look into figures, and the Python and C++ codes compute the direction of the flow separately.", "anchors": [{"file": "src/lib/pytornado/plot/plottools.py", "symbols": ["add_freestream_vector", "_add_CG_plot2d", "_add_CG_plot3d", "add_CG"]}, {"file": "src/lib/pytornado/objects/state.py", "symbols": ["free_stream_velocity_vector"]}, {"file": "src/lib/pytornado/aero/c_vlm.cpp", "symbols": ["get_freestream_direction"]}, {"file": "src/lib/pytornado/aero/c_boundary.cpp", "symbols": ["vlm_boundary"]}, {"file": "src/lib/pytornado/aero/c_results.cpp", "symbols": ["vlm_coeffs"]}]}
{"id": "C126", "title": "Results do not depend on the order and grouping of wings and segments", "statement": "If two aircraft have the same wings in different order, their lattices consist of the same panels in different order, with the same normals after deflections and camber. Total forces, moments and coefficients are the same, and each panel has the same force and induced velocity. The same holds if the same segments (vertices, strips, numbers of panels, camber, control settings, mirror plane) are combined to wings in another way, listed in another order or given other names.", "quantifier": "for all panelled aircraft, all permutations of their wings, all regroupings of their segments, all geometries, camber lines, flight states, rates and reference values", "why_tests_cant": "Panel numbers, bookkeeping ranges, matrix rows and columns and result rows all shift with the order; tests analyse one order.", "anchors": [{"file": "src/lib/pytornado/aero/vlm.py", "symbols": ["gen_lattice", "solver"]}, {"file": "src/lib/pytornado/objects/objecttools.py", "symbols": ["all_wings", "all_subareas"]}, {"file": "src/lib/pytornado/objects/vlm_struct.py", "symbols": ["VLMLattice"]}, {"file": "src/lib/pytornado/aero/c_downwash.cpp", "symbols": ["vlm_downwash"]}, {"file": "src/lib/pytornado/aero/c_boundary.cpp", "symbols": ["vlm_boundary"]}, {"file": "src/lib/pytornado/aero/c_results.cpp", "symbols": ["vlm_results"]}]}
{"id": "C127", "title": "Mirroring a wing gives the same results as modelling both of its sides", "statement": "Replace a wing that is mirrored at the xz- or at the xy-plane by two wings without symmetry: the same segments with the same control deflections, and their mirror images with the deflections of the mirrored side, in any order. The lattice then consists of the same panels with the same normals after deflections and camber, in another order. Total forces, moments and coefficients are the same, and each panel has the same force and induced velocity.", "quantifier": "for all panelled aircraft, any of their segments with xz- or xy-symmetry, all strip subdivisions with controls, geometries, camber lines, deflections on either side, flight states, rates and reference values", "why_tests_cant": "Mirroring touches vertices, edge positions, hinge axes, deflections and numbering separately; a test compares totals of one symmetric case, in which a wrong sign or a swapped edge may cancel.", "anchors": [{"file": "src/lib/pytornado/aero/vlm.py", "symbols": ["gen_lattice"]}, {"file": "src/lib/pytornado/objects/vlm_struct.py", "symbols": ["VLMLattice"]}, {"file": "src/lib/pytornado/objects/aircraft.py", "symbols": ["StripSubdivision", "SegmentStrip", "WingSegment"]}, {"file": "src/lib/pytornado/aero/c_lattice.cpp", "symbols": ["vlm_lattice"]}, {"file": "src/lib/pytornado/aero/c_downwash.cpp", "symbols": ["vlm_downwash"]}, {"file": "src/lib/pytornado/aero/c_results.cpp", "symbols": ["vlm_results"]}]}
{"id": "C128", "title": "Dividing a segment at strip edges does not change the results", "statement": "If segments of an aircraft are cut at edges of their strips, and the parts have the same strips, subareas, numbers of chordwise panels, camber lines and control settings as before, then the lattice consists of the same panels with the same normals after deflections and camber, on the modelled and on the mirrored side. Total forces, moments and coefficients are the same, and each panel has the same force and induced velocity.", "quantifier": "for all panelled aircraft, all divisions of any of their segments into any number of parts (also at different positions on the front and rear edge), any order and naming of the parts, all mirror planes, geometries, deflections, flight states, rates and reference values", "why_tests_cant": "Relative positions of all strips and the vertices of the segment change together; tests compare at most one division within a tolerance.", "anchors": [{"file": "src/lib/pytornado/aero/vlm.py", "symbols": ["gen_lattice"]}, {"file": "src/lib/pytornado/objects/aircraft.py", "symbols": ["StripSubdivision", "SegmentStrip", "WingSegment"]}, {"file": "src/lib/pytornado/aero/c_lattice.cpp", "symbols": ["vlm_lattice"]}, {"file": "src/lib/pytornado/aero/c_downwash.cpp", "symbols": ["vlm_downwash"]}, {"file": "src/lib/pytornado/aero/c_results.cpp", "symbols": ["vlm_results"]}]}
{"id": "C129", "title": "An aircraft turned upper side down at the opposite angle of attack has opposite lift", "statement": "Mirror the geometry of an aircraft and its reference points at the xy-plane, reverse all deflections and the camber, and change the sign of angle of attack, roll rate and pitch rate. Then lift, rolling moment and pitching moment change sign; drag, side force and yawing moment stay the same; and so do force and induced velocity of each panel, mirrored. In particular, flat wings without camber have opposite lift and pitching moment and the same drag at opposite angles of attack and deflections.", "quantifier": "for all panelled aircraft, all geometries, camber lines, deflections, mirror planes, flight states with sideslip and rates, and reference values", "why_tests_cant": "Tests use positive angles of attack; a wrong sign in the rotation of normals, in the wind axes or in the trailing vortices shows only in the comparison of both signs for every panel.", "anchors": [{"file": "src/lib/pytornado/aero/vlm.py", "symbols": ["gen_lattice"]}, {"file": "src/lib/pytornado/objects/aircraft.py", "symbols": ["StripSubdivision", "SegmentStrip"]}, {"file": "src/lib/pytornado/aero/c_lattice.cpp", "symbols": ["vlm_lattice"]}, {"file": "src/lib/pytornado/aero/c_downwash.cpp", "symbols": ["vlm_downwash"]}, {"file": "src/lib/pytornado/aero/c_boundary.cpp", "symbols": ["vlm_boundary"]}, {"file": "src/lib/pytornado/aero/c_results.cpp", "symbols": ["vlm_results"]}]}
{"id": "C130", "title": "The loads depend only on the attitude of the aircraft relative to the flow", "statement": "Turn the geometry of an aircraft, its reference points, the free stream and the rotation rates together by any rotation. Then forces, moments and induced velocities are turned as well, drag stays the same, and so does the magnitude of the force across the flow. There are always angles of attack and sideslip that describe the turned free stream. In particular: turning the nose to the side is the same as changing the angle of sideslip, with the same drag, side force, lift and yawing moment, if the angle of attack is zero; with one wing down by 90 degrees, angle of attack becomes sideslip and lift becomes side force.", "quantifier": "for all rotations, aircraft whose wings are modelled completely or mirrored at a plane that is turned into itself, geometries, camber lines, deflections, flight states with rates, and reference values", "why_tests_cant": "Tests use upright aircraft with small angles; that geometry, trailing vortices, boundary condition and wind axes use one convention for the angles is a relation between runs for all rotations.", "anchors": [{"file": "src/lib/pytornado/aero/vlm.py", "symbols": ["gen_lattice"]}, {"file": "src/lib/pytornado/objects/aircraft.py", "symbols": ["StripSubdivision", "SegmentStrip"]}, {"file": "src/lib/pytornado/aero/c_lattice.cpp", "symbols": ["vlm_lattice"]}, {"file": "src/lib/pytornado/aero/c_downwash.cpp", "symbols": ["vlm_downwash"]}, {"file": "src/lib/pytornado/aero/c_boundary.cpp", "symbols": ["vlm_boundary"]}, {"file": "src/lib/pytornado/aero/c_results.cpp", "symbols": ["vlm_results"]}]}
{"id": "C131", "title": "Setting a deflection changes only the normals of its own control on its own side", "statement": "Give the controls of an aircraft any other deflections. Then all corner points, vortex points, collocation points, areas and panel numbers of the lattice stay the same, and so do the normals of all panels without control, and of all panels of controls whose deflection on that side (modelled or mirrored) is not changed. No deflection is the same as zero.", "quantifier": "for all panelled aircraft, all geometries, camber lines, angles, and all new deflections of any number of controls", "why_tests_cant": "Tests look at single aircraft; that other wings, other controls and the other side are not affected is a relation between the lattices of two aircraft for every panel.", "anchors": [{"file": "src/lib/pytornado/aero/vlm.py", "symbols": ["gen_lattice"]}, {"file": "src/lib/pytornado/objects/aircraft.py", "symbols": ["StripSubdivision"]}]}
{"id": "C132", "title": "Changing one part of an aircraft leaves the panels of the rest as they are", "statement": "Take two aircraft that have a piece of surface in common: a subarea at the same place of a segment with the same vertices, mirror plane, number of panels, camber and control setting. Then its panels are the same in both lattices, with all points, areas and normals, whatever the other wings, segments, controls and names are. If wings are added, the lattice consists of the panels of the wings before, the old lattice in its old order, and the panels of the wings behind.", "quantifier": "for all pairs of panelled aircraft, all geometries, camber lines and angles", "why_tests_cant": "Tests use fixed aircraft; that no panel depends on anything but its own piece of surface is a relation between all pairs of aircraft.", "anchors": [{"file": "src/lib/pytornado/aero/vlm.py", "symbols": ["gen_lattice"]}, {"file": "src/lib/pytornado/objects/aircraft.py", "symbols": ["Aircraft", "StripSubdivision"]}, {"file": "src/lib/pytornado/aero/c_lattice.cpp", "symbols": ["vlm_lattice"]}]}
