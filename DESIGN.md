# Formal model of PyTornado in Rocq (Coq 8.16.1)

Source under study: `/repo` (airinnova/pytornado, Python + C++), read as text, never run.
The properties are in `properties.jsonl`; this file says how each one is modelled and proved.

## 1. Layout

| file (rocq/theories) | content |
| --- | --- |
| `PyBase.v` | exceptions as values (`res`), insertion-ordered dictionaries |
| `*Model.v` | shallow models of the code, function by function, with file/line citations |
| `*Spec.v` | independent specifications (small, no reference to model helpers) |
| `*Proofs.v` | lemmas and proofs |
| `Props_*.v` | the property theorems only: `Theorem ...` / `exact lemma` / `Print Assumptions`, plus the `Example` showing that the hypotheses are satisfiable |

## 2. Number types and other modelling decisions

* Positions and counts that only take part in comparisons and in bookkeeping (eta, xsi,
  panel counts, spans for the automatic panel counts, flight-state values) are exact rationals `Q`:
  every finite double *is* a rational; what is idealised is the rounding of `+ - * /`.
  The models over `Q` compute, so witnesses are checked by `vm_compute`.
* Geometry and vortex-lattice numerics (square roots, trigonometry) are over the reals `R`.
  Rounding, overflow, NaN and infinity are not modelled unless a definition says so
  (division by zero in the C++ code is made explicit with an `option`/guard where a property is about it).
* Python exceptions are values of `res A := Ok a | Err exn`. Where an exception leaves a mutated
  object behind, the model returns the mutated object next to the error.
* Python dictionaries are association lists in insertion order; assignment to an existing key keeps its place.
* External libraries (commonlibs, ambiance, schemadict, airfoils, aeroframe, scipy LAPACK, tixi/tigl,
  matplotlib, file system) are Section variables/parameters of the definitions or inputs of the model;
  whatever is assumed about them is a hypothesis visible in the theorem.

## 3. Properties: what is modelled, how it is proved

Status words: *proved*, *partial* (a `_partial` theorem and/or a `_refuted` witness; text says what is missing).

| id | model | proof idea |
| --- | --- | --- |
| C01 | `StripModel`: segment = ordered list of strips; `add_subdivision`, `_get_subdiv_at_eta`, `add_subdivision_for_control` branch by branch | invariant "strips sorted by eta_a tile [0,1)" by induction over any list of operations, accepted or rejected |
| C02 | same | frame lemma for one call; idempotence; out-of-range requests |
| C03 | same | the claim is false (only the inner neighbour is checked): `_refuted` witness; `_partial`: distance to the line on the inner side |
| C04 | strip with slat/flap record; `_add_subarea`, `_update_subarea`; interpolation is a Section variable with a "between" hypothesis | invariant by induction over operations |
| C05 | `_add_subarea` | complete decision table against a declarative spec |
| C06 | `add_subdivision` inheritance branch | case analysis; interpolated value shared by both halves |
| C07 | `add_subdivision_for_control` | false in general: `_refuted`; `_partial`: exact range on a segment whose lines stay away from the control's edges |
| C50 | same | continuity of the device line and hinge line over the covered strips; same side conditions as C07 (partial) |
| C08, C09 | `AircraftModel` (component tree, enumeration) and `LatticeModel` (panel counting loop, bookkeeping) | induction over the enumeration; list arithmetic |
| C10 | index arithmetic of `vlm_lattice` as a list of written indices | `lia`/`nia` + permutation/NoDup argument |
| C11, C12, C13, C56 | `PanelModel` over R: corners, vortex points, collocation point, normal | ring/field identities; `nra`; norm lemmas |
| C14, C15, C16 | `GeomModel` over R (proofs in `MirrorProofs`) | algebra per plane; C15 false for plane 3 with devices: `_refuted` + proof for planes 1 and 2 |
| C17, C18, C25 | `VlmModel` (`free_stream_velocity_vector`, `freestream_direction`, `vlm_coeffs`) over R with Coq's `sin`/`cos`, C division as `option` (None = inf/nan) | `sin2_cos2`; component identities; C25: `_refuted` for panel cp at zero dynamic pressure |
| C19, C20, C21, C22, C23, C53, C54, C55 | `VlmModel`: boundary, downwash, results, coefficients, solver as "any vector solving the system" (proofs in `VlmProofs`, `VlmLaws`, `VlmSymmetry`) | sums over panels, linearity, Cauchy-Schwarz |
| C24 | same, plus the lattice of `LatticeModel`/`NormalModel` (`VlmSymmetry`, `VlmAircraft`) | reflection maps the system to itself, uniqueness gives paired circulations, sums cancel pairwise; C08, C16, C40, C51 give the pairing for a generated lattice |
| C52 | `VlmModel.leg_velocity` against a Riemann integral (`BiotSavart`) | primitive of the integrand, fundamental theorem of calculus |
| C26 | `WingModel` over Q with `Qceiling` | ceiling bounds, induction over segments |
| C27 | `WingModel`: positions, span, area | induction over segments |
| C28, C29, C30, C31, C59, C60 | `StateModel`: `update_from_dict`, `check_values`, `iter_states`, `load_apm`; atmosphere and string parsing are Section variables | exact characterisation of accepted dictionaries over lookups; C29, C30, C31, C59 false: `_refuted` witnesses, with what remains true |
| C32, C33, C61, C62 | `SettingsModel` over the value type of `PyVal`: template, default, merge, check, `clean_dict`, save/load; the aliasing of the caller's dictionary is explicit (update returns it) | induction over nested dictionaries; "does not change the session", "does not change the caller's dictionary" and "all templated keys are checked" are false: `_refuted` |
| C35 | `StateModel` + save/load | false when altitude was an input or with several states: `_refuted`; the reloadable states are characterised exactly |
| C36, C63, C64 | `RunModel`: loop of `standard_run`, `save_all`, `save_aeroperformance_map`, `make_all`, `plot2d3d`, `show_and_save` as programs producing a trace of events; numerics, drawing and CPACS output are section variables | induction over states; decimal numerals are injective; C63 false without states: `_refuted` |
| C37, C38 | `AircraftModel`: uid dictionaries, enumeration helpers (proofs in `EnumProofs`) | induction; C38 false: `_refuted` |
| C34 | `AircraftIOModel`: native `load`, `save`, the setters and checks they use, `generate` as far as the definition changes; geometry from vertices and airfoil import are section variables | dictionaries keep the order of keys (`shape`); parsing a saved document appends the items one by one; generate is idempotent if the computed angles are accepted; path functions on strings (`StrFacts`) |
| C39 | `ControlModel`: `WingControl.check`, `device_type` setter; `SchemaModel`: the schema library with two open points as parameters | decision table; lemmas about dictionary lookups |
| C40, C51 | `NormalModel`: rotation loop over records (proofs in `NormalProofs`) | induction over records with disjoint index ranges (uses C08) |
| C41, C42 | `PrePanelModel`: Case A / Case B list construction | induction over the segment list; coverage of the strips from C07/C50; C42 false: `_refuted` |
| C57 | `WingModel`, `PrePanelModel`, `LatticeModel` composed (`ChainProofs`) | invariants of the three stages: strips come from accepted calls with controls of the wing |
| C58 | `PrePanelModel.divide_segment` (`LineProofs`) | induction over the lines; false above 100: `_refuted` |
| C43 | `PanelModel` + `GeomModel.collocation_xsi` | field identity, monotonicity |
| C44 | `GeomModel.xsi_interpol` over R with the plane/line intersection spelled out (proofs in `InterpProofs`) | coordinates in the plane of the segment; algebra |
| C45 | `LatticeModel` counts | `Qceiling` bounds with the C04 invariant |
| C46 | `DeformModel`: key handling over `string` | false for uids containing the suffix: `_refuted`; proved otherwise |
| C65, C66, C67 | `DeformGeomModel`: the deformed branches of strips, subareas and hinge lines; a field is a function from points to points | a deformed strip is a segment of its own, which reduces C66 to C15/C16 |
| C47, C68 | `CliModel`: parsed arguments to a list of actions; file stems over `string` | false for an empty file name and for dotted names: `_refuted` |
| C48, C69 | `SetupModel`: file system as a function from paths to nodes; composition with the settings, state and aircraft models | an unreadable file leaves a partial tree: `_refuted` |
| C49 | `CpacsModel`: flat XML document, string handling of `add_vector`, all permutations of the mapping set | proved |
| C70, C71, C72, C76 | `SegmentModel`: geometric properties from four vertices over R, `atan2` spelled out, NaN as `None` | polar coordinates of `atan2`; C71 and C72 false in general: `_refuted` |
| C73, C74, C75 | `PlotModel`: bounding boxes, limits and lines of the four views, colours and bilinear patches | least/greatest elements of coordinate sets; induction over segments; C73 false away from the origin: `_refuted` |
| C77-C84 | `CpacsAircraftModel`: the document as reported by tixi and tigl, re-ordering of vertices, device loop with its unbound variables, deflection loop per wing, airfoil files, native conversion (`AircraftIOModel`) | relation between n-th element of the document and of the aircraft, by induction over the loops; invariants "deflections settled", "checked"; C77-C80, C84 false in general: `_refuted` beside `_partial` |
| C85-C89 | `AnalysisModel`: reading of Python dictionaries in C with its error codes, result arrays that live through all states, tables of the files; on top of `RunModel`, `PrePanelModel`, `NormalModel` and `VlmModel` | each step overwrites all it reads (independence of states); columns of tables; contract of the solver; invariant of the run for C88; C89 false: `_refuted` |
| C90-C97 | `StartModel`: `standard_run` and `clean_project_dir` on a map from paths to files and directories; paths of the project, choice of readers, airfoil files; on top of `SettingsModel`, `AircraftIOModel`, `CpacsAircraftModel`, `StateModel` and `RunModel` | frame of a run; agreement of two runs on the inputs; output names of different settings; C91, C94, C95 in part false: `_refuted` |
| C98-C100 | no new model: `VlmModel`, `NormalModel`, `LatticeModel`; `IsoSpec` defines images of lattices, states and aircraft | one theorem for all linear isometries and orderings of the panels (`iso_loads`), used with the mirror at the xz-plane (C98) and with rotations about y (C99); the lattice generator commutes with both (`IsoAircraft`, `IsoPitch`); C100: zero right-hand side and unique solution; an aircraft of one panel shows that the hypotheses are met (`IsoExample`) |
| C101 | `IntModel`: index expressions of the C++ functions with `int` and `long` operands, overflow undefined, conversion to `int` wrapping; stores into a memory around the matrix; `IntRunModel`: whole runs with loop counters | bounds on the products; the wrapped index -2^31 is reached by some i, j for every n > 46340 (`_overrun`); C101 false in general: `_refuted`; below the limit a run of `vlm_lattice` has the accesses of C10, above it is undefined |
| C102 | `RefModel`: objects with counts, attributes and dictionary items; the C API calls of `c_vlm.cpp` in their order, all error exits | one invariant with an exact account of the references kept (`gain`), closed under sequencing; false as stated: `_refuted` |
| C103 | `RoundModel`: the strip functions of `StripModel` with every sum, difference, product and quotient passed through a rounding function; `rnd64` rounds to 53 bits, ties to even; numpy's `linspace` | the tiling proof does not use the arithmetic, so it holds for any rounding; error bounds of `i*(1/n)` against `LIMIT`; false for n = 100: `_refuted` by evaluation |
| C104 | the horseshoes of `VlmModel` and the lattice of `PanelModel` (`infty` = 10000); `WakeSpec`: vortices to infinity as limits of the integrals of `VlmSpec` | closed form of the limit; difference of the closed forms bounded |
| C105 | as C104; `WakeSpec`: rows whose panels share edges, shed circulation | reversal of a leg changes the sign; induction over the row |
| C106 | as C104; scaled corner points | lattice of scaled corners = scaled lattice with shorter legs, then C55; `_refuted` with one panel and k = 5000, bounds of square roots |
| C107 | `TableModel`: `_save_panelwise`, `_save_matrix_system` with `savetxt`, `stack`, `%13.6e`, `str.center` as functions to strings | a reader of comma-separated numbers in `TableSpec`; digits of an integer read back by induction; rounding as in C103 with base ten |
| C108 | `downwash` and `lattice` as for C17/C18 | plain wings described in `RowSpec`; entries in closed form at epsilon 0 (as C104), decreasing in the distance, hence negative beside the diagonal with positive row sums; elimination for such matrices; continuity in epsilon |
| C109 | `vlm_results`, `vlm_coeffs`, `boundary` as for C19-C23 | induced velocities in the plane of the wing are vertical; positivity from C108 |
| C110 | `AircraftModel` (constructors, `add_wing`, `add_segment`, `add_control`, `symmetry`) | `BuildSpec`: aircraft and outcomes described from the list of calls alone; equality by induction over the session |
| C111 | `AircraftIOModel.load` as for C34 | `LoadSpec`: the relation between a document and its aircraft, entry by entry; equivalence in both directions, dictionaries compared with their order |
| C112 | `AnalysisModel` with reference values of any Python type | false: the run ends normally with zeros in all files; case analysis of the C readers, run as in C86 |
| C113 | `FloatModel` = `vlm_results`, `vlm_coeffs` with a rounding after every operation | calculus of relative errors (number of roundings, size without cancellation); induction over the panels; Flocq for doubles |
| C114 | `DrawModel` = `abs_vertices`, `abs_hinge_vertices`, `add_controls`, `add_lattice`, the figures of `makeplots.py` | lines of a view as a set of polylines; device lines stay on any line closed under `xsi_interpol` through cuts and placements; strips with the control are the same positions after later operations |
| C115 | `StartModel` (see C90) | case analysis of the loaders in their order; what the start of a run may have written before is bounded by the frame lemmas of C97 |
| C116 | `FloatLatModel` = `vlm_lattice` with a rounding after every operation | error calculus of C113 against `PanelModel`; shared edges by computation; doubles through Flocq for the refutation |
| C117 | `FloatSolveModel` = `vlm_downwash`, `vlm_boundary` with a rounding after every operation | Cauchy-Schwarz bounds the denominator from below by `_epsilon` times the distances; factors between g and 1/g for quotients |
| C118 | as C117, C113; solver = any circulations with their residual | triangle inequality over the rows; induction over the panels for stored velocities; sin and cos are 1-Lipschitz |
| C119 | `JoinModel`: corner points of segments as exact reals; the four comparisons of edges in order | unit vectors of equal edges are equal; Cauchy-Schwarz for the gap seen along the chord; witnesses for the two false directions |
| C120 | as C109 | velocity beside the end of a trailing vortex in closed form for every epsilon, decreasing in the distance; the matrix of downwash at the bound vortices is symmetric, not positive off the diagonal, with positive row sums (telescoping), hence positive definite |
| C121 | as C108; SettingsModel (default '_epsilon') | the regularisation scales each leg by a factor between 1 - eps K and 1, with K from the distances; off-diagonal entries stay negative and row sums positive while this change is below the gap at eps = 0 |
| C122 | NormalModel, GeomModel, PanelModel, LatticeModel | records of the bookkeeping are in one-to-one order with the subareas and sides; corners of each record from the strip edges; tiling of span (C01) and chord (C04) gives coverage |
| C123 | JsonModel | the reader of JsonSpec is run on the written text by induction on the value, with the rest of the text as parameter; fuel by the length of the text; with NaN inside, the reader gets as far as the first NaN and fails there |
| C124 | RefModel | each step of a call is judged by a condition on the world before the call; conditions compose because reading changes no kinds and no entries, and writing no names of entries |
| C125 | ArrowModel, VlmModel, PanelModel | the direction computed in Python is that of the C++ code, of norm one |
| C126 | LatticeModel, NormalModel, VlmModel | the lattice is the list of the panels of all records, and these are those of the wings, and of the segments, one after the other, up to numbers; permuted panels are images under the identity in the sense of C98 |
| C127 | LatticeModel, NormalModel, VlmModel | each mirrored record has the panels of the record of the mirror image: vertices, hinge axis, deflection and camber agree after exchanging inner and outer edge; then permuted panels as in C126 |
| C128 | LatticeModel, NormalModel, VlmModel | vertices of a strip in a part are those in the segment, hence all panels of the record agree; then permuted panels as in C126 |
| C129 | LatticeModel, NormalModel, VlmModel | each panel is the image of the corresponding one, with its normal turned about the z-axis (rotations by opposite angles about mirrored axes); then isometries as in C98 |
| C130 | LatticeModel, NormalModel, VlmModel | C99 for any rotation, using only that it is linear and keeps scalar and cross products; angles of a unit vector from arc sine and arc cosine |
| C131 | LatticeModel, NormalModel | the bookkeeping is the same; each final normal is a function of its own entry |
| C132 | LatticeModel, NormalModel | rows of the lattice and final normals as functions of one bookkeeping entry (C40, C122); grouping by wings as in C126 |

## 4. Trusted base

* The Coq 8.16.1 kernel and standard library.
* What `Print Assumptions` prints under each theorem (section 5.1).
* The reading of the source that the `*Model.v` files record.

## 5. Assumptions of the theorems

### 5.1 `Print Assumptions`

175 of 343 property theorems are *closed under the global context*. The others are about real
numbers and use axioms of the Coq standard library only:

* D `ClassicalDedekindReals.sig_forall_dec`, N `ClassicalDedekindReals.sig_not_dec`,
  F `FunctionalExtensionality.functional_extensionality_dep` (the real numbers of the library),
* C `Classical_Prop.classic` (library facts about inverse trigonometric functions and limits).

No axiom is added; `vcheck` and `coqchk` also name constants of `Coq.Reals` and of `ssr` that are
loaded with these modules.

| file | axioms |
| --- | --- |
| `Props_AircraftIO.v` | all 3: none |
| `Props_Analysis.v` | all 5: DNF |
| `Props_Arrow.v` | DF: `C125_marker`; DNF: all others |
| `Props_Build.v` | all 3: none |
| `Props_Cli.v` | all 4: none |
| `Props_Control.v` | all 5: none |
| `Props_Cpacs.v` | all 1: none |
| `Props_CpacsAircraft.v` | all 16: none |
| `Props_Deform.v` | none: `C46_fields_partial`, `C46_no_file`, `C46_suffix_refuted`, `C46_inside_refuted`, `C46_unknown_refuted`; DNF: `C66_panels_partial`; D: `C67_subareas`; DF: all others |
| `Props_Drag.v` | all 2: DNF |
| `Props_Draw.v` | DNF: `C114_acts_partial`, `C114_yz_refuted`; DF: all others |
| `Props_Eps.v` | all 4: DNF |
| `Props_Float.v` | DF: `C113_bound`; DNFC: `C113_double`; DNF: all others |
| `Props_FloatFlow.v` | DNF: `C118_tangency`, `C118_induced`; DNFC: all others |
| `Props_FloatLat.v` | DNFC: `C116_gap_refuted`; DNF: all others |
| `Props_FloatSolve.v` | DF: `C117_boundary`; DNFC: `C117_double`, `C117_epsilon_refuted`; DNF: all others |
| `Props_Geometry.v` | DF: `C14_mirror_vertices`, `C15_mirror_image_partial`, `C15_mirror_image_refuted`, `C15_hinge_refuted`, `C16_mirrored_up`, `C16_subarea_refuted`; DNF: all others |
| `Props_Int.v` | all 9: none |
| `Props_Iso.v` | all 8: DNF |
| `Props_Join.v` | all 8: DNF |
| `Props_Json.v` | all 9: none |
| `Props_Lattice.v` | all 14: none |
| `Props_Load.v` | all 2: none |
| `Props_Missing.v` | all 3: none |
| `Props_Need.v` | all 2: none |
| `Props_Normals.v` | all 5: DNF |
| `Props_Order.v` | all 4: DNF |
| `Props_Sides.v` | all 1: DNF |
| `Props_Parts.v` | all 1: DNF |
| `Props_Flip.v` | all 3: DNF |
| `Props_Turn.v` | `C130_angles`: DNFC, others: DNF |
| `Props_Set.v` | all 2: DNF |
| `Props_Local.v` | all 2: DNF |
| `Props_Place.v` | DF: `C122_aligned`; D: `C14_other_planes`; DNF: all others |
| `Props_Plot.v` | DF: `C74_figure`; DNF: all others |
| `Props_PrePanel.v` | all 12: none |
| `Props_Ref.v` | all 4: none |
| `Props_Round.v` | all 5: none |
| `Props_Row.v` | all 4: DNF |
| `Props_Run.v` | all 7: none |
| `Props_Segment.v` | DF: `C76_direction`; DNFC: all others |
| `Props_Settings.v` | all 11: none |
| `Props_Setup.v` | all 4: none |
| `Props_Start.v` | all 13: none |
| `Props_State.v` | all 15: none |
| `Props_Strips.v` | all 13: none |
| `Props_Table.v` | all 8: none |
| `Props_Unread.v` | all 2: DNF |
| `Props_Vlm.v` | DNFC: `C52_exact_law`, `C52_regularised`; DNF: all others |
| `Props_Wake.v` | DNFC: `C104_leg`, `C104_regularised`, `C104_horseshoe`; DF: `C105_total`; DNF: all others |
| `Props_Wing.v` | all 7: none |

### 5.2 What is modelled

| source (src/lib/pytornado) | model |
| --- | --- |
| `objects/aircraft.py` `WingSegment` strips, `SegmentStrip`, `StripSubdivision` | `StripModel` |
| `objects/aircraft.py` geometry of points, mirroring, hinge lines, `xsi_interpol` | `GeomModel`, deformed: `DeformGeomModel` |
| `objects/aircraft.py` `WingSegment.generate` from four vertices, area, directions | `SegmentModel` |
| `objects/aircraft.py` `Wing.generate` positions and spans, `add_*`; `objects/objecttools.py` | `WingModel`, `AircraftModel`; continuity warnings: `JoinModel` |
| `objects/aircraft.py` schemas, setters, `WingControl.check`, checks of segments | `SchemaModel`, `ControlModel`, `AircraftIOModel` |
| `objects/aircraft.py` `Aircraft.size`; `plot/plottools.py` limits, views, colours, patches | `PlotModel` |
| `objects/aircraft.py` `WingControl.abs_vertices`, `abs_hinge_vertices`; `plot/plottools.py` `add_controls`, `add_lattice`; `plot/makeplots.py` geometry and lattice figures | `DrawModel` |
| `aero/vlm.py` `set_autopanels`, `pre_panelling`, `gen_lattice`, `solver` | `WingModel`, `PrePanelModel`, `LatticeModel`, `NormalModel`, `VlmModel` |
| `aero/c_lattice.cpp`, `c_downwash.cpp`, `c_boundary.cpp`, `c_results.cpp`, helpers of `c_vlm.cpp` | `PanelModel`, `VlmModel`, indices: `LatticeModel`, as C integers: `IntModel`, `IntRunModel`; with rounding: `FloatLatModel`, `FloatSolveModel`, `FloatModel` |
| `objects/state.py`, `fileio/native/state.py`, `fileio/cpacs/state.py` (conversion) | `StateModel` |
| `objects/settings.py` (values), `objects/utils.py`, `fileio/native/settings.py` | `SettingsModel` |
| `fileio/native/aircraft.py`, `fileio/utils.py` (paths) | `AircraftIOModel` |
| `fileio/native/deformation.py` | `DeformModel` |
| `fileio/native/results.py`, `stdfun/run.py`, `plot/makeplots.py` (order, files, flags) | `RunModel` |
| `plot/plottools.py` (`add_freestream_vector`, `add_CG`) | `ArrowModel` |
| `fileio/utils.py` (`dump_pretty_json`), JSON files of `fileio/native/results.py` | `JsonModel` |
| `stdfun/setup.py`, `database/tools.py`, `src/bin/_pytornado_exe.py` | `SetupModel`, `CliModel` |
| `aero/c_vlm.cpp` (structs from dictionaries), `aero/vlm.py` `calc_*`, `VLMData`; tables of `fileio/native/results.py` | `AnalysisModel`, reference counts: `RefModel` |
| `stdfun/run.py`, `objects/settings.py` (paths), `fileio/native/settings.py` (`load`), `objects/aircraft.py` (`_import_airfoils`): files and directories | `StartModel` |
| `fileio/cpacs/results.py`, `fileio/cpacs/utils.py` (vectors, performance maps) | `CpacsModel` |
| `fileio/cpacs/aircraft.py`, `fileio/cpacs/__patch.py`, `fileio/cpacs/utils.py` (mid points), `fileio/utils.py` (`parse_str`) | `CpacsAircraftModel` |

### 5.3 What is not modelled

* floating-point rounding (except in the division into strips, C103, the lattice, C116, the linear system, C117, C118, and the results, C113), overflow, underflow, signed zeros; infinities (NaN only where a definition says so);
* memory management in the C++ code beyond array indices (C10-C12, C101) and reference counts (C102);
* matplotlib, colour maps, the text of figures, log messages (except which continuity warnings are written, C119), time stamps;
* tixi and tigl themselves;
* the documentation, the tests and the setup script in `/repo`.

### 5.4 What is assumed about external code

Each of these is a Section variable, a definition marked external, or a hypothesis of a theorem.

* `schemadict`: reports missing keys, wrong types and values out of range, changes nothing; whether
  `None` passes and whether an `int` passes as a `float` are parameters.
* `commonlibs`: `axis_rot_matrix` is Rodrigues' rotation; `lin_interpol` is linear interpolation and
  fails on an empty interval; `get_plane_line_intersect` is the usual formula; `ProjectPaths` joins
  names and replaces the counter, makes and removes whole directories; the log file is started anew by a run.
* `ambiance`: density and speed of sound are some function of the altitude, elementwise.
* `airfoils`: the camber angle is some function of eta and xsi.
* `aeroframe`: `get_deformed_point` is a function of the point for a given field; the reader of
  deformation files returns a dictionary.
* LAPACK `dgesv`: a solution of the linear system if the matrix is regular (`solver_ok`), any vector otherwise;
  `numpy.linalg.cond` raises on an empty matrix only.
* `json`: loading what was dumped gives the same value (proved of the text in C123, from: the text of a float is read as this float).
* numpy: `linspace(0, 1, n + 1)` is i/n; elementwise operations.
* argparse: options of one exclusive group are not combined; `glob`: some order of files.
* tixi, tigl: see the heads of `CpacsModel.v` and `CpacsAircraftModel.v`; the relative position in a
  segment for a position in a component segment is any function; the order of a Python `set` is arbitrary.
* file system: writing inside a new project directory succeeds; for C90-C97 a map from paths to files and directories
  without links and permissions, on which writing succeeds unless a file is where a directory should be.

## 6. How to read `seeded/LOG.jsonl`

Each line is one wrong model. `lemmas_failed` was always observed in a build; how `theorems_failed`
was obtained differs, and `basis` says how:

* `replayed` (269 lines): the build went on past each failed proof in the scratch copy, and `theorems_failed`
  are the property theorems that failed or whose `Print Assumptions` then named a failed lemma.
* `dependency` (598 lines): the build stopped at the first failed lemma. `theorems_failed` was not observed:
  it lists theorems that use this lemma according to a search for its name in the sources, in
  alphabetical order and cut after twelve or, in some campaigns, chosen by hand from those that use it.
  A listed theorem may have a true statement for the wrong model, and theorems not listed may fail.
* `observed` (18 lines): what stopped the build is what is listed, or no property theorem is listed.
* `survived` (35 lines): the build passed; `note` says why no claim is broken, or what was tightened.

A failed proof shows that the proof depends on the edited line. It does not show by itself that the
statement is false of the wrong model. Edits described as "random edit" were not chosen to break a
particular claim.
