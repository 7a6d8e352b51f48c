# A Rocq model of GoSlice

This directory contains a machine-checked model of the GoSlice slicer (`/repo`, Go) in Rocq/Coq 8.16.1.
`properties.jsonl` lists the properties in English, `rocq/theories` holds model, specification, proofs and
property theorems, `MANIFEST.json` says which theorems settle which property and `seeded/LOG.jsonl` records
the wrong programs the theorems were tested against.

## 1. Conventions of the model

* **One Gallina function per Go function**, total and computable; each definition cites file and lines.
* **int64** (`Micrometer`, `int`): `Z` with explicit wrap-around `wrap z = (z+2^63) mod 2^64 - 2^63` after every
  `+ - *`; `/` is `Z.quot` (truncation) and panics on 0.  `int` is 64 bit (amd64).
* **float32/float64**: the standard library's `Coq.Floats.SpecFloat.spec_float` with (24,128) and (53,1024);
  every operation rounds to nearest even after each step (no fused multiply-add, i.e. amd64).  Conversion of
  out-of-range/NaN floats to int64 gives -2^63 (amd64 behaviour, implementation-defined in Go).  The numeric
  theorems relate these to real numbers through Flocq.
* **Panics, errors, non-termination**: explicit outcomes (`Ok`, `Err`, `Panic`; loops that are not structurally
  bounded have fuel and `Diverge`/`None`, with theorems that the fuel suffices).
* **nil vs. empty slices**: `option (list _)` where the code can tell the difference.
* **Slices as heap objects** only where aliasing matters (C07, C37); elsewhere slices are lists.
* **Maps** are association lists; iteration order is a universally quantified permutation.
* **Strings** are `Coq.Strings.String.string` = byte strings (Go strings are byte strings).
* **External code** - go.clipper (Execute, offsetting, polygon orientation), the convex hull library, the STL
  library, `math.Sin/Cos/Tan`, the OS - appears as universally quantified function arguments.  Where a property
  needs that polygon clipping is correct, that is a hypothesis about these arguments ("region semantics"), and a
  concrete instance meeting the hypothesis is given next to the theorem.

## 2. Layout of `rocq/theories`

| kind | files | content |
|---|---|---|
| base | `GoBase.v`, `GoFloat.v`, `GoStr.v` | machine integers, outcomes, floats, byte strings, number formatting |
| model | `M_*.v` | definitions only, each citing the Go lines |
| specification | `S_*.v` | small, model-independent definitions used in theorem statements |
| proofs | `L_*.v` | lemmas |
| properties | `P_*.v` | the theorems of `MANIFEST.json`, `Print Assumptions`, and `Example`s showing the hypotheses can be met |

## 3. Plan per property

| id | modelled | how it is proved |
|---|---|---|
| C01 | ToMillimeter/ToMicrometer on spec_float | Flocq error bounds; two roundings plus round-to-even conversion |
| C02 | `%0.2f` printing of ToMillimeter | Flocq error bound + exact decimal rounding |
| C03 | Size, Size2, ShorterThanOrEqual (2d, 3d) | Flocq sqrt correctness; integer inequality |
| C04 | Add/Sub/Mul/Div | modular arithmetic |
| C05 | PerpendicularDistance2 | Lagrange identity + floor division; wrapped square only lowers the subtracted term |
| C06 | douglasPeucker/seekMostDistantPoint | strong induction on the path; refutation by computation |
| C07 | slices as (array, offset, length, capacity) | heap refinement by induction |
| C08 | Simplify loop | loop invariant |
| C09 | Bounds loops | fold invariant |
| C10, C11 | strconv.ParseInt(base 0), String, strings.Split/TrimSpace | digit-string induction |
| C12, C13 | FanSpeedOptions | induction over pieces, permutations for map order |
| C14, C15 | GCodeHunk | induction over lines |
| C16 | Model.Min/Max, stlTriangleToFace | fold invariant |
| C17-C22 | Optimize (two loops, hash map, touching, open faces, placement) | loop invariant over all faces |
| C23-C26 | Slice/SliceFace | case analysis, floor-division bounds, loop invariant |
| C27-C30 | makePolygons (chain building, joining, finishing, filtering) | loop invariants with a measure on unused segments |
| C31 | polyTreeToLayerParts | induction on trees |
| C32, C33 | Inset, InsetLayer, ForEach, ToOneDimension | induction on counts/lists |
| C34-C37 | getInfill, sortInfill, Fill | loop invariants; heap model for C37 |
| C38-C43 | Builder with its real text output | refinement against a printer that parses the text |
| C44 | Generator | induction over layers and renderers |
| C45-C51 | renderers | as programs over the builder; induction over parts |
| C52-C60 | modifiers | layers as attribute maps; region semantics of clipping as hypothesis |
| C61, C62 | Process, Read | state machine over stages with arbitrary handlers |
| C63 | Write | small file-system model with crash points |
| C64-C66 | generator with all renderers as lists of builder calls | induction over layers; refinement against the text-reading printer |
| C67-C70 | six modifiers in their order | areas as point sets (`S_Area.v`); every clip/offset call is exact by hypothesis |
| C71, C80, C83 | main with flags, Process and exit code | composition of the stage theorems |
| C72, C73 | slicer + parts | even-odd area of the outlines; connectivity of the optimized mesh |
| C74, C77, C81, C82 | whole runs with the built-in handlers | composition; invariants carried from stage to stage |
| C75, C76, C85 | infill lines | grid arithmetic with Flocq bounds; lines as point sets (`S_Lines.v`) |
| C78, C79 | flag parsing (pflag's rules as far as used) and every flag | induction over the command line |
| C84 | travel moves and retraction | point set of a line against the area of a layer |
| C86 | brim and skirt | areas of grown contours; nesting of contours (`S_Brim.v`) |
| C87 | SaveDebugSTL and reading it again | round trip of C01 for every coordinate |
| C88 | ToMillimeter, SizeMM, extrusion per mm, the E counter over a whole print | relative error calculus (Flocq) over all float operations, induction over the lines; witness for the counter that stops |
| C89 | the infill plan of a layer (`S_Render`), patterns of `M_Render`, `Fill` with zig-zag | grid lines cut by the part, shortened and woven (`L_Zig`), one block per kind in `fillings` (`S_Pattern`, `P_Pattern`) |
| C90 | `SliceFace`, `slice_faces`, `makePolygons`, optimized models | the ray from a point crosses chains of cuts as often (mod 2) as triangles (`S_Solid`, `L_Ray`, `L_Solid`, `P_Solid`); deviation of cut points bounded by 1 um per axis |
| C91 | `Simplify`, `Slice` with any exact library | each removed vertex changes the surrounded points by one triangle (`L_Sliver`), `layer_parts_exact` of C72 and C90 |
| C92 | the whole run (`finished`) for two sets of options | each stage gives the same result (`same_features`); the two builders run in step and differ only in retraction fields that are never used (`twins`) |
| C93 | the whole run for two sets of options | the two sequences of calls match up to calls that do not move the printer (`matched`), the two texts lead to the same places (`alike`) |
| C94 | optimizer/optimizer.go, M_Model.Optimize | P_Place: a face whose points are known and whose numbers are degenerate or used by an earlier face leaves the state of the faces loop unchanged (invariants VInv, FInv of L_Model); the bounding box is that of the same set of vertices |
| C95 | optimizer/optimizer.go, reader/reader.go (Min, Max) | P_Place: simulation of the faces loop for a model and its translate; under separation the lookup finds a vertex exactly if it is already a point, whatever the hash cells are; the rounding of the middle toward zero is computed exactly |
| C96 | Two stacks of layers that agree in a window around a layer (`S_Local.same_around`); both go through the wall, solid infill and internal infill modifiers, and through whole runs without support. | `P_Local.layer_depends_on_neighbours`, `layer_of_run_local`: the loops over layers are stepwise, the search for exposed areas reads the window only (`L_Local`). Example: two towers of 20 and 25 layers. |
| C97 | The wall modifier run with two settings that differ in the number of walls. | `P_Local.more_walls`: the rounds of the offset loop do not depend on how many follow. |
| C98 | `ToRadians`, `ptRotate`, `rotate_path` in float64; math.Sin/Cos are arguments with `S_Rotate.accurate`. | `P_Rotate.path_turned`, `turn_and_back`: pi enclosed by a Machin-like series, error of each rounding (Flocq), sine and cosine 1-Lipschitz. |
| C99 | `Fill` for any library that is `capable` and `accurate`. | `P_Rotate.infill_direction`: grid of the turned box, sorting keeps or reverses lines, C98 for turning back. |
| C100 | `Optimize` for models whose vertices are `apart` (S_Place.v). | `P_Print.optimizer_exact`: the numbers of two vertices are equal only if the vertices are (no melding), so the kept faces are a selection of the moved ones. |
| C101 | The whole program; `printable` (S_Print.v) speaks about the faces of the file only. | `P_Print.model_printed`, `goslice_file`: conditions of `met_run_succeeds` and `run_layers` derived from the file by C100 and `optimizer_placement`. |
| C102 | The whole program; `watertight` and `edges_apart` (S_Body.v) speak about the faces of the file, `in_solid` (S_Solid.v) decides whether a point is in the body. | `P_Body.optimizer_identity` (the optimized faces are all faces, moved), `watertight_closed`, `apart_unambiguous`, then `layer_cross_section` (C91): `printed_body`. |
| C103 | As C102, with the calls of C81. | `P_Body.run_prints_body`. |
| C104 | As C102, two runs; `rearranged` (S_Body.v). | `P_Order.face_order`: all conditions of C102 and `in_solid` are unchanged by rearranging (`rearranged_good`). |
| C105 | `Optimize` with the logged number of open faces; `lonely` (S_Body.v). | `P_Open.open_faces_reported`: `optimizer_identity` and `optimizer_touching` relate each touching entry to an edge of the file; counting. |
| C106 | The whole run on a file with two bodies; `in_solid`, `watertight`, `away` (S_Body.v). | `P_Overlap.several_bodies`: `in_solid` of the joined list is the exclusive or, two watertight lists without common vertices are watertight together, then `printed_body` (C102). `overlap_printed_refuted`: two overlapping tetrahedra, computed up to the polygons of layer 5. |
| C107 | The calls of a whole print and the printer of S_Printer.v; `not_below` (S_Nozzle.v). | `P_Nozzle.nozzle_stays_up`: the heights of the polygons of a print never go down (`print_sorted`), and from the end of a polygon on each call keeps position and targets between its height and the highest layer plus the hop (`calls_up`), induction over the calls. |
| C108 | The calls of a whole print, layer by layer, and the printer of S_Printer.v. | `P_Layer.layer_executed`: induction over the layers before for the configuration a layer starts with (`layers_before`), the settings in force within the layer (`layer_force`), and the execution of each polygon of a print (`whole_polygon`). |
| C109 | As C102, with `S_Round.clips_within e lib` instead of an exact library: right at all real points at least e away from the contours the library is given. | `P_Round.printed_body_within`: the union call of a layer is judged on the subtype of the points clear of its own input, the rest as for C102. `L_Round.grid_within`: the library of L_Grid.v meets the hypothesis with e = sqrt 2, because moving a point by less than 1 um does not change the parity of contours that are not near (`surrounded_moved`). |
| C110 | As C77 and C101, for all libraries that do not fail. | `P_Total.total_exact`: exactness speaks about points, and for the empty set of points it says only that no call fails; so the theorems about success hold for all such libraries. `goslice_prints_body` joins this with C109 for the whole program. |
| C111 | Both support modifiers, for pairs of stacks of layers. | Relation `looks_same` between layers (S_Above), kept from layer n upwards by the detector (L_Support.detector_spec) and by every round of the generator, which goes from the top to the bottom; `P_Above.support_from_above`, and for whole runs `support_of_run_from_above`. |
| C112 | `Process` with the handlers of `NewGoSlice`, the writer with all its intermediate disks, the renderers with their bound on the number of steps. | A result of the filling does not change with a larger bound (`grid_more`, lifted to `plan_layer` and to `Generate` through the plan of C64); `P_Repeat.more_time`, `same_gcode`, and with the writer of C63 `runs_repeatable` and `run_after_crash`. |
| C113 | The optimizer, the slicer, `Simplify`, the six modifiers and the plan of the renderers; a clipping library is assumed to give moved areas for moved paths (`S_Center.clips_anywhere`, `offsets_anywhere`, `hulls_anywhere`). | Each function commutes with a translation, also modulo 2^64 (`L_Center`); `P_Center.outlines_follow_center` needs no library at all, `layers_follow_center` and `print_follows_center` are about two whole runs. The lines of the fillings are not part of the claim. |
| C114 | All stages of a run and the plan of the renderers (C64). | The stages before the G-code do not read these options, except that the internal filling asks whether the density is 0; the plans of two runs are compared part by part in `P_Feature.skirt_options_local` and `fill_options_local`; `more_skirt` by the prefix lemma of C97. The travel between the parts is not compared. |
| C115 | The perimeter, infill and internal infill modifiers with an exact clipping library (C53-C56). | The exact description of solid areas for both settings (`solid_only_exposed`, `solid_bottom`, `solid_top`), `exposed_below` and `exposed_above` grow with the count; `P_More.more_solid_layers`. The default overlap is refuted by `more_solid_layers_refuted`. |

## 4. Trusted base

Coq 8.16.1's kernel (including `vm_compute`), the correspondence between the Go code and the model definitions
(checked by reading; comments cite lines), and the modelling assumptions of section 1.  No axioms are added; the
assumptions printed by `Print Assumptions` are listed in section 5.

## 5. What `Print Assumptions` lists

Written by `tools/gen_assumptions.py` from the compiled files, for the 306 theorems of `MANIFEST.json`.

These 230 theorems are closed under the global context (no axioms):

* `P_Above.v`: support_from_above, support_of_run_from_above
* `P_Body.v`: optimizer_identity
* `P_Brim.v`: top_level_exact, brim_around_every_wall_refuted
* `P_Builder.v`: printer_in_step, harmless_texts, polygon_moves, polygon_fails_only_with_library, empty_polygon, travel_retracts, travel_without_crossing, retraction_exact_refuted, first_retraction_stays_refuted, settings_follow_calls, move_speed, speed_exact_refuted, extrusion_increases_refuted, command_verbatim, doubled_percent_verbatim, command_verbatim_refuted, trailing_percent_swallows_move_refuted
* `P_Center.v`: simplify_anywhere, outlines_follow_center, layers_follow_center, print_follows_center
* `P_Clip.v`: tree_to_parts, for_each_visits, infill_grid, infill_grid_diverges, infill_lines_on_grid, shorten_line, shorten_direction, shorten_keeps_direction_refuted, fill_keeps_part
* `P_Data.v`: micrometer_round_trip_unbounded_refuted, point_shorter_exact, vec3_shorter_exact, vector_add_sub, vector_mul_div, vector_exact, vector_max, perpendicular_distance_exact, perpendicular_distance_degenerate, perpendicular_distance_upper, perpendicular_distance_exact_refuted, douglas_peucker_near, douglas_peucker_default_near, douglas_peucker_selection, douglas_peucker_collapse, douglas_peucker_near_refuted, douglas_peucker_heap, douglas_peucker_preserves_input_refuted, simplify_selection, simplify_small_paths, simplify_rules, simplify_rules_wide, simplify_near_refuted, path_bounds_tight, paths_bounds_tight, layer_bounds_tight, bounds_empty
* `P_EndToEnd.v`: run_layers
* `P_Feature.v`: skirt_options_local, more_skirt, fill_options_local
* `P_Flags.v`: millimeter_option_round_trip_fine_refuted, millimeter_option_finite_refuted, millimeter_option_rejects, millimeter_option_infinite, command_line_options, command_line_accepted, command_line_unambiguous, flag_not_given, defaults_given, last_flag_wins, switch_value_refuted, exit_bad_flags, exit_version, exit_no_input, exit_process
* `P_Infill.v`: infill_density_refuted
* `P_Layer.v`: layer_executed
* `P_Lines.v`: crossing_exact, retracts_exactly
* `P_Local.v`: layer_depends_on_neighbours, layer_of_run_local, more_walls
* `P_Model.v`: model_bounds_tight, model_bounds_no_faces, optimizer_melding, optimizer_total, optimizer_panics, optimizer_faces_proper, optimizer_incidence, optimizer_touching, optimizer_touching_pair, optimizer_open_count, optimizer_placement, optimizer_separation, optimizer_melds_all_near_refuted
* `P_Modifier.v`: brim_disabled, brim_only_first_layer, brim_without_layers_panics, modifiers_keep_layers, no_insets_panics, solid_bottom_refuted, infill_stops
* `P_More.v`: more_solid_layers_refuted
* `P_Open.v`: open_faces_reported
* `P_Option.v`: micrometer_option_round_trip, micrometer_option_range, micrometer_option_plain, micrometer_option_rejected, micrometer_option_atomic_refuted, microvec3_option_round_trip, microvec3_option_atomic, microvec3_option_accepts, fan_option_accepts, fan_option_complete, fan_option_atomic, fan_option_round_trip, fan_option_empty_refuted, hunk_option_accepts, hunk_option_rejects, hunk_option_round_trip, hunk_option_short_refuted, hunk_contains_codes, hunk_contains_only_commands_refuted, hunk_instruction_codes, hunk_instruction_codes_blank
* `P_Pipeline.v`: layer_parts_exact, slicing_fails_only_without_polygons, met_model_sliced, connected_model_sliced, no_gaps, melded_top_refuted, built_in_run
* `P_Place.v`: repeated_faces, repeated_faces_run, position_in_file, position_in_file_run, position_in_file_close_refuted
* `P_Print.v`: optimizer_exact, one_piece_no_gap
* `P_Process.v`: process_calls, process_result, process_success, process_writes_once, missing_file, no_triangles_panic, broken_file_not_reported, write_crash_points, write_success, write_create_fails, write_works, write_keeps_old_refuted, exit_zero, exit_codes, write_succeeds_iff
* `P_Render.v`: generator_schedule, generator_first_error, generator_repeatable, goslice_renderers_stateless, perimeter_prints, inset_order, insets_once, print_settings, in_force_meaning, wall_speeds, walls_by_kind, infill_at_outer_speed, infill_at_layer_speed_refuted, first_layer_settings, later_layer_settings, print_happens, custom_heating, safe_start_hot_end, safe_start_bed, safe_stop_hot_end, safe_stop_bed, forced_heating_refuted, layer_commands, temperature_change, no_bed_command_refuted, start_code_filled, no_placeholder_left, other_text_kept, start_code_printed, print_in_step, print_is_planned, layer_heights, print_succeeds, skirt_printed, skirt_only_first_layer
* `P_Repeat.v`: more_time, same_gcode, runs_repeatable, run_after_crash
* `P_Same.v`: switched_off, switched_off_run, nozzle_path, nozzle_path_both
* `P_Slicer.v`: slicing_layers, slicing_panics, slicing_zero_thickness_panics, optimized_sliceable, slicing_raised_refuted, face_cut_exactly, one_segment_per_crossed_face, segment_on_edges, neighbours_meet, polygons_total
* `P_Solid.v`: spread_unambiguous
* `P_Support.v`: support_clear_of_model, support_clear_of_model_refuted, support_comes_down, support_column, overhang_supported, top_layers_untouched, support_interface, no_interface_layers_is_all_interface, support_detection, support_disabled, overhang_detected, overhang_detected_refuted, threshold_refuted, support_succeeds
* `P_Total.v`: slicing_total
* `P_Travel.v`: run_retracts

These 3 theorems rest on axioms of Coq's standard library (they enter with its real numbers, which the
floating point lemmas use): `ClassicalDedekindReals.sig_forall_dec`, `FunctionalExtensionality.functional_extensionality_dep`.

* `P_Round.v`: layer_parts_within
* `P_Solid.v`: hit_is_ray, simplify_only_slivers

These 2 theorems rest on axioms of Coq's standard library (they enter with its real numbers, which the
floating point lemmas use): `ClassicalDedekindReals.sig_forall_dec`, `ClassicalDedekindReals.sig_not_dec`, `FunctionalExtensionality.functional_extensionality_dep`.

* `P_Round.v`: plane_within
* `P_Volume.v`: line_extruded_refuted

These 71 theorems rest on axioms of Coq's standard library (they enter with its real numbers, which the
floating point lemmas use): `ClassicalDedekindReals.sig_forall_dec`, `ClassicalDedekindReals.sig_not_dec`, `Classical_Prop.classic`, `FunctionalExtensionality.functional_extensionality_dep`.

* `P_Body.v`: printed_body, run_prints_body
* `P_Brim.v`: brim_surrounds, skirt_surrounds, skirt_around_brim
* `P_Builder.v`: printer_position_close, retraction_drift, speed_is_truncated, extrusion_never_decreases
* `P_Clip.v`: inset_offsets, inset_layer_parts, infill_sorted, infill_sorted_plain, fill_rotation
* `P_Complete.v`: fill_succeeds, met_run_succeeds, run_succeeds
* `P_Data.v`: micrometer_round_trip, printed_coordinate_close, point_size_floor, vec3_size_floor
* `P_EndToEnd.v`: run_prints_inside_model, program_succeeds
* `P_Export.v`: export_read_again
* `P_Flags.v`: millimeter_option_exact, millimeter_option_nearest, millimeter_option_round_trip, millimeter_option_range, millimeter_option_exponent
* `P_Infill.v`: infill_distance, infill_density, infill_never_ends_refuted
* `P_Lines.v`: infill_lines_exact, infill_lines_in_part
* `P_Model.v`: stl_coordinate_close
* `P_Modifier.v`: brim_lines, perimeter_structure, solid_bottom, solid_top, solid_only_exposed, infill_partition, print_inside_model, perimeters_and_infill_succeed
* `P_More.v`: more_solid_layers
* `P_Nozzle.v`: nozzle_stays_up
* `P_Order.v`: face_order
* `P_Overlap.v`: several_bodies, overlap_printed_refuted
* `P_Pattern.v`: part_filled, print_fillings
* `P_Print.v`: model_printed, goslice_file
* `P_Render.v`: skirt_lines
* `P_Rotate.v`: path_turned, turn_and_back, infill_direction
* `P_Round.v`: printed_body_within
* `P_Slicer.v`: polygons_exact, polygons_closed_long, polygons_bridged, closed_surface_closed_outlines, closed_model_closed_outlines
* `P_Solid.v`: outlines_surround_solid, model_outlines_surround_solid, layer_cross_section
* `P_Total.v`: model_printed_total, run_total, modifiers_total, goslice_prints_body
* `P_Volume.v`: line_filament, print_filament

## 6. What is modelled and what is not

Modelled function by function (all control flow, every error and panic, integer overflow, float rounding):

| package | modelled | file |
|---|---|---|
| `data` | micrometer/millimeter conversion, vectors, points, paths, bounds, Simplify, Douglas-Peucker (also with aliased slices), rotation, G-code hunks, fan speeds, all option values and their text forms | `M_Micrometer.v`, `M_Geom2D.v`, `M_DPHeap.v`, `M_Option.v`, `M_Layer.v` |
| `reader` | Read, triangle conversion, Min/Max | `M_Model.v`, `M_Process.v` |
| `optimizer` | Optimize, optimized faces and models, SaveDebugSTL | `M_Model.v`, `M_Export.v` |
| `slicer` | Slice, SliceFace, makePolygons and everything below it | `M_Slicer.v` |
| `clip` | GenerateLayerParts, Inset, InsetLayer, Difference, Intersection, Union, IsCrossingPerimeter, Hull, TopLevelPolygons, linear pattern (also with aliased slices) | `M_Clip.v`, `M_FillHeap.v` |
| `modifier` | perimeter, infill, internal infill, brim, support detector, support generator, attribute access | `M_Layer.v`, `M_Modifier.v` |
| `gcode` | Builder with its text output, Generator, all renderers | `M_Builder.v`, `M_Render.v` |
| `writer`, `handler`, `goslice` | Write, Process, the order and wiring of the built-in handlers | `M_Process.v` |
| `cmd/goslice` | flags, main and its exit codes | `M_Flags.v` |

Not modelled:

* go.clipper, the convex hull library, `hschendel/stl` and `math.Sin/Cos/Tan`: they are arguments of the model, and what
  a theorem needs of them is one of its hypotheses (`exact`, `capable`, `straight`, `cuts_exactly`, `outermost`,
  `hulls`, `grows_evenly`, `accurate`).  One library defined in Rocq meets all of them together, for the centres of all
  squares of 1 um in the plane (`L_Grid.v`, `P_Grid.plane_library`), and `P_Grid.plane_prints` runs goslice with it; the
  one-dimensional libraries (`L_Strip.v`, `L_LineLib.v`, `L_TreeLib.v`, `P_Clip.v`) are used where examples are computed.
  That go.clipper itself meets the hypotheses is not proved.  With real numbers rounded to integers it meets them only up
  to rounding; C109 asks only for a library that is right up to a rounding distance (`clips_within`).
* pflag: only the rules that the flags of GoSlice use are modelled (`M_Flags.v`).
* The log output (`Logger.Println`), the printed time and version texts, and the content of error messages beyond their
  identity.
* Constructors, getters, setters, `Copy`, `Type`, `Len`, `Swap`, `Take` and empty `Init` methods (they are record
  projections in the model), and `Options.SetHasHeatedBed`, which nothing calls.
* Garbage collection, memory limits, slice capacities other than in `M_DPHeap.v` and `M_FillHeap.v`, goroutines (the
  code has none).
* The operating system: `M_Process.v` has a file system with create, write and crash points, but no permissions,
  links or concurrent writers.
