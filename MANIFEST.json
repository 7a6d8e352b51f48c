{
 "claims": [
  {
   "property": "C01",
   "status": "proved",
   "theorems": [
    "micrometer_round_trip",
    "micrometer_round_trip_unbounded_refuted"
   ],
   "note": "the bound 8192010 um is sharp"
  },
  {
   "property": "C02",
   "status": "proved",
   "theorems": [
    "printed_coordinate_close"
   ],
   "note": ""
  },
  {
   "property": "C03",
   "status": "proved",
   "theorems": [
    "point_size_floor",
    "vec3_size_floor",
    "point_shorter_exact",
    "vec3_shorter_exact"
   ],
   "note": ""
  },
  {
   "property": "C04",
   "status": "proved",
   "theorems": [
    "vector_add_sub",
    "vector_mul_div",
    "vector_exact",
    "vector_max"
   ],
   "note": ""
  },
  {
   "property": "C05",
   "status": "proved",
   "theorems": [
    "perpendicular_distance_exact",
    "perpendicular_distance_degenerate",
    "perpendicular_distance_upper",
    "perpendicular_distance_exact_refuted"
   ],
   "note": ""
  },
  {
   "property": "C06",
   "status": "proved",
   "theorems": [
    "douglas_peucker_near",
    "douglas_peucker_default_near",
    "douglas_peucker_selection",
    "douglas_peucker_collapse",
    "douglas_peucker_near_refuted"
   ],
   "note": "the unbounded claim is refuted by a 60 mm spike"
  },
  {
   "property": "C07",
   "status": "proved",
   "theorems": [
    "douglas_peucker_heap",
    "douglas_peucker_preserves_input_refuted"
   ],
   "note": ""
  },
  {
   "property": "C08",
   "status": "proved",
   "theorems": [
    "simplify_selection",
    "simplify_small_paths",
    "simplify_rules",
    "simplify_rules_wide",
    "simplify_near_refuted"
   ],
   "note": ""
  },
  {
   "property": "C09",
   "status": "proved",
   "theorems": [
    "path_bounds_tight",
    "paths_bounds_tight",
    "layer_bounds_tight",
    "bounds_empty"
   ],
   "note": ""
  },
  {
   "property": "C10",
   "status": "proved",
   "theorems": [
    "micrometer_option_round_trip",
    "micrometer_option_range",
    "micrometer_option_plain",
    "micrometer_option_rejected",
    "micrometer_option_atomic_refuted"
   ],
   "note": ""
  },
  {
   "property": "C11",
   "status": "proved",
   "theorems": [
    "microvec3_option_round_trip",
    "microvec3_option_atomic",
    "microvec3_option_accepts"
   ],
   "note": ""
  },
  {
   "property": "C12",
   "status": "proved",
   "theorems": [
    "fan_option_accepts",
    "fan_option_complete",
    "fan_option_atomic"
   ],
   "note": ""
  },
  {
   "property": "C13",
   "status": "proved",
   "theorems": [
    "fan_option_round_trip",
    "fan_option_empty_refuted"
   ],
   "note": ""
  },
  {
   "property": "C14",
   "status": "proved",
   "theorems": [
    "hunk_option_accepts",
    "hunk_option_rejects",
    "hunk_option_round_trip",
    "hunk_option_short_refuted"
   ],
   "note": ""
  },
  {
   "property": "C15",
   "status": "proved",
   "theorems": [
    "hunk_contains_codes",
    "hunk_contains_only_commands_refuted",
    "hunk_instruction_codes",
    "hunk_instruction_codes_blank"
   ],
   "note": ""
  },
  {
   "property": "C16",
   "status": "proved",
   "theorems": [
    "model_bounds_tight",
    "model_bounds_no_faces",
    "stl_coordinate_close"
   ],
   "note": ""
  },
  {
   "property": "C17",
   "status": "proved",
   "theorems": [
    "optimizer_melding",
    "optimizer_total",
    "optimizer_panics"
   ],
   "note": ""
  },
  {
   "property": "C18",
   "status": "proved",
   "theorems": [
    "optimizer_melding"
   ],
   "note": ""
  },
  {
   "property": "C19",
   "status": "proved",
   "theorems": [
    "optimizer_faces_proper",
    "optimizer_incidence"
   ],
   "note": ""
  },
  {
   "property": "C20",
   "status": "proved",
   "theorems": [
    "optimizer_touching",
    "optimizer_touching_pair",
    "optimizer_open_count"
   ],
   "note": ""
  },
  {
   "property": "C21",
   "status": "proved",
   "theorems": [
    "optimizer_placement"
   ],
   "note": ""
  },
  {
   "property": "C22",
   "status": "proved",
   "theorems": [
    "optimizer_separation",
    "optimizer_melds_all_near_refuted"
   ],
   "note": ""
  },
  {
   "property": "C23",
   "status": "proved",
   "theorems": [
    "slicing_layers",
    "slicing_panics",
    "slicing_zero_thickness_panics",
    "optimized_sliceable",
    "slicing_raised_refuted"
   ],
   "note": "the raised model is refuted by a witness"
  },
  {
   "property": "C24",
   "status": "proved",
   "theorems": [
    "face_cut_exactly",
    "one_segment_per_crossed_face",
    "slicing_layers"
   ],
   "note": ""
  },
  {
   "property": "C25",
   "status": "proved",
   "theorems": [
    "segment_on_edges",
    "slicing_layers"
   ],
   "note": ""
  },
  {
   "property": "C26",
   "status": "proved",
   "theorems": [
    "neighbours_meet"
   ],
   "note": ""
  },
  {
   "property": "C27",
   "status": "proved",
   "theorems": [
    "polygons_total",
    "polygons_exact"
   ],
   "note": ""
  },
  {
   "property": "C28",
   "status": "proved",
   "theorems": [
    "polygons_closed_long"
   ],
   "note": ""
  },
  {
   "property": "C29",
   "status": "proved",
   "theorems": [
    "polygons_bridged"
   ],
   "note": ""
  },
  {
   "property": "C30",
   "status": "proved",
   "theorems": [
    "closed_surface_closed_outlines",
    "closed_model_closed_outlines"
   ],
   "note": ""
  },
  {
   "property": "C31",
   "status": "proved",
   "theorems": [
    "tree_to_parts"
   ],
   "note": ""
  },
  {
   "property": "C32",
   "status": "proved",
   "theorems": [
    "inset_offsets",
    "inset_layer_parts"
   ],
   "note": ""
  },
  {
   "property": "C33",
   "status": "proved",
   "theorems": [
    "for_each_visits"
   ],
   "note": ""
  },
  {
   "property": "C34",
   "status": "proved",
   "theorems": [
    "infill_grid",
    "infill_grid_diverges",
    "infill_lines_on_grid"
   ],
   "note": "for a negative distance: no end before the coordinate leaves the int64 range"
  },
  {
   "property": "C35",
   "status": "proved",
   "theorems": [
    "infill_sorted",
    "infill_sorted_plain"
   ],
   "note": ""
  },
  {
   "property": "C36",
   "status": "proved",
   "theorems": [
    "shorten_line",
    "shorten_direction",
    "shorten_keeps_direction_refuted",
    "infill_lines_on_grid"
   ],
   "note": ""
  },
  {
   "property": "C37",
   "status": "proved",
   "theorems": [
    "fill_keeps_part",
    "fill_rotation"
   ],
   "note": ""
  },
  {
   "property": "C38",
   "status": "proved",
   "theorems": [
    "printer_in_step",
    "printer_position_close",
    "harmless_texts"
   ],
   "note": ""
  },
  {
   "property": "C39",
   "status": "proved",
   "theorems": [
    "polygon_moves",
    "polygon_fails_only_with_library",
    "empty_polygon"
   ],
   "note": ""
  },
  {
   "property": "C40",
   "status": "proved",
   "theorems": [
    "travel_retracts",
    "travel_without_crossing",
    "retraction_drift",
    "retraction_exact_refuted",
    "first_retraction_stays_refuted"
   ],
   "note": ""
  },
  {
   "property": "C41",
   "status": "proved",
   "theorems": [
    "settings_follow_calls",
    "move_speed",
    "speed_is_truncated",
    "speed_exact_refuted"
   ],
   "note": ""
  },
  {
   "property": "C42",
   "status": "proved",
   "theorems": [
    "extrusion_never_decreases",
    "extrusion_increases_refuted"
   ],
   "note": ""
  },
  {
   "property": "C43",
   "status": "proved",
   "theorems": [
    "command_verbatim",
    "doubled_percent_verbatim",
    "command_verbatim_refuted",
    "trailing_percent_swallows_move_refuted"
   ],
   "note": ""
  },
  {
   "property": "C44",
   "status": "proved",
   "theorems": [
    "generator_schedule",
    "generator_first_error",
    "generator_repeatable",
    "goslice_renderers_stateless"
   ],
   "note": ""
  },
  {
   "property": "C45",
   "status": "proved",
   "theorems": [
    "perimeter_prints",
    "inset_order",
    "insets_once"
   ],
   "note": ""
  },
  {
   "property": "C46",
   "status": "proved",
   "theorems": [
    "print_settings",
    "in_force_meaning",
    "wall_speeds",
    "walls_by_kind",
    "infill_at_outer_speed",
    "infill_at_layer_speed_refuted"
   ],
   "note": ""
  },
  {
   "property": "C47",
   "status": "proved",
   "theorems": [
    "first_layer_settings",
    "later_layer_settings",
    "print_settings"
   ],
   "note": ""
  },
  {
   "property": "C48",
   "status": "proved",
   "theorems": [
    "print_happens",
    "custom_heating",
    "safe_start_hot_end",
    "safe_start_bed",
    "safe_stop_hot_end",
    "safe_stop_bed",
    "forced_heating_refuted"
   ],
   "note": ""
  },
  {
   "property": "C49",
   "status": "proved",
   "theorems": [
    "print_happens",
    "layer_commands",
    "temperature_change",
    "no_bed_command_refuted"
   ],
   "note": ""
  },
  {
   "property": "C50",
   "status": "proved",
   "theorems": [
    "start_code_filled",
    "no_placeholder_left",
    "other_text_kept",
    "start_code_printed"
   ],
   "note": ""
  },
  {
   "property": "C64",
   "status": "proved",
   "theorems": [
    "print_in_step",
    "print_is_planned"
   ],
   "note": ""
  },
  {
   "property": "C65",
   "status": "proved",
   "theorems": [
    "layer_heights",
    "print_is_planned"
   ],
   "note": ""
  },
  {
   "property": "C66",
   "status": "proved",
   "theorems": [
    "print_succeeds"
   ],
   "note": ""
  },
  {
   "property": "C51",
   "status": "proved",
   "theorems": [
    "skirt_printed",
    "skirt_only_first_layer",
    "skirt_lines",
    "brim_disabled",
    "brim_only_first_layer",
    "brim_lines",
    "brim_without_layers_panics"
   ],
   "note": ""
  },
  {
   "property": "C52",
   "status": "proved",
   "theorems": [
    "modifiers_keep_layers"
   ],
   "note": ""
  },
  {
   "property": "C53",
   "status": "proved",
   "theorems": [
    "perimeter_structure",
    "no_insets_panics"
   ],
   "note": ""
  },
  {
   "property": "C54",
   "status": "proved",
   "theorems": [
    "solid_bottom",
    "solid_top",
    "solid_only_exposed",
    "solid_bottom_refuted"
   ],
   "note": ""
  },
  {
   "property": "C55",
   "status": "proved",
   "theorems": [
    "infill_partition"
   ],
   "note": ""
  },
  {
   "property": "C56",
   "status": "proved",
   "theorems": [
    "infill_partition",
    "infill_stops"
   ],
   "note": ""
  },
  {
   "property": "C67",
   "status": "proved",
   "theorems": [
    "print_inside_model"
   ],
   "note": ""
  },
  {
   "property": "C68",
   "status": "proved",
   "theorems": [
    "perimeters_and_infill_succeed"
   ],
   "note": ""
  },
  {
   "property": "C57",
   "status": "proved",
   "theorems": [
    "support_clear_of_model",
    "support_clear_of_model_refuted"
   ],
   "note": ""
  },
  {
   "property": "C58",
   "status": "proved",
   "theorems": [
    "support_comes_down",
    "support_column",
    "overhang_supported",
    "top_layers_untouched"
   ],
   "note": ""
  },
  {
   "property": "C59",
   "status": "proved",
   "theorems": [
    "support_interface",
    "no_interface_layers_is_all_interface"
   ],
   "note": ""
  },
  {
   "property": "C60",
   "status": "proved",
   "theorems": [
    "support_detection",
    "support_disabled"
   ],
   "note": ""
  },
  {
   "property": "C69",
   "status": "proved",
   "theorems": [
    "overhang_detected",
    "overhang_detected_refuted",
    "threshold_refuted"
   ],
   "note": ""
  },
  {
   "property": "C70",
   "status": "proved",
   "theorems": [
    "support_succeeds"
   ],
   "note": ""
  },
  {
   "property": "C61",
   "status": "proved",
   "theorems": [
    "process_calls",
    "process_result",
    "process_success",
    "process_writes_once"
   ],
   "note": ""
  },
  {
   "property": "C62",
   "status": "proved",
   "theorems": [
    "missing_file",
    "no_triangles_panic",
    "broken_file_not_reported"
   ],
   "note": ""
  },
  {
   "property": "C63",
   "status": "proved",
   "theorems": [
    "write_crash_points",
    "write_success",
    "write_create_fails",
    "write_works",
    "write_keeps_old_refuted"
   ],
   "note": ""
  },
  {
   "property": "C71",
   "status": "proved",
   "theorems": [
    "exit_zero",
    "exit_codes",
    "write_succeeds_iff"
   ],
   "note": ""
  },
  {
   "property": "C72",
   "status": "proved",
   "theorems": [
    "layer_parts_exact",
    "slicing_fails_only_without_polygons"
   ],
   "note": ""
  },
  {
   "property": "C73",
   "status": "proved",
   "theorems": [
    "met_model_sliced",
    "connected_model_sliced",
    "no_gaps",
    "melded_top_refuted"
   ],
   "note": ""
  },
  {
   "property": "C74",
   "status": "proved",
   "theorems": [
    "built_in_run"
   ],
   "note": ""
  },
  {
   "property": "C75",
   "status": "proved",
   "theorems": [
    "infill_distance",
    "infill_density",
    "infill_density_refuted",
    "infill_never_ends_refuted"
   ],
   "note": "The exact density is refuted for widths which do not divide 10 mm, and so is termination for widths above 10 mm."
  },
  {
   "property": "C76",
   "status": "proved",
   "theorems": [
    "fill_succeeds"
   ],
   "note": ""
  },
  {
   "property": "C77",
   "status": "proved",
   "theorems": [
    "met_run_succeeds",
    "run_succeeds"
   ],
   "note": ""
  },
  {
   "property": "C78",
   "status": "proved",
   "theorems": [
    "millimeter_option_exact",
    "millimeter_option_nearest",
    "millimeter_option_round_trip",
    "millimeter_option_round_trip_fine_refuted",
    "millimeter_option_finite_refuted",
    "millimeter_option_range",
    "millimeter_option_rejects",
    "millimeter_option_exponent",
    "millimeter_option_infinite"
   ],
   "note": ""
  },
  {
   "property": "C79",
   "status": "proved",
   "theorems": [
    "command_line_options",
    "command_line_accepted",
    "command_line_unambiguous",
    "flag_not_given",
    "defaults_given",
    "last_flag_wins",
    "switch_value_refuted"
   ],
   "note": ""
  },
  {
   "property": "C80",
   "status": "proved",
   "theorems": [
    "exit_bad_flags",
    "exit_version",
    "exit_no_input",
    "exit_process"
   ],
   "note": ""
  },
  {
   "property": "C81",
   "status": "proved",
   "theorems": [
    "run_prints_inside_model"
   ],
   "note": ""
  },
  {
   "property": "C82",
   "status": "proved",
   "theorems": [
    "run_layers"
   ],
   "note": ""
  },
  {
   "property": "C83",
   "status": "proved",
   "theorems": [
    "program_succeeds"
   ],
   "note": ""
  },
  {
   "property": "C84",
   "status": "proved",
   "theorems": [
    "crossing_exact",
    "retracts_exactly",
    "run_retracts"
   ],
   "note": ""
  },
  {
   "property": "C85",
   "status": "proved",
   "theorems": [
    "infill_lines_exact",
    "infill_lines_in_part"
   ],
   "note": ""
  },
  {
   "property": "C86",
   "status": "proved",
   "theorems": [
    "top_level_exact",
    "brim_surrounds",
    "skirt_surrounds",
    "skirt_around_brim",
    "brim_around_every_wall_refuted"
   ],
   "note": "That every piece of a split outer wall gets a brim is refuted."
  },
  {
   "property": "C87",
   "status": "proved",
   "theorems": [
    "export_read_again"
   ],
   "note": ""
  },
  {
   "property": "C88",
   "status": "proved",
   "theorems": [
    "line_filament",
    "print_filament",
    "line_extruded_refuted"
   ],
   "note": "That every line is extruded whatever was printed before is refuted."
  },
  {
   "property": "C89",
   "status": "proved",
   "theorems": [
    "part_filled",
    "print_fillings"
   ],
   "note": "part_filled: the lines of one part for any pattern; print_fillings: kinds, order, comments and lines of all filled areas of a layer. The clipping library is any one that cuts lines exactly (cuts_exactly) and never fails."
  },
  {
   "property": "C90",
   "status": "proved",
   "theorems": [
    "outlines_surround_solid",
    "model_outlines_surround_solid",
    "spread_unambiguous",
    "hit_is_ray"
   ],
   "note": "outlines_surround_solid: any closed surface; model_outlines_surround_solid: from the input model on; spread_unambiguous: a simple condition under which no segments are confused; hit_is_ray ties the crossing test of the specification to points of the triangle."
  },
  {
   "property": "C91",
   "status": "proved",
   "theorems": [
    "simplify_only_slivers",
    "layer_cross_section"
   ],
   "note": "simplify_only_slivers: one polygon; layer_cross_section: the parts the slicer returns, for every clipping library that is exact for the points considered."
  },
  {
   "property": "C92",
   "status": "proved",
   "theorems": [
    "switched_off",
    "switched_off_run"
   ],
   "note": ""
  },
  {
   "property": "C93",
   "status": "proved",
   "theorems": [
    "nozzle_path",
    "nozzle_path_both"
   ],
   "note": "The start and end lines contain no percent sign, as in C50."
  },
  {
   "property": "C94",
   "status": "proved",
   "theorems": [
    "repeated_faces",
    "repeated_faces_run"
   ],
   "note": "Example repeated_faces_ex: the corner with a repeated face in another order and a face with two equal points prints the same G-code."
  },
  {
   "property": "C95",
   "status": "proved",
   "theorems": [
    "position_in_file",
    "position_in_file_run",
    "position_in_file_close_refuted"
   ],
   "note": "position_in_file_ex is a run for a moved model; position_micrometer_ex shows that the micrometer can be lost; position_in_file_close_refuted shows that the distance between vertices is needed."
  },
  {
   "property": "C96",
   "status": "proved",
   "theorems": [
    "layer_depends_on_neighbours",
    "layer_of_run_local"
   ],
   "note": "Every library and setting; the run level theorem is for prints without support."
  },
  {
   "property": "C97",
   "status": "proved",
   "theorems": [
    "more_walls"
   ],
   "note": "Every library; the walls as stored for the renderer."
  },
  {
   "property": "C98",
   "status": "proved",
   "theorems": [
    "path_turned",
    "turn_and_back"
   ],
   "note": "Requires only that math.Sin and math.Cos are accurate to 2^-40 up to 32 radians; the conversion to radians is modelled."
  },
  {
   "property": "C99",
   "status": "proved",
   "theorems": [
    "infill_direction"
   ],
   "note": "Lines without zig-zag; with zig-zag the connecting lines have other directions, see part_filled (C89)."
  },
  {
   "property": "C100",
   "status": "proved",
   "theorems": [
    "optimizer_exact"
   ],
   "note": "Without the condition on the vertices see optimizer_melding (C17) and the refuted variants there."
  },
  {
   "property": "C101",
   "status": "proved",
   "theorems": [
    "model_printed",
    "goslice_file",
    "one_piece_no_gap"
   ],
   "note": "Bounds: coordinates up to 2^20 micrometers, center up to 2^19."
  },
  {
   "property": "C102",
   "status": "proved",
   "theorems": [
    "optimizer_identity",
    "printed_body"
   ],
   "note": "Uses C90 and C91 with their hypotheses derived from the faces of the file (S_Body.v)."
  },
  {
   "property": "C103",
   "status": "proved",
   "theorems": [
    "run_prints_body"
   ],
   "note": "Combines C102 with run_prints_inside_model (C81)."
  },
  {
   "property": "C104",
   "status": "proved",
   "theorems": [
    "face_order"
   ],
   "note": "The relation rearranged is in S_Body.v; the exceptions are those of C102 for the two runs."
  },
  {
   "property": "C105",
   "status": "proved",
   "theorems": [
    "open_faces_reported"
   ],
   "note": "The number is the second result of Optimize in the model; the code only logs it."
  },
  {
   "property": "C106",
   "status": "proved",
   "theorems": [
    "several_bodies",
    "overlap_printed_refuted"
   ],
   "note": "The clipping library is assumed exact as everywhere. The refutation is a theorem about a concrete file with two overlapping tetrahedra."
  },
  {
   "property": "C107",
   "status": "proved",
   "theorems": [
    "nozzle_stays_up"
   ],
   "note": "Custom start code and custom end code are not covered: the statement is about what lies between the first printed polygon and the end code. The first retraction of a print, before anything is printed, is the refuted case first_retraction_stays_refuted."
  },
  {
   "property": "C108",
   "status": "proved",
   "theorems": [
    "layer_executed"
   ],
   "note": "Joins C46, C47, C64 and C65 in one statement about the text of the G-code."
  },
  {
   "property": "C109",
   "status": "proved",
   "theorems": [
    "printed_body_within",
    "layer_parts_within",
    "plane_within"
   ],
   "note": "Weakens the hypothesis of C102 that the clipping library is exact. The library is assumed right at points further than e from its input (S_Round.clips_within); plane_within shows that a library working on squares of 1 um meets this with e = sqrt 2 for all real points."
  },
  {
   "property": "C110",
   "status": "proved",
   "theorems": [
    "model_printed_total",
    "run_total",
    "slicing_total",
    "modifiers_total",
    "goslice_prints_body"
   ],
   "note": "Removes the exactness hypothesis from C73, C77 and C101; the example uses a library that loses everything it is given."
  },
  {
   "property": "C111",
   "status": "proved",
   "theorems": [
    "support_from_above",
    "support_of_run_from_above"
   ],
   "note": "The lowest layer is only compared with a lowest one, because it has the brim."
  },
  {
   "property": "C112",
   "status": "proved",
   "theorems": [
    "more_time",
    "same_gcode",
    "runs_repeatable",
    "run_after_crash"
   ],
   "note": ""
  },
  {
   "property": "C113",
   "status": "proved",
   "theorems": [
    "simplify_anywhere",
    "outlines_follow_center",
    "layers_follow_center",
    "print_follows_center"
   ],
   "note": "The lines inside filled areas are not claimed: the pattern is turned about the origin."
  },
  {
   "property": "C114",
   "status": "proved",
   "theorems": [
    "skirt_options_local",
    "more_skirt",
    "fill_options_local"
   ],
   "note": ""
  },
  {
   "property": "C115",
   "status": "proved",
   "theorems": [
    "more_solid_layers",
    "more_solid_layers_refuted"
   ],
   "note": "For overlaps of 100 percent together; with the default overlap the claim is refuted."
  }
 ]
}
