#!/usr/bin/env python3
"""Writes MANIFEST.json."""
import json, os
C = []
def c(prop, status, theorems, note=""):
    C.append({"property": prop, "status": status, "theorems": theorems.split(), "note": note})

c("C01", "proved", "micrometer_round_trip micrometer_round_trip_unbounded_refuted", "the bound 8192010 um is sharp")
c("C02", "proved", "printed_coordinate_close")
c("C03", "proved", "point_size_floor vec3_size_floor point_shorter_exact vec3_shorter_exact")
c("C04", "proved", "vector_add_sub vector_mul_div vector_exact vector_max")
c("C05", "proved", "perpendicular_distance_exact perpendicular_distance_degenerate perpendicular_distance_upper perpendicular_distance_exact_refuted")
c("C06", "proved", "douglas_peucker_near douglas_peucker_default_near douglas_peucker_selection douglas_peucker_collapse douglas_peucker_near_refuted", "the unbounded claim is refuted by a 60 mm spike")
c("C07", "proved", "douglas_peucker_heap douglas_peucker_preserves_input_refuted")
c("C08", "proved", "simplify_selection simplify_small_paths simplify_rules simplify_rules_wide simplify_near_refuted")
c("C09", "proved", "path_bounds_tight paths_bounds_tight layer_bounds_tight bounds_empty")
c("C10", "proved", "micrometer_option_round_trip micrometer_option_range micrometer_option_plain micrometer_option_rejected micrometer_option_atomic_refuted")
c("C11", "proved", "microvec3_option_round_trip microvec3_option_atomic microvec3_option_accepts")
c("C12", "proved", "fan_option_accepts fan_option_complete fan_option_atomic")
c("C13", "proved", "fan_option_round_trip fan_option_empty_refuted")
c("C14", "proved", "hunk_option_accepts hunk_option_rejects hunk_option_round_trip hunk_option_short_refuted")
c("C15", "proved", "hunk_contains_codes hunk_contains_only_commands_refuted hunk_instruction_codes hunk_instruction_codes_blank")
c("C16", "proved", "model_bounds_tight model_bounds_no_faces stl_coordinate_close")
c("C17", "proved", "optimizer_melding optimizer_total optimizer_panics")
c("C18", "proved", "optimizer_melding")
c("C19", "proved", "optimizer_faces_proper optimizer_incidence")
c("C20", "proved", "optimizer_touching optimizer_touching_pair optimizer_open_count")
c("C21", "proved", "optimizer_placement")
c("C22", "proved", "optimizer_separation optimizer_melds_all_near_refuted")
c("C23", "proved", "slicing_layers slicing_panics slicing_zero_thickness_panics optimized_sliceable slicing_raised_refuted", "the raised model is refuted by a witness")
c("C24", "proved", "face_cut_exactly one_segment_per_crossed_face slicing_layers")
c("C25", "proved", "segment_on_edges slicing_layers")
c("C26", "proved", "neighbours_meet")
c("C27", "proved", "polygons_total polygons_exact")
c("C28", "proved", "polygons_closed_long")
c("C29", "proved", "polygons_bridged")
c("C30", "proved", "closed_surface_closed_outlines closed_model_closed_outlines")
c("C31", "proved", "tree_to_parts")
c("C32", "proved", "inset_offsets inset_layer_parts")
c("C33", "proved", "for_each_visits")
c("C34", "proved", "infill_grid infill_grid_diverges infill_lines_on_grid", "for a negative distance: no end before the coordinate leaves the int64 range")
c("C35", "proved", "infill_sorted infill_sorted_plain")
c("C36", "proved", "shorten_line shorten_direction shorten_keeps_direction_refuted infill_lines_on_grid")
c("C37", "proved", "fill_keeps_part fill_rotation")
c("C38", "proved", "printer_in_step printer_position_close harmless_texts")
c("C39", "proved", "polygon_moves polygon_fails_only_with_library empty_polygon")
c("C40", "proved", "travel_retracts travel_without_crossing retraction_drift retraction_exact_refuted first_retraction_stays_refuted")
c("C41", "proved", "settings_follow_calls move_speed speed_is_truncated speed_exact_refuted")
c("C42", "proved", "extrusion_never_decreases extrusion_increases_refuted")
c("C43", "proved", "command_verbatim doubled_percent_verbatim command_verbatim_refuted trailing_percent_swallows_move_refuted")
c("C44", "proved", "generator_schedule generator_first_error generator_repeatable goslice_renderers_stateless")
c("C45", "proved", "perimeter_prints inset_order insets_once")
c("C46", "proved", "print_settings in_force_meaning wall_speeds walls_by_kind infill_at_outer_speed infill_at_layer_speed_refuted")
c("C47", "proved", "first_layer_settings later_layer_settings print_settings")
c("C48", "proved", "print_happens custom_heating safe_start_hot_end safe_start_bed safe_stop_hot_end safe_stop_bed forced_heating_refuted")
c("C49", "proved", "print_happens layer_commands temperature_change no_bed_command_refuted")
c("C50", "proved", "start_code_filled no_placeholder_left other_text_kept start_code_printed")
c("C64", "proved", "print_in_step print_is_planned")
c("C65", "proved", "layer_heights print_is_planned")
c("C66", "proved", "print_succeeds")

c("C51","proved","skirt_printed skirt_only_first_layer skirt_lines brim_disabled brim_only_first_layer brim_lines brim_without_layers_panics")
c("C52","proved","modifiers_keep_layers")
c("C53","proved","perimeter_structure no_insets_panics")
c("C54","proved","solid_bottom solid_top solid_only_exposed solid_bottom_refuted")
c("C55","proved","infill_partition")
c("C56","proved","infill_partition infill_stops")
c("C67","proved","print_inside_model")
c("C68","proved","perimeters_and_infill_succeed")

c("C57","proved","support_clear_of_model support_clear_of_model_refuted")
c("C58","proved","support_comes_down support_column overhang_supported top_layers_untouched")
c("C59","proved","support_interface no_interface_layers_is_all_interface")
c("C60","proved","support_detection support_disabled")
c("C69","proved","overhang_detected overhang_detected_refuted threshold_refuted")
c("C70","proved","support_succeeds")

c("C61","proved","process_calls process_result process_success process_writes_once")
c("C62","proved","missing_file no_triangles_panic broken_file_not_reported")
c("C63","proved","write_crash_points write_success write_create_fails write_works write_keeps_old_refuted")
c("C71","proved","exit_zero exit_codes write_succeeds_iff")

c("C72","proved","layer_parts_exact slicing_fails_only_without_polygons")
c("C73","proved","met_model_sliced connected_model_sliced no_gaps melded_top_refuted")
c("C74","proved","built_in_run")
c("C75","proved","infill_distance infill_density infill_density_refuted infill_never_ends_refuted","The exact density is refuted for widths which do not divide 10 mm, and so is termination for widths above 10 mm.")
c("C76","proved","fill_succeeds")
c("C77","proved","met_run_succeeds run_succeeds")
c("C78","proved","millimeter_option_exact millimeter_option_nearest millimeter_option_round_trip millimeter_option_round_trip_fine_refuted millimeter_option_finite_refuted millimeter_option_range millimeter_option_rejects millimeter_option_exponent millimeter_option_infinite")
c("C79","proved","command_line_options command_line_accepted command_line_unambiguous flag_not_given defaults_given last_flag_wins switch_value_refuted")
c("C80","proved","exit_bad_flags exit_version exit_no_input exit_process")

c("C81","proved","run_prints_inside_model")
c("C82","proved","run_layers")
c("C83","proved","program_succeeds")
c("C84","proved","crossing_exact retracts_exactly run_retracts")
c("C85","proved","infill_lines_exact infill_lines_in_part")
c("C86","proved","top_level_exact brim_surrounds skirt_surrounds skirt_around_brim brim_around_every_wall_refuted","That every piece of a split outer wall gets a brim is refuted.")
c("C87","proved","export_read_again")
c("C88","proved","line_filament print_filament line_extruded_refuted","That every line is extruded whatever was printed before is refuted.")
c("C89","proved","part_filled print_fillings","part_filled: the lines of one part for any pattern; print_fillings: kinds, order, comments and lines of all filled areas of a layer. The clipping library is any one that cuts lines exactly (cuts_exactly) and never fails.")

c("C90","proved","outlines_surround_solid model_outlines_surround_solid spread_unambiguous hit_is_ray","outlines_surround_solid: any closed surface; model_outlines_surround_solid: from the input model on; spread_unambiguous: a simple condition under which no segments are confused; hit_is_ray ties the crossing test of the specification to points of the triangle.")
c("C91","proved","simplify_only_slivers layer_cross_section","simplify_only_slivers: one polygon; layer_cross_section: the parts the slicer returns, for every clipping library that is exact for the points considered.")
c("C92","proved","switched_off switched_off_run")
c("C93","proved","nozzle_path nozzle_path_both","The start and end lines contain no percent sign, as in C50.")
c("C94","proved","repeated_faces repeated_faces_run","Example repeated_faces_ex: the corner with a repeated face in another order and a face with two equal points prints the same G-code.")
c("C95","proved","position_in_file position_in_file_run position_in_file_close_refuted","position_in_file_ex is a run for a moved model; position_micrometer_ex shows that the micrometer can be lost; position_in_file_close_refuted shows that the distance between vertices is needed.")

c("C96","proved","layer_depends_on_neighbours layer_of_run_local","Every library and setting; the run level theorem is for prints without support.")
c("C97","proved","more_walls","Every library; the walls as stored for the renderer.")
c("C98","proved","path_turned turn_and_back","Requires only that math.Sin and math.Cos are accurate to 2^-40 up to 32 radians; the conversion to radians is modelled.")
c("C99","proved","infill_direction","Lines without zig-zag; with zig-zag the connecting lines have other directions, see part_filled (C89).")
c("C100","proved","optimizer_exact","Without the condition on the vertices see optimizer_melding (C17) and the refuted variants there.")
c("C101","proved","model_printed goslice_file one_piece_no_gap","Bounds: coordinates up to 2^20 micrometers, center up to 2^19.")
c("C102","proved","optimizer_identity printed_body","Uses C90 and C91 with their hypotheses derived from the faces of the file (S_Body.v).")
c("C103","proved","run_prints_body","Combines C102 with run_prints_inside_model (C81).")
c("C104","proved","face_order","The relation rearranged is in S_Body.v; the exceptions are those of C102 for the two runs.")
c("C105","proved","open_faces_reported","The number is the second result of Optimize in the model; the code only logs it.")
c("C106","proved","several_bodies overlap_printed_refuted","The clipping library is assumed exact as everywhere. The refutation is a theorem about a concrete file with two overlapping tetrahedra.")
c("C107","proved","nozzle_stays_up","Custom start code and custom end code are not covered: the statement is about what lies between the first printed polygon and the end code. The first retraction of a print, before anything is printed, is the refuted case first_retraction_stays_refuted.")
c("C108","proved","layer_executed","Joins C46, C47, C64 and C65 in one statement about the text of the G-code.")
c("C109","proved","printed_body_within layer_parts_within plane_within","Weakens the hypothesis of C102 that the clipping library is exact. The library is assumed right at points further than e from its input (S_Round.clips_within); plane_within shows that a library working on squares of 1 um meets this with e = sqrt 2 for all real points.")
c("C110","proved","model_printed_total run_total slicing_total modifiers_total goslice_prints_body","Removes the exactness hypothesis from C73, C77 and C101; the example uses a library that loses everything it is given.")
c("C111","proved","support_from_above support_of_run_from_above","The lowest layer is only compared with a lowest one, because it has the brim.")
c("C112","proved","more_time same_gcode runs_repeatable run_after_crash","")
c("C113","proved","simplify_anywhere outlines_follow_center layers_follow_center print_follows_center","The lines inside filled areas are not claimed: the pattern is turned about the origin.")
c("C114","proved","skirt_options_local more_skirt fill_options_local","")
c("C115","proved","more_solid_layers more_solid_layers_refuted","For overlaps of 100 percent together; with the default overlap the claim is refuted.")
here = os.path.dirname(os.path.abspath(__file__))
with open(os.path.join(here, "..", "MANIFEST.json"), "w") as f:
    json.dump({"claims": C}, f, indent=1)
    f.write("\n")
