{
 "claims": [
  {
   "property": "C01",
   "status": "proved",
   "theorems": [
    "C01_diff_applied_gives_new",
    "C01_diff_after_resize"
   ],
   "note": ""
  },
  {
   "property": "C02",
   "status": "proved",
   "theorems": [
    "C02_diff_minimal",
    "C02_has_changes",
    "C02_resized_repaints_nonblank"
   ],
   "note": ""
  },
  {
   "property": "C03",
   "status": "proved",
   "theorems": [
    "C03_screen_shows_last_frame"
   ],
   "note": ""
  },
  {
   "property": "C04",
   "status": "proved",
   "theorems": [
    "C04_styles_uniform"
   ],
   "note": ""
  },
  {
   "property": "C05",
   "status": "proved",
   "theorems": [
    "C05_rerender_writes_nothing"
   ],
   "note": ""
  },
  {
   "property": "C06",
   "status": "proved",
   "theorems": [
    "C06_get_set",
    "C06_new_clear_fill",
    "C06_resize_keeps_overlap",
    "C06_wf",
    "C06_set_string",
    "C06_set_line"
   ],
   "note": ""
  },
  {
   "property": "C07",
   "status": "proved",
   "theorems": [
    "C07_to_ansi_faithful",
    "C07_to_ansi_injective"
   ],
   "note": ""
  },
  {
   "property": "C08",
   "status": "proved",
   "theorems": [
    "C08_decoder_is_exactly_the_table"
   ],
   "note": ""
  },
  {
   "property": "C09",
   "status": "proved",
   "theorems": [
    "C09_chunking_irrelevant",
    "C09_text_delivered_exactly"
   ],
   "note": ""
  },
  {
   "property": "C10",
   "status": "proved",
   "theorems": [
    "C10_csi_keys_delivered"
   ],
   "note": ""
  },
  {
   "property": "C11",
   "status": "proved",
   "theorems": [
    "C11_region_shows_last_view"
   ],
   "note": ""
  },
  {
   "property": "C12",
   "status": "proved",
   "theorems": [
    "C12_truncate_is_cut",
    "C12_measured_width",
    "C12_width_bound",
    "C12_cut_position",
    "C12_character_widths"
   ],
   "note": ""
  },
  {
   "property": "C13",
   "status": "proved",
   "theorems": [
    "C13_fifo",
    "C13_update_each_once_in_order",
    "C13_none_lost",
    "C13_batch_members_in_order"
   ],
   "note": ""
  },
  {
   "property": "C14",
   "status": "proved",
   "theorems": [
    "C14_loop_progress",
    "C14_loop_drains"
   ],
   "note": ""
  },
  {
   "property": "C15",
   "status": "proved",
   "theorems": [
    "C15_quit_message_stops",
    "C15_quit_call_stops_idle_loop"
   ],
   "note": ""
  },
  {
   "property": "C16",
   "status": "proved",
   "theorems": [
    "C16_single_loop"
   ],
   "note": ""
  },
  {
   "property": "C17",
   "status": "proved",
   "theorems": [
    "C17_end_restores_modes",
    "C17_failed_run_restores_modes",
    "C17_failed_start_restores_modes",
    "C17_normal_whenever_stopped"
   ],
   "note": ""
  },
  {
   "property": "C18",
   "status": "proved",
   "theorems": [
    "C18_suspend_resume_inverse",
    "C18_cursor_shown_while_suspended",
    "C18_idempotent",
    "C18_failed_suspend"
   ],
   "note": ""
  },
  {
   "property": "C19",
   "status": "proved",
   "theorems": [
    "C19_combine",
    "C19_batch_each_once",
    "C19_batch_progress",
    "C19_sequence_in_order"
   ],
   "note": ""
  },
  {
   "property": "C20",
   "status": "proved",
   "theorems": [
    "C20_public_roundtrip",
    "C20_internal_roundtrip",
    "C20_sides",
    "C20_same_contents",
    "C20_commands"
   ],
   "note": ""
  },
  {
   "property": "C21",
   "status": "proved",
   "theorems": [
    "C21_set_cursor_position",
    "C21_move_cursor_to_end",
    "C21_cursor_always_in_text",
    "C21_validity_is_invariant",
    "C21_lines_are_the_lines_of_value",
    "C21_set_value_reads_back"
   ],
   "note": ""
  },
  {
   "property": "C22",
   "status": "proved",
   "theorems": [
    "C22_text_is_before_and_after",
    "C22_document_determines_state",
    "C22_typing_inserts_at_cursor",
    "C22_space_inserts_at_cursor",
    "C22_enter_splits_line",
    "C22_backspace_removes_one_before",
    "C22_delete_removes_one_after",
    "C22_backspace_undoes_typing",
    "C22_content_parts_are_the_line"
   ],
   "note": ""
  },
  {
   "property": "C23",
   "status": "proved",
   "theorems": [
    "C23_kill_word_backward_and_yank",
    "C23_kill_line_text",
    "C23_kill_word_text"
   ],
   "note": ""
  },
  {
   "property": "C24",
   "status": "proved",
   "theorems": [
    "C24_ring_holds_last_kills",
    "C24_ring_never_exceeds_capacity",
    "C24_latest_kill_is_yanked",
    "C24_pop_reaches_every_kill",
    "C24_choice_is_valid_after_a_kill"
   ],
   "note": ""
  },
  {
   "property": "C25",
   "status": "proved",
   "theorems": [
    "C25_options_take_effect",
    "C25_read_only_blocks_all_keys",
    "C25_max_lines_kept_except_yank"
   ],
   "note": ""
  },
  {
   "property": "C26",
   "status": "proved",
   "theorems": [
    "C26_emacs_control_keys",
    "C26_alt_keys",
    "C26_unbound_combinations",
    "C26_word_characters",
    "C26_motion_keys_keep_text",
    "C26_left_one_character",
    "C26_right_one_character",
    "C26_left_right_inverse",
    "C26_up_down_clamp_column",
    "C26_line_and_buffer_ends",
    "C26_forward_word",
    "C26_backward_word",
    "C26_cursor_visible_after_motion",
    "C26_visibility_kept_by_motions"
   ],
   "note": ""
  },
  {
   "property": "C27",
   "status": "proved",
   "theorems": [
    "C27_movement_keys",
    "C27_select_all_and_clear",
    "C27_other_keys_ignored",
    "C27_calls",
    "C27_content_keeps_selection",
    "C27_cursor_and_selection_valid",
    "C27_unfocused_ignores_keys",
    "C27_clusters_partition_content"
   ],
   "note": ""
  },
  {
   "property": "C28",
   "status": "proved",
   "theorems": [
    "C28_deleting_a_selection",
    "C28_space_key",
    "C28_content_is_before_and_after",
    "C28_content_parts_concatenate",
    "C28_typing_inserts_at_cursor",
    "C28_typing_replaces_selection",
    "C28_backspace_removes_one_cluster",
    "C28_delete_removes_one_cluster"
   ],
   "note": ""
  },
  {
   "property": "C29",
   "status": "proved",
   "theorems": [
    "C29_offset_always_valid",
    "C29_visible_is_the_slice",
    "C29_never_fails",
    "C29_view_shows_the_text"
   ],
   "note": ""
  },
  {
   "property": "C30",
   "status": "proved",
   "theorems": [
    "C30_wrap_loses_nothing",
    "C30_wrap_segments_fit",
    "C30_wrap_is_greedy",
    "C30_follow_shows_last_line",
    "C30_follow_stays_at_bottom"
   ],
   "note": ""
  },
  {
   "property": "C31",
   "status": "proved",
   "theorems": [
    "C31_focus_exists_and_is_visible",
    "C31_view_draws_the_window",
    "C31_window_centred_on_focus",
    "C31_view_rows"
   ],
   "note": ""
  },
  {
   "property": "C32",
   "status": "proved",
   "theorems": [
    "C32_filtering_exact",
    "C32_typing_without_filter",
    "C32_selection_valid",
    "C32_toggle_changes_focused_only",
    "C32_select_all_and_clear",
    "C32_selected_items_exact",
    "C32_default_filter"
   ],
   "note": ""
  },
  {
   "property": "C33",
   "status": "proved",
   "theorems": [
    "C33_selection_always_valid"
   ],
   "note": ""
  },
  {
   "property": "C34",
   "status": "proved",
   "theorems": [
    "C34_sort_is_stable_sorted_permutation",
    "C34_clear_restores_order",
    "C34_unsortable_ignored",
    "C34_contract_determines_result",
    "C34_contract_satisfiable",
    "C34_direction_and_position"
   ],
   "note": "sort.SliceStable enters through its documented contract (permutation; stable sorted result for strict weak orders), which is shown to be satisfiable and to determine the result."
  },
  {
   "property": "C35",
   "status": "proved",
   "theorems": [
    "C35_cursor_valid",
    "C35_window",
    "C35_enter_confirms_focused",
    "C35_only_enter_selects",
    "C35_only_enter_confirms",
    "C35_movement_keys",
    "C35_calls",
    "C35_other_keys_ignored",
    "C35_view",
    "C35_default_render"
   ],
   "note": ""
  },
  {
   "property": "C36",
   "status": "proved",
   "theorems": [
    "C36_never_more_than_max",
    "C36_confirm_needs_min",
    "C36_space_toggles_focused_only",
    "C36_filtering_keeps_selection",
    "C36_all_and_none",
    "C36_movement_keys",
    "C36_calls",
    "C36_preselection",
    "C36_all_fills_up",
    "C36_none_keeps_the_rest",
    "C36_limits_keep_selection",
    "C36_selected_values",
    "C36_view",
    "C36_default_render"
   ],
   "note": ""
  },
  {
   "property": "C37",
   "status": "proved",
   "theorems": [
    "C37_focus_on_existing_field",
    "C37_tab_cycles",
    "C37_submit_iff_valid",
    "C37_only_enter_submits",
    "C37_submitted_by_enter",
    "C37_keys_reach_focused_field_only",
    "C37_leaving_touches",
    "C37_adding_a_field",
    "C37_messages_reach_focused_field_only",
    "C37_other_keys",
    "C37_values_and_errors_by_name",
    "C37_dirty"
   ],
   "note": ""
  },
  {
   "property": "C38",
   "status": "proved",
   "theorems": [
    "C38_focus_on_existing_button",
    "C38_focus_moves_round",
    "C38_answers",
    "C38_default_is_no",
    "C38_answer_is_final",
    "C38_queries",
    "C38_calls",
    "C38_enter",
    "C38_shortcuts",
    "C38_other_keys"
   ],
   "note": ""
  },
  {
   "property": "C39",
   "status": "proved",
   "theorems": [
    "C39_centred",
    "C39_focus_on_existing_button",
    "C39_keys",
    "C39_tab_cycles",
    "C39_hidden_ignores",
    "C39_bindings",
    "C39_messages_keep_the_rest",
    "C39_calls",
    "C39_new",
    "C39_focused_action"
   ],
   "note": ""
  },
  {
   "property": "C40",
   "status": "proved",
   "theorems": [
    "C40_percentage_in_range",
    "C40_updates",
    "C40_bar_geometry",
    "C40_calls",
    "C40_new",
    "C40_percent_text"
   ],
   "note": ""
  },
  {
   "property": "C41",
   "status": "proved",
   "theorems": [
    "C41_sgr_press_release_wheel",
    "C41_sgr_roundtrip"
   ],
   "note": ""
  },
  {
   "property": "C42",
   "status": "proved",
   "theorems": [
    "C42_click_counts",
    "C42_reset"
   ],
   "note": ""
  },
  {
   "property": "C43",
   "status": "proved",
   "theorems": [
    "C43_drag_while_held",
    "C43_no_drag_otherwise"
   ],
   "note": ""
  },
  {
   "property": "C44",
   "status": "proved",
   "theorems": [
    "C44_menu_on_screen"
   ],
   "note": ""
  },
  {
   "property": "C45",
   "status": "proved",
   "theorems": [
    "C45_main_axis",
    "C45_modes"
   ],
   "note": ""
  },
  {
   "property": "C46",
   "status": "proved",
   "theorems": [
    "C46_cross_axis",
    "C46_box_alignment"
   ],
   "note": ""
  },
  {
   "property": "C47",
   "status": "proved",
   "theorems": [
    "C47_constrain",
    "C47_bounds_checked"
   ],
   "note": ""
  },
  {
   "property": "C48",
   "status": "proved",
   "theorems": [
    "C48_measured_is_rendered"
   ],
   "note": ""
  },
  {
   "property": "C49",
   "status": "proved",
   "theorems": [
    "C49_sixteen_nearest",
    "C49_cube_nearest",
    "C49_codes_in_range"
   ],
   "note": ""
  },
  {
   "property": "C50",
   "status": "proved",
   "theorems": [
    "C50_spacing",
    "C50_border",
    "C50_size",
    "C50_margin",
    "C50_nonempty"
   ],
   "note": ""
  },
  {
   "property": "C51",
   "status": "proved",
   "theorems": [
    "C51_rendered_size",
    "C51_line",
    "C51_cut",
    "C51_box",
    "C51_cut_prefix"
   ],
   "note": ""
  },
  {
   "property": "C52",
   "status": "proved",
   "theorems": [
    "C52_roundtrip",
    "C52_parse"
   ],
   "note": ""
  },
  {
   "property": "C53",
   "status": "proved",
   "theorems": [
    "C53_newest_kept",
    "C53_steps"
   ],
   "note": ""
  },
  {
   "property": "C54",
   "status": "proved",
   "theorems": [
    "C54_intact",
    "C54_injective"
   ],
   "note": ""
  },
  {
   "property": "C55",
   "status": "proved",
   "theorems": [
    "C55_html"
   ],
   "note": ""
  },
  {
   "property": "C56",
   "status": "proved",
   "theorems": [
    "C56_exactly",
    "C56_style"
   ],
   "note": ""
  },
  {
   "property": "C57",
   "status": "proved",
   "theorems": [
    "C57_write",
    "C57_read",
    "C57_recorded"
   ],
   "note": ""
  },
  {
   "property": "C58",
   "status": "proved",
   "theorems": [
    "C58_clear_lines",
    "C58_non_positive_noop",
    "C58_relative_moves",
    "C58_write_at",
    "C58_clear",
    "C58_clear_from_cursor",
    "C58_always_ready"
   ],
   "note": ""
  },
  {
   "property": "C59",
   "status": "proved",
   "theorems": [
    "C59_documented_names",
    "C59_modifiers",
    "C59_key_names_unambiguous"
   ],
   "note": ""
  },
  {
   "property": "C60",
   "status": "proved",
   "theorems": [
    "C60_exec_isolated",
    "C60_exec_working_device"
   ],
   "note": ""
  },
  {
   "property": "C61",
   "status": "proved",
   "theorems": [
    "C61_accepted_or_reported",
    "C61_backspace_reports",
    "C61_validator_guards_motions",
    "C61_validator_guards_backspace",
    "C61_home_goes_to_first_allowed_column"
   ],
   "note": ""
  },
  {
   "property": "C62",
   "status": "proved",
   "theorems": [
    "C62_visible_lines_are_the_window",
    "C62_cursor_line_is_visible",
    "C62_cursor_visible_after_edit"
   ],
   "note": ""
  },
  {
   "property": "C63",
   "status": "proved",
   "theorems": [
    "C63_view_total",
    "C63_view_is_window_at_cursor"
   ],
   "note": ""
  },
  {
   "property": "C64",
   "status": "proved",
   "theorems": [
    "C64_not_empty",
    "C64_errors",
    "C64_chain_accepts_iff_all",
    "C64_chain_reports_first_error",
    "C64_range_is_min_and_max"
   ],
   "note": ""
  },
  {
   "property": "C65",
   "status": "proved",
   "theorems": [
    "C65_keys_scroll",
    "C65_other_keys_ignored",
    "C65_wheel_scrolls",
    "C65_wheel_amount",
    "C65_settings",
    "C65_drag_scrolls",
    "C65_mouse_off",
    "C65_calls",
    "C65_follow_mode",
    "C65_no_drag_no_scroll",
    "C65_queries"
   ],
   "note": ""
  },
  {
   "property": "C66",
   "status": "proved",
   "theorems": [
    "C66_navigation_keys",
    "C66_empty_list_inert",
    "C66_only_q_and_ctrl_c_quit",
    "C66_calls",
    "C66_other_keys_ignored",
    "C66_quit_keeps_the_list"
   ],
   "note": ""
  },
  {
   "property": "C67",
   "status": "proved",
   "theorems": [
    "C67_typed_character_filters"
   ],
   "note": ""
  },
  {
   "property": "C68",
   "status": "partial",
   "theorems": [
    "C68_filter_replacement_refuted"
   ],
   "note": "Violated: WithFilter does not reset the focus (refuted); proved: never a crash, repaired by the next query. The scoped claim that holds is C290."
  },
  {
   "property": "C69",
   "status": "proved",
   "theorems": [
    "C69_navigation_keys",
    "C69_calls",
    "C69_other_keys",
    "C69_settings",
    "C69_keys_keep_the_rest"
   ],
   "note": ""
  },
  {
   "property": "C70",
   "status": "proved",
   "theorems": [
    "C70_cell_contents",
    "C70_view_rectangular",
    "C70_view_shows_the_rows"
   ],
   "note": ""
  },
  {
   "property": "C71",
   "status": "partial",
   "theorems": [
    "C71_resize_hides_selection_refuted",
    "C71_zero_height_crashes_refuted"
   ],
   "note": "Violated: Proved when sizes are changed only while the first row is selected; Height/ShowHeader do not rescroll and height 0 with a header panics (refuted). The scoped claim that holds is C260."
  },
  {
   "property": "C72",
   "status": "partial",
   "theorems": [
    "C72_ascii_cells_have_their_width_partial",
    "C72_sort_marker_misaligns_refuted",
    "C72_view_too_tall_and_overwrites_refuted"
   ],
   "note": "Violated: widths count bytes: proved for ASCII cells; the sort marker and any non-ASCII text misalign, the header costs two lines but one is deducted, and the mark overwrites the first character (refuted)."
  },
  {
   "property": "C73",
   "status": "partial",
   "theorems": [
    "C73_mixed_types_cyclic_refuted"
   ],
   "note": "Violated: comparison through formatted strings is cyclic for mixed types; always a permutation (proved). The scoped claim that holds is C291."
  },
  {
   "property": "C74",
   "status": "partial",
   "theorems": [
    "C74_disabled_option_confirmed_refuted",
    "C74_disabled_option_toggled_refuted"
   ],
   "note": "Violated: the disabled flag is only rendered (refuted for Select and MultiSelect)."
  },
  {
   "property": "C75",
   "status": "proved",
   "theorems": [
    "C75_typing_narrows",
    "C75_backspace",
    "C75_query_shows_matching",
    "C75_off_by_default",
    "C75_multiselect_query",
    "C75_multiselect_off_by_default",
    "C75_multiselect_typing"
   ],
   "note": ""
  },
  {
   "property": "C76",
   "status": "partial",
   "theorems": [
    "C76_no_input_yields_the_quit_key_refuted",
    "C76_ctrl_c_types_c_refuted"
   ],
   "note": "Violated: The components quit exactly on KeyCtrlC (proved), but the input parser never yields that key for any input (proved): refuted. The scoped claim that holds is C261."
  },
  {
   "property": "C77",
   "status": "proved",
   "theorems": [
    "C77_values_match_count"
   ],
   "note": ""
  },
  {
   "property": "C78",
   "status": "partial",
   "theorems": [
    "C78_required_select_skipped_refuted",
    "C78_same_name_refuted"
   ],
   "note": "Violated: Proved: at a submission every field whose name has a value passes on the value stored under its name; refuted for selects without a selection (skipped) and for fields sharing a name. The scoped claim that holds is C262."
  },
  {
   "property": "C79",
   "status": "proved",
   "theorems": [
    "C79_lengths_ascii",
    "C79_lengths_one_sided",
    "C79_required",
    "C79_lengths_need_text",
    "C79_length_messages"
   ],
   "note": ""
  },
  {
   "property": "C80",
   "status": "partial",
   "theorems": [
    "C80_no_shifted_key_refuted",
    "C80_shift_tab_swallowed_refuted"
   ],
   "note": "Violated: no input is ever delivered as a shifted key (proved for all inputs), ESC [ Z is swallowed."
  },
  {
   "property": "C81",
   "status": "proved",
   "theorems": [
    "C81_append_keeps_others",
    "C81_after_copy_independent"
   ],
   "note": ""
  },
  {
   "property": "C82",
   "status": "proved",
   "theorems": [
    "C82_custom_labels"
   ],
   "note": ""
  },
  {
   "property": "C83",
   "status": "partial",
   "theorems": [
    "C83_ctrl_c_ignored_refuted",
    "C83_ctrl_y_answers_yes_refuted",
    "C83_key_ctrl_c_cancels_partial"
   ],
   "note": "Violated: the component cancels on KeyCtrlC (proved), which input never yields; byte 3 is ignored and Ctrl-Y answers Yes (refuted)."
  },
  {
   "property": "C84",
   "status": "proved",
   "theorems": [
    "C84_resize_while_shown"
   ],
   "note": ""
  },
  {
   "property": "C85",
   "status": "proved",
   "theorems": [
    "C85_rows_inside",
    "C85_dimmed_background",
    "C85_box",
    "C85_hidden"
   ],
   "note": ""
  },
  {
   "property": "C86",
   "status": "partial",
   "theorems": [
    "C86_increment_overflows_refuted"
   ],
   "note": "Violated: int64 wrap-around at extreme deltas refutes it; proved for all deltas not within 807 of the int limits. The scoped claim that holds is C292."
  },
  {
   "property": "C87",
   "status": "proved",
   "theorems": [
    "C87_style_always_good",
    "C87_spinner_cycles",
    "C87_label_and_view",
    "C87_named",
    "C87_known_names"
   ],
   "note": ""
  },
  {
   "property": "C88",
   "status": "partial",
   "theorems": [
    "C88_custom_frames_ignored_refuted"
   ],
   "note": "Violated: both arguments are ignored."
  },
  {
   "property": "C89",
   "status": "partial",
   "theorems": [
    "C89_ticks_multiply_refuted"
   ],
   "note": "Violated: proved for one spinner; for k spinners the number of pending ticks after n ticks is k + n(k-1) (refuted). The scoped claim that holds is C293."
  },
  {
   "property": "C90",
   "status": "partial",
   "theorems": [
    "C90_parse_sequence_never_drags_refuted",
    "C90_motion_position_partial"
   ],
   "note": "Violated: the SGR decoder has no motion case: motion reports become presses of no button, which restart the drag at the new position; proved that no byte stream ever produces a Drag or Motion event and that every release is a click."
  },
  {
   "property": "C91",
   "status": "partial",
   "theorems": [
    "C91_x10_release_is_press_refuted"
   ],
   "note": "Violated: for releases (always reported as presses of no button); presses and wheel up to column/row 222 proved. The scoped claim that holds is C263."
  },
  {
   "property": "C92",
   "status": "partial",
   "theorems": [
    "C92_urxvt_buttons_lost_refuted"
   ],
   "note": "Violated: urxvt adds 32 to the code, the decoder does not subtract it, so every button and wheel event becomes a press of no button; positions and modifiers are right. The scoped claim that holds is C264."
  },
  {
   "property": "C93",
   "status": "partial",
   "theorems": [
    "C93_x10_encoder_wraps_refuted"
   ],
   "note": "Violated: beyond column 222 (byte conversion wraps); proved up to 222. The scoped claim that holds is C265."
  },
  {
   "property": "C94",
   "status": "partial",
   "theorems": [
    "C94_drag_back_clicks_refuted"
   ],
   "note": "Violated: drag out and back to the press point, then release: Drag events and a Click. Proved when the pointer ends at least the threshold away. The scoped claim that holds is C294."
  },
  {
   "property": "C95",
   "status": "proved",
   "theorems": [
    "C95_hover_tracks_pointer",
    "C95_overlaps"
   ],
   "note": ""
  },
  {
   "property": "C96",
   "status": "proved",
   "theorems": [
    "C96_scroll_delta",
    "C96_wheel_report_scrolls"
   ],
   "note": ""
  },
  {
   "property": "C97",
   "status": "proved",
   "theorems": [
    "C97_enable_disable"
   ],
   "note": "Writes either succeed entirely or send nothing (no partial writes)."
  },
  {
   "property": "C98",
   "status": "partial",
   "theorems": [
    "C98_stretch_changes_nothing_refuted",
    "C98_stretch_position_partial"
   ],
   "note": "Violated: stretch is the same as start, for every container; only the position at the near edge is right."
  },
  {
   "property": "C99",
   "status": "proved",
   "theorems": [
    "C99_frame"
   ],
   "note": ""
  },
  {
   "property": "C100",
   "status": "partial",
   "theorems": [
    "C100_frame_of_any_text_refuted"
   ],
   "note": "Violated: the renderer pads by UTF-8 bytes (len), so a line falls short by its continuation bytes; exact formula proved for all texts. The scoped claim that holds is C295."
  },
  {
   "property": "C101",
   "status": "partial",
   "theorems": [
    "C101_size_ignored_refuted"
   ],
   "note": "Violated: for all boxes: the renderer never reads the size. Measuring and placing respect it. The scoped claim that holds is C266."
  },
  {
   "property": "C102",
   "status": "proved",
   "theorems": [
    "C102_picture",
    "C102_no_panic"
   ],
   "note": ""
  },
  {
   "property": "C103",
   "status": "partial",
   "theorems": [
    "C103_render_changes_nothing_refuted"
   ],
   "note": "Violated: Render stores the measured size as the box's exact size. Rendering again, measuring and placing the unmodified box are unaffected. The scoped claim that holds is C267."
  },
  {
   "property": "C104",
   "status": "partial",
   "theorems": [
    "C104_grey_nearest_refuted"
   ],
   "note": "Violated: the grey ramp index is rounded down, so for every grey 6 to 9 above its step the next step is nearer. C192 states how close the entry is."
  },
  {
   "property": "C105",
   "status": "partial",
   "theorems": [
    "C105_palette_roundtrip_refuted"
   ],
   "note": "Violated: cube greys 59, 102, 145, 188 and the sixteen basic colours change (C105_palette_roundtrip_refuted). C192_palette proves it for all others."
  },
  {
   "property": "C106",
   "status": "partial",
   "theorems": [
    "C106_border_nearest_refuted"
   ],
   "note": "Violated: borders use another, coarser conversion than texts. C192_border_codes states it exactly."
  },
  {
   "property": "C107",
   "status": "partial",
   "theorems": [
    "C107_cut_bytes_refuted"
   ],
   "note": "Violated outside ASCII: the text is cut at a byte count. C51_cut_prefix proves ASCII."
  },
  {
   "property": "C108",
   "status": "partial",
   "theorems": [
    "C108_width_ignored_refuted",
    "C108_several_lines_refuted"
   ],
   "note": "Violated: Width and Height do nothing without an alignment, and with only one of them a text of several lines is aligned as one line. C51_rendered_size proves the case alignment + width + height."
  },
  {
   "property": "C109",
   "status": "proved",
   "theorems": [
    "C109_shown"
   ],
   "note": ""
  },
  {
   "property": "C110",
   "status": "partial",
   "theorems": [
    "C110_content_loses_style_refuted"
   ],
   "note": "Violated: the resets after the frame's pieces switch off the style of the content. C193_coloured_frame proves it for a plain style."
  },
  {
   "property": "C111",
   "status": "partial",
   "theorems": [
    "C111_reset_emitted_refuted"
   ],
   "note": "Violated: a border colour still writes reset sequences. C193_no_colour_plain proves it without border colour and decorations."
  },
  {
   "property": "C112",
   "status": "partial",
   "theorems": [
    "C112_bounds_drop_style_refuted"
   ],
   "note": "Violated: a text that misses the bounds is returned unstyled and unbounded. C194 states exactly when."
  },
  {
   "property": "C113",
   "status": "partial",
   "theorems": [
    "C113_order_refuted",
    "C113_side_without_border_refuted"
   ],
   "note": "Violated before a border is chosen: switching a side off is undone by Border, switching one on makes Render return the text unstyled. C195 proves it afterwards."
  },
  {
   "property": "C114",
   "status": "proved",
   "theorems": [
    "C114_keeps",
    "C114_border",
    "C114_new",
    "C114_validate",
    "C114_never_negative",
    "C114_order_irrelevant",
    "C114_last_wins",
    "C114_sets"
   ],
   "note": ""
  },
  {
   "property": "C115",
   "status": "proved",
   "theorems": [
    "C115_merge",
    "C115_replaces"
   ],
   "note": ""
  },
  {
   "property": "C116",
   "status": "partial",
   "theorems": [
    "C116_black_is_unset_refuted"
   ],
   "note": "Violated: black colours, hidden borders and spacing 0 count as not set. C115_replaces proves it for themes without them."
  },
  {
   "property": "C117",
   "status": "proved",
   "theorems": [
    "C117_calls",
    "C117_preset_contrast",
    "C117_locks",
    "C117_no_deadlock",
    "C117_no_lost_merge",
    "C117_swap",
    "C117_linearizable",
    "C117_presets"
   ],
   "note": ""
  },
  {
   "property": "C118",
   "status": "partial",
   "theorems": [
    "C118_margin_refuted"
   ],
   "note": "Violated with a border colour: the frame's escape sequences are counted as width. C50_margin proves it without."
  },
  {
   "property": "C119",
   "status": "partial",
   "theorems": [
    "C119_empty_refuted"
   ],
   "note": "Violated: an empty text is returned without padding and margin. C50_nonempty proves all others."
  },
  {
   "property": "C120",
   "status": "proved",
   "theorems": [
    "C120_any_times",
    "C120_newest_first"
   ],
   "note": ""
  },
  {
   "property": "C121",
   "status": "proved",
   "theorems": [
    "C121_read_back",
    "C121_any_list"
   ],
   "note": ""
  },
  {
   "property": "C122",
   "status": "proved",
   "theorems": [
    "C122_success",
    "C122_writer_finishes",
    "C122_failure"
   ],
   "note": ""
  },
  {
   "property": "C123",
   "status": "proved",
   "theorems": [
    "C123_restore"
   ],
   "note": ""
  },
  {
   "property": "C124",
   "status": "proved",
   "theorems": [
    "C124_convert",
    "C124_empty"
   ],
   "note": ""
  },
  {
   "property": "C125",
   "status": "proved",
   "theorems": [
    "C125_plain_text"
   ],
   "note": ""
  },
  {
   "property": "C126",
   "status": "partial",
   "theorems": [
    "C126_tags_refuted"
   ],
   "note": "Violated: character references are replaced after the tags are removed, so &lt;script&gt; becomes a tag. Partial: proved for documents without references. The scoped claim that holds is C276."
  },
  {
   "property": "C127",
   "status": "partial",
   "theorems": [
    "C127_accents_refuted",
    "C127_path_refuted",
    "C127_lines_refuted"
   ],
   "note": "Violated: non-ASCII characters, backslashes, braces, line breaks and outer white space do not come back; C56 proves exactly which texts do. Partial: what every decoded text is like. The scoped claim that holds is C296."
  },
  {
   "property": "C128",
   "status": "partial",
   "theorems": [
    "C128_cursor_moves_refuted"
   ],
   "note": "Violated: ClearLine emits \\r first, so the cursor goes to column 0 (refuted for every cursor not already there). Proved: exactly the cursor's line is blanked. The scoped claim that holds is C297."
  },
  {
   "property": "C129",
   "status": "partial",
   "theorems": [
    "C129_last_row_partial",
    "C129_clears_upwards_refuted",
    "C129_clears_below_refuted"
   ],
   "note": "Violated: ClearLines clears the n lines ENDING at the cursor and everything below (refuted twice). What it does is C58. Proved here: the case n=1 on the last row, where both readings agree."
  },
  {
   "property": "C130",
   "status": "partial",
   "theorems": [
    "C130_not_a_stack_refuted"
   ],
   "note": "Violated: The code violates the stack claim (ESC[s has one slot): nested pairs are refuted. Proved: a single pair around any calls without a second Save or a screen switch. The scoped claim that holds is C268."
  },
  {
   "property": "C131",
   "status": "partial",
   "theorems": [
    "C131_out_of_bounds_silent_refuted"
   ],
   "note": "Violated: The code violates the error claim: no position is ever reported (refuted for all). Proved: exactness on the screen. The scoped claim that holds is C269."
  },
  {
   "property": "C132",
   "status": "proved",
   "theorems": [
    "C132_modes_match_device",
    "C132_double_calls_rejected",
    "C132_alt_screen_restores",
    "C132_raw_mode_restores"
   ],
   "note": ""
  },
  {
   "property": "C133",
   "status": "partial",
   "theorems": [
    "C133_contains_256color_refuted"
   ],
   "note": "Violated: the code compares TERM with three names only, so e.g. rxvt-256color is refuted. Proved: everything else in the statement. The scoped claim that holds is C298."
  },
  {
   "property": "C134",
   "status": "partial",
   "theorems": [
    "C134_control_letter_is_typed_refuted"
   ],
   "note": "Violated: holds for non-character keys; refuted in general: Ctrl with any letter other than A, E, U inserts the letter. The scoped claim that holds is C299."
  },
  {
   "property": "C135",
   "status": "partial",
   "theorems": [
    "C135_wrap_overflows_height_refuted",
    "C135_wrap_shows_the_slice_partial"
   ],
   "note": "Violated by the code: height content lines are wrapped, so more than height rows are returned (counterexample proved); the partial theorem says exactly which rows are shown and that none overflow when the lines fit."
  },
  {
   "property": "C136",
   "status": "partial",
   "theorems": [
    "C136_resize_hides_last_line_refuted",
    "C136_resize_then_bottom_partial"
   ],
   "note": "Violated by the code: a resize keeps the old offset (counterexample proved); the partial theorem shows the bottom is reached again on the next content change or ScrollToBottom, and that growing the window is safe."
  },
  {
   "property": "C137",
   "status": "partial",
   "theorems": [
    "C137_scroll_to_bottom_follows_refuted",
    "C137_other_positions_stay_partial"
   ],
   "note": "Violated by the code for ScrollToBottom, which silently turns follow mode on (counterexample proved); proved for ScrollToTop, SetYOffset and for ScrollToBottom followed by FollowMode(false)."
  },
  {
   "property": "C138",
   "status": "partial",
   "theorems": [
    "C138_combining_mark_refuted"
   ],
   "note": "Violated: Proved when the typed character stands alone; false for a combining mark typed in the middle, which moves the cursor past the next cluster (counterexample proved). The scoped claim that holds is C270."
  },
  {
   "property": "C139",
   "status": "partial",
   "theorems": [
    "C139_multibyte_content_cut_refuted",
    "C139_fitting_content_partial"
   ],
   "note": "Violated by the code: byte slices cut characters of several bytes (counterexample proved); proved for any content that fits the width."
  },
  {
   "property": "C140",
   "status": "partial",
   "theorems": [
    "C140_length_counts_bytes_refuted"
   ],
   "note": "Violated: proved for ASCII; in general bytes are counted (counterexample proved). The scoped claim that holds is C300."
  },
  {
   "property": "C141",
   "status": "partial",
   "theorems": [
    "C141_has_changes_resize_refuted",
    "C141_no_old_frame_refuted",
    "C141_no_changes_nothing_to_do_partial"
   ],
   "note": "Violated: HasChanges says true while Diff is empty for an absent old frame or a resize to a blank frame (counterexamples proved). Proved: when HasChanges says false, Diff is empty."
  },
  {
   "property": "C142",
   "status": "partial",
   "theorems": [
    "C142_wide_cells_refuted"
   ],
   "note": "Violated: an incremental update writes the blank continuation cell over the glyph (counterexample proved). The single-column case is C03."
  },
  {
   "property": "C143",
   "status": "partial",
   "theorems": [
    "C143_style_leak_refuted"
   ],
   "note": "Violated: no reset is emitted when a cell has fewer attributes than the one before (counterexample proved). The uniform case is C04."
  },
  {
   "property": "C144",
   "status": "partial",
   "theorems": [
    "C144_escape_split_refuted"
   ],
   "note": "Violated: ESC alone in a read is delivered as the Escape key and the rest as text (counterexample proved). Text without ESC is C09."
  },
  {
   "property": "C145",
   "status": "partial",
   "theorems": [
    "C145_f1_to_f4_refuted"
   ],
   "note": "Violated for each of them: the sequence is dropped and its last byte is typed (proved for every SS3 key)."
  },
  {
   "property": "C146",
   "status": "partial",
   "theorems": [
    "C146_esc_then_text_refuted"
   ],
   "note": "Violated: up to five characters after ESC are swallowed (counterexample proved)."
  },
  {
   "property": "C147",
   "status": "partial",
   "theorems": [
    "C147_full_width_line_refuted",
    "C147_truncated_line_refuted"
   ],
   "note": "Violated: the erase-to-end-of-line after a full line erases its last column (counterexamples proved). Narrower lines are C11."
  },
  {
   "property": "C148",
   "status": "partial",
   "theorems": [
    "C148_shrink_refuted"
   ],
   "note": "Violated when the last line is unchanged: it is erased with the rows below (counterexample proved). Other histories are C11."
  },
  {
   "property": "C149",
   "status": "partial",
   "theorems": [
    "C149_empty_after_repaint_refuted"
   ],
   "note": "Violated: an empty view right after Repaint is skipped as unchanged (counterexample proved)."
  },
  {
   "property": "C150",
   "status": "partial",
   "theorems": [
    "C150_overlong_escape_refuted"
   ],
   "note": "Violated for overlong encodings of ESC (counterexample proved); all other byte strings are C12_width_bound."
  },
  {
   "property": "C151",
   "status": "partial",
   "theorems": [
    "C151_batch_wedges_loop_refuted"
   ],
   "note": "Violated: unpacking a batch into a full queue blocks the loop for ever; proved that no later schedule without a Stop timeout can make progress. At most 100 messages: C14."
  },
  {
   "property": "C152",
   "status": "partial",
   "theorems": [
    "C152_quit_during_update_refuted"
   ],
   "note": "Violated: with the loop busy the non-blocking send is dropped (schedule proved). The idle loop is C15."
  },
  {
   "property": "C153",
   "status": "partial",
   "theorems": [
    "C153_quit_stolen_by_command_refuted"
   ],
   "note": "Violated: a command goroutine waiting to deliver its message can consume the quit signal (schedule proved)."
  },
  {
   "property": "C154",
   "status": "partial",
   "theorems": [
    "C154_two_loops_refuted"
   ],
   "note": "Violated: Stop clears the running flag on timeout and a second Start runs a second loop (schedule proved). Without a timeout: C16."
  },
  {
   "property": "C155",
   "status": "partial",
   "theorems": [
    "C155_cursor_untouched_partial",
    "C155_cursor_refuted"
   ],
   "note": "Violated after Resume or ExecProcess, which hide the cursor and nothing shows it again (history proved); proved for histories without them."
  },
  {
   "property": "C156",
   "status": "partial",
   "theorems": [
    "C156_resume_after_end_refuted"
   ],
   "note": "Violated: Resume after a suspended program ended re-enters raw mode and the alternate screen (history proved)."
  },
  {
   "property": "C157",
   "status": "partial",
   "theorems": [
    "C157_failed_resume_refuted"
   ],
   "note": "Violated: Proved unless the alternate screen had already been entered; in that case no retry ever succeeds (proved for every number of retries). The scoped claim that holds is C272."
  },
  {
   "property": "C158",
   "status": "partial",
   "theorems": [
    "C158_forward_kill_moves_cursor_refuted",
    "C158_kill_line_then_yank_restores_refuted"
   ],
   "note": "Violated: forward kills reset the cursor to the start of the text (proved for every non-empty kill), so the yank inserts there."
  },
  {
   "property": "C159",
   "status": "partial",
   "theorems": [
    "C159_ctrl_u_kills_to_cursor_refuted"
   ],
   "note": "Violated: it removes and stores the text after the line start, i.e. the whole line (counterexample proved)."
  },
  {
   "property": "C160",
   "status": "partial",
   "theorems": [
    "C160_yank_exceeds_max_lines_refuted"
   ],
   "note": "Violated (counterexample proved); every other key is C25."
  },
  {
   "property": "C161",
   "status": "partial",
   "theorems": [
    "C161_max_chars_ignored_refuted"
   ],
   "note": "Violated: the limit is stored but never consulted; proved that any text can be typed under any limit."
  },
  {
   "property": "C162",
   "status": "partial",
   "theorems": [
    "C162_bordered_height_refuted"
   ],
   "note": "Violated for every bordered box: the measured height is the rendered one plus two (proved). Boxes without a border, and widths: C48."
  },
  {
   "property": "C163",
   "status": "partial",
   "theorems": [
    "C163_exec_while_suspended_refuted"
   ],
   "note": "Violated: the call resumes the program (history proved). Not suspended: C60."
  },
  {
   "property": "C164",
   "status": "partial",
   "theorems": [
    "C164_kill_bypasses_validator_refuted"
   ],
   "note": "Violated: forward kills reset the cursor without asking (counterexample proved). Movements and Backspace: C61."
  },
  {
   "property": "C165",
   "status": "partial",
   "theorems": [
    "C165_set_cursor_position_keeps_visible_refuted",
    "C165_kill_line_keeps_visible_refuted"
   ],
   "note": "Violated by each of them (counterexamples proved). Movement and editing keys: C62."
  },
  {
   "property": "C166",
   "status": "partial",
   "theorems": [
    "C166_typing_does_not_accumulate_refuted"
   ],
   "note": "Violated: each character replaces the query (counterexample proved). One character: C67."
  },
  {
   "property": "C167",
   "status": "partial",
   "theorems": [
    "C167_bound_letters_not_typed_refuted"
   ],
   "note": "Violated: letters bound to actions (k, j, g, ...) are not typed (counterexample proved)."
  },
  {
   "property": "C168",
   "status": "partial",
   "theorems": [
    "C168_sort_keys_do_nothing_refuted"
   ],
   "note": "Violated: the bindings for sorting exist but the key handler never consults them, so both keys do nothing (C168_sort_keys_do_nothing_refuted). Nothing is missing from the model."
  },
  {
   "property": "C169",
   "status": "partial",
   "theorems": [
    "C169_default_not_selected_refuted"
   ],
   "note": "Violated: WithDefault ignores its argument and returns the component unchanged, so nothing is selected (C169_default_not_selected_refuted, for every option list and value)."
  },
  {
   "property": "C170",
   "status": "partial",
   "theorems": [
    "C170_options_resets_height_refuted",
    "C170_other_setters_commute_partial"
   ],
   "note": "Violated: Options builds a fresh domain with the default height and filter and an empty selection, so WithHeight, WithFilterFunc or Selected called before it are lost (C170_options_resets_height_refuted). Proved: the other setters commute (C170_other_setters_commute_partial)."
  },
  {
   "property": "C171",
   "status": "partial",
   "theorems": [
    "C171_backspace_multibyte_refuted",
    "C171_bound_letters_refuted"
   ],
   "note": "Violated: k, j, g and G move the cursor instead of being typed, and Backspace removes one byte, leaving a broken encoding after a multi-byte character. The positive part is C75."
  },
  {
   "property": "C172",
   "status": "partial",
   "theorems": [
    "C172_preset_out_of_range_refuted"
   ],
   "note": "Violated: out-of-range preselected indices are counted towards the minimum, so an empty list can be confirmed. The positive part is C77."
  },
  {
   "property": "C173",
   "status": "proved",
   "theorems": [
    "C173_view"
   ],
   "note": ""
  },
  {
   "property": "C174",
   "status": "partial",
   "theorems": [
    "C174_never_validated_shown_valid_refuted",
    "C174_stale_errors_refuted"
   ],
   "note": "Violated: a field that was only left with Tab is drawn Valid without having been validated, and complaints stay on screen after the value is corrected (two refutations). Proved: the status is right immediately after Enter (C275_marks_true_after_enter). The scoped claim that holds is C275."
  },
  {
   "property": "C175",
   "status": "partial",
   "theorems": [
    "C175_isvalid_before_validation_refuted"
   ],
   "note": "Violated: before any validation IsValid is true whatever the values. Proved: right immediately after Enter (C275_isvalid_after_enter). The scoped claim that holds is C275."
  },
  {
   "property": "C176",
   "status": "partial",
   "theorems": [
    "C176_no_key_resets_refuted"
   ],
   "note": "Violated: the reset action exists but no key is bound to it; proved for every key: touched and dirty marks survive (C176_no_key_resets_refuted)."
  },
  {
   "property": "C177",
   "status": "partial",
   "theorems": [
    "C177_lengths_count_bytes_refuted"
   ],
   "note": "Violated: lengths are counted in bytes. The positive part is C79."
  },
  {
   "property": "C178",
   "status": "partial",
   "theorems": [
    "C178_branching_forms_share_refuted"
   ],
   "note": "Violated: append reuses spare capacity of the shared array, so the second extension overwrites the first one's new field. The positive part is C81."
  },
  {
   "property": "C179",
   "status": "proved",
   "theorems": [
    "C179_view",
    "C179_focus_is_visible",
    "C179_default_screen"
   ],
   "note": ""
  },
  {
   "property": "C180",
   "status": "partial",
   "theorems": [
    "C180_negative_label_yes_refuted",
    "C180_shortcut_collision_refuted",
    "C180_default_no_is_cancel_refuted",
    "C180_non_ascii_shortcut_refuted"
   ],
   "note": "Violated: a negative button labelled Yes answers Yes; two labels with the same first letter share the first one's answer; DefaultNo with custom labels and a Cancel button focuses Cancel; a label starting outside ASCII is reached by the character of its first UTF-8 byte."
  },
  {
   "property": "C181",
   "status": "partial",
   "theorems": [
    "C181_resize_while_hidden_refuted"
   ],
   "note": "Violated: a hidden modal drops the resize message, so shown again it is placed for the old size."
  },
  {
   "property": "C182",
   "status": "partial",
   "theorems": [
    "C182_rows_apart_partial",
    "C182_last_row_missing_refuted",
    "C182_sides_missing_refuted",
    "C182_last_line_overwritten_refuted",
    "C182_narrow_panics_refuted"
   ],
   "note": "Violated: the last row of the rectangle is never drawn, rows without content have no sides, with buttons the last content line is overwritten, sizes below 2 panic."
  },
  {
   "property": "C183",
   "status": "partial",
   "theorems": [
    "C183_bytes_not_cells_refuted"
   ],
   "note": "Violated: widths are counted in bytes, so rows come out short and a cut can fall inside a character."
  },
  {
   "property": "C184",
   "status": "proved",
   "theorems": [
    "C184_distance",
    "C184_boxes",
    "C184_modifiers",
    "C184_kinds"
   ],
   "note": ""
  },
  {
   "property": "C185",
   "status": "proved",
   "theorems": [
    "C185_decodes",
    "C185_decodes_all",
    "C185_errors_change_nothing"
   ],
   "note": ""
  },
  {
   "property": "C186",
   "status": "partial",
   "theorems": [
    "C186_truncated_refuted",
    "C186_negative_positions_refuted",
    "C186_plain_text_refuted"
   ],
   "note": "Violated: a report cut before its final letter is decoded as a release at whatever number was read so far; zero or negative coordinates and low X10 bytes give negative positions; the ESC [ prefix is optional, so typed text such as 1;2;3M is a mouse press. C185 states exactly what is decoded."
  },
  {
   "property": "C187",
   "status": "proved",
   "theorems": [
    "C187_setters",
    "C187_new",
    "C187_container_setters",
    "C187_calls_are_local",
    "C187_added_as_it_was",
    "C187_raw_is_a_new_box",
    "C187_drawn_as_added",
    "C187_programs_reach"
   ],
   "note": ""
  },
  {
   "property": "C188",
   "status": "partial",
   "theorems": [
    "C188_same_object_refuted",
    "C188_containers_too_refuted"
   ],
   "note": "Violated: every setter assigns the receiver's domain value and returns the receiver itself, so boxes derived from a base are one and the same object (C188_*_refuted, for every setter that does not panic). C187 states what the setters do."
  },
  {
   "property": "C189",
   "status": "partial",
   "theorems": [
    "C189_other_direction_reset_refuted",
    "C189_named_direction_partial"
   ],
   "note": "Violated: AlignRight, AlignTop, AlignMiddle and AlignBottom build a whole alignment with the other direction reset to left or top. C189_named_direction_partial: the direction named is set."
  },
  {
   "property": "C190",
   "status": "partial",
   "theorems": [
    "C190_own_size_ignored_refuted"
   ],
   "note": "Violated: Width and Height of a container are stored and read by nothing; C190_own_size_ignored_refuted holds for every container and size."
  },
  {
   "property": "C191",
   "status": "partial",
   "theorems": [
    "C191_wide_row_refuted"
   ],
   "note": "Violated: Render places one character per cell whatever its width, so rows with wide characters are wider than asked. C102 proves the picture for plain ASCII text."
  },
  {
   "property": "C192",
   "status": "proved",
   "theorems": [
    "C192_grey_close",
    "C192_palette",
    "C192_border_range",
    "C192_near_grey",
    "C192_border_codes",
    "C192_standard"
   ],
   "note": ""
  },
  {
   "property": "C193",
   "status": "proved",
   "theorems": [
    "C193_coloured_frame",
    "C193_no_colour_plain"
   ],
   "note": ""
  },
  {
   "property": "C194",
   "status": "proved",
   "theorems": [
    "C194_missed_bounds",
    "C194_within_bounds"
   ],
   "note": ""
  },
  {
   "property": "C195",
   "status": "proved",
   "theorems": [
    "C195_switches"
   ],
   "note": ""
  },
  {
   "property": "C196",
   "status": "proved",
   "theorems": [
    "C196_builder"
   ],
   "note": ""
  },
  {
   "property": "C197",
   "status": "proved",
   "theorems": [
    "C197_new"
   ],
   "note": ""
  },
  {
   "property": "C198",
   "status": "proved",
   "theorems": [
    "C198_linux"
   ],
   "note": ""
  },
  {
   "property": "C199",
   "status": "partial",
   "theorems": [
    "C199_usable_tool_refuted",
    "C199_usable_tool_partial"
   ],
   "note": "Violated: the Wayland tools are preferred whenever they are installed, also in an X11 session where they cannot reach a clipboard and xclip could. Partial: proved if every installed tool works."
  },
  {
   "property": "C200",
   "status": "partial",
   "theorems": [
    "C200_fallback_refuted",
    "C200_fallback_partial"
   ],
   "note": "Violated: only providers that declare themselves unavailable are skipped; after a failed write the next one is not tried. Partial: proved if the available providers work."
  },
  {
   "property": "C201",
   "status": "proved",
   "theorems": [
    "C201_history",
    "C201_history_calls",
    "C201_total"
   ],
   "note": ""
  },
  {
   "property": "C202",
   "status": "proved",
   "theorems": [
    "C202_lookup"
   ],
   "note": ""
  },
  {
   "property": "C203",
   "status": "partial",
   "theorems": [
    "C203_age_refuted",
    "C203_age_partial"
   ],
   "note": "Violated: expired entries stay listed until RemoveExpiredHistory is called. Partial: right after that call none is listed."
  },
  {
   "property": "C204",
   "status": "partial",
   "theorems": [
    "C204_limit_refuted",
    "C204_limit_partial"
   ],
   "note": "Violated: room for all entries is allocated at once, so a limit above 2^45 (for example math.MaxInt) panics. Partial: exactly these limits do."
  },
  {
   "property": "C205",
   "status": "partial",
   "theorems": [
    "C205_same_tick_refuted"
   ],
   "note": "Violated: entries recorded within one clock tick are listed oldest first. C120 has the positive statements (distinct times; any times)."
  },
  {
   "property": "C206",
   "status": "partial",
   "theorems": [
    "C206_read_back_refuted"
   ],
   "note": "Violated: with the default builder, and with New over SSH, OSC 52 comes first and cannot be read. C121 has the positive statements."
  },
  {
   "property": "C207",
   "status": "partial",
   "theorems": [
    "C207_flush_refuted",
    "C207_failure_partial",
    "C207_timeout_refuted"
   ],
   "note": "Violated: after a reported timeout the sequence can still be written, and a failed flush is reported after everything was written. Partial: what a reported failure means."
  },
  {
   "property": "C208",
   "status": "partial",
   "theorems": [
    "C208_terminal_refuted",
    "C208_flushed_partial"
   ],
   "note": "Violated: fsync fails on terminals (EINVAL on Linux), so every OSC 52 write is reported as a failure although it was sent. Partial: where the output can be flushed, a timely write is a success."
  },
  {
   "property": "C209",
   "status": "partial",
   "theorems": [
    "C209_zero_builder_refuted",
    "C209_zero_builder_partial"
   ],
   "note": "Violated: the zero Builder has both providers switched off and Build returns an error. Partial: it works once a provider is added or switched on."
  },
  {
   "property": "C210",
   "status": "proved",
   "theorems": [
    "C210_readable"
   ],
   "note": ""
  },
  {
   "property": "C211",
   "status": "partial",
   "theorems": [
    "C211_emoji_refuted",
    "C211_plane_partial"
   ],
   "note": "Violated: characters above 65535 are written as one number that does not fit the 16 bits of RTF. Partial: C210 for texts up to 32767."
  },
  {
   "property": "C212",
   "status": "partial",
   "theorems": [
    "C212_rtf_text_refuted",
    "C212_rtf_text_partial"
   ],
   "note": "Violated: font names become text, paragraphs run together, \\u characters become their substitutes. Partial: agreement on documents the library writes for safe texts."
  },
  {
   "property": "C213",
   "status": "partial",
   "theorems": [
    "C213_html_text_refuted",
    "C213_html_text_partial"
   ],
   "note": "Violated: paragraphs run together, a '>' in an attribute or comment ends the tag, style sheets become text, a style of a part becomes the style of all. Partial: C125's documents."
  },
  {
   "property": "C214",
   "status": "proved",
   "theorems": [
    "C214_never_fails",
    "C214_cursor_is_shown",
    "C214_plain_view",
    "C214_rows",
    "C214_line_numbers",
    "C214_number_format"
   ],
   "note": ""
  },
  {
   "property": "C215",
   "status": "proved",
   "theorems": [
    "C215_placeholder",
    "C215_hidden_by_text",
    "C215_settings_only_affect_display",
    "C215_settings_are_kept",
    "C215_defaults"
   ],
   "note": ""
  },
  {
   "property": "C216",
   "status": "partial",
   "theorems": [
    "C216_with_text_partial",
    "C216_empty_refuted"
   ],
   "note": "Violated: an empty text area without placeholder is drawn as the empty string, and one with a placeholder as just the placeholder, whatever ShowCursor says (C216_empty_refuted); with text exactly one cell is reversed (C216_with_text_partial)."
  },
  {
   "property": "C217",
   "status": "partial",
   "theorems": [
    "C217_fitting_text_partial",
    "C217_overflow_refuted"
   ],
   "note": "Violated: the renderer uses neither Width, nor Wrap, nor the horizontal scroll offset it maintains; a line longer than the width is drawn in full (C217_overflow_refuted, for every width and either wrap setting). Rows of fitting text fit (C217_fitting_text_partial)."
  },
  {
   "property": "C218",
   "status": "partial",
   "theorems": [
    "C218_height_partial",
    "C218_negative_height_refuted"
   ],
   "note": "Violated: with a negative height View panics in a slice expression (C218_negative_height_refuted, for every negative height); C218_height_partial covers all other sizes."
  },
  {
   "property": "C219",
   "status": "proved",
   "theorems": [
    "C219_never_changes",
    "C219_results",
    "C219_constructors",
    "C219_always_consistent"
   ],
   "note": ""
  },
  {
   "property": "C220",
   "status": "partial",
   "theorems": [
    "C220_state_kept_partial",
    "C220_never_enabled_refuted"
   ],
   "note": "Violated: NewRawMode is the only public constructor of a RawMode and starts disabled; Enable is internal, so no program can ever see IsRawModeEnabled() = true."
  },
  {
   "property": "C221",
   "status": "proved",
   "theorems": [
    "C221_consistent",
    "C221_no_color",
    "C221_force_color",
    "C221_unix",
    "C221_windows"
   ],
   "note": ""
  },
  {
   "property": "C222",
   "status": "partial",
   "theorems": [
    "C222_colour_partial",
    "C222_everything_lost_refuted"
   ],
   "note": "Violated: with NO_COLOR set the detector returns the minimal capabilities: ANSI, mouse, alternate screen and cursor control are reported missing as well."
  },
  {
   "property": "C223",
   "status": "partial",
   "theorems": [
    "C223_without_colorterm_partial",
    "C223_true_colour_refuted"
   ],
   "note": "Violated: a macOS build reports the platform as unix, so detectMacOS is never called; COLORTERM=truecolor makes Terminal.app a true colour terminal. Proved without a COLORTERM claim."
  },
  {
   "property": "C224",
   "status": "partial",
   "theorems": [
    "C224_agree_partial",
    "C224_disagree_refuted"
   ],
   "note": "Violated: NO_COLOR, FORCE_COLOR and TERM_PROGRAM are known to core only, and plain terminals have 8 colours in one and 16 in the other. Proved for the shared cases."
  },
  {
   "property": "C225",
   "status": "partial",
   "theorems": [
    "C225_dumb_terminals_partial",
    "C225_differ_refuted"
   ],
   "note": "Violated: NewTerminal calls core.NewTerminal, which has the minimal capabilities (no ANSI, no colour), in every environment."
  },
  {
   "property": "C226",
   "status": "proved",
   "theorems": [
    "C226_sizes",
    "C226_positions",
    "C226_add_composes",
    "C226_cells",
    "C226_depth_names"
   ],
   "note": ""
  },
  {
   "property": "C227",
   "status": "partial",
   "theorems": [
    "C227_detected_partial",
    "C227_constructed_refuted"
   ],
   "note": "Violated for NewCapabilities(false, depth, ...) with a colour depth; proved for detected capabilities."
  },
  {
   "property": "C228",
   "status": "proved",
   "theorems": [
    "C228_answers",
    "C228_program_order",
    "C228_nothing_lost",
    "C228_no_deadlock",
    "C228_completes"
   ],
   "note": "Granularity: Lock, read of Calls, store of the appended slice, flag test and update, Unlock with return. Reading the exported field Calls while other goroutines run is outside the claim."
  },
  {
   "property": "C229",
   "status": "proved",
   "theorems": [
    "C229_readable",
    "C229_count",
    "C229_texts_distinct",
    "C229_numbers"
   ],
   "note": "%q is a parameter; the third theorem assumes it is one-to-one. Undocumented styles share the name Unknown."
  },
  {
   "property": "C230",
   "status": "proved",
   "theorems": [
    "C230_as_the_real_terminal"
   ],
   "note": ""
  },
  {
   "property": "C231",
   "status": "partial",
   "theorems": [
    "C231_constant_partial",
    "C231_promises_broken_refuted"
   ],
   "note": "Violated by both doubles: true colour with a depth of 256, readback reported missing but succeeding, the cursor always at (0, 0). Proved: the answers are constant and the two doubles agree. (The package documentation also advertises WasCalled, GetCalls, SetError and fluent assertions, which do not exist.)"
  },
  {
   "property": "C232",
   "status": "partial",
   "theorems": [
    "C232_never_fails_partial",
    "C232_modes_refuted"
   ],
   "note": "Violated: after a successful EnterAltScreen or EnterRawMode the queries answer false, entering twice and exiting without entering succeed. Proved: no call fails."
  },
  {
   "property": "C233",
   "status": "proved",
   "theorems": [
    "C233_current_is_visible",
    "C233_position",
    "C233_moves",
    "C233_cursor_look"
   ],
   "note": ""
  },
  {
   "property": "C234",
   "status": "proved",
   "theorems": [
    "C234_clear",
    "C234_clear_line",
    "C234_clear_from_cursor",
    "C234_clear_lines",
    "C234_read"
   ],
   "note": ""
  },
  {
   "property": "C235",
   "status": "proved",
   "theorems": [
    "C235_alt_flag",
    "C235_twice",
    "C235_enter",
    "C235_succeeds",
    "C235_round_trip",
    "C235_raw_mode",
    "C235_no_leak"
   ],
   "note": ""
  },
  {
   "property": "C236",
   "status": "partial",
   "theorems": [
    "C236_alt_screen_refuted"
   ],
   "note": "Violated: Write uses os.Stdout, the original buffer's handle, so everything written in the alternate screen goes to the hidden original screen (C236_alt_screen_refuted, for every text and every reached state in the alternate screen). Proved in part: outside the alternate screen Write and WriteAt print on the visible screen (C277_write). The scoped claim that holds is C277."
  },
  {
   "property": "C237",
   "status": "partial",
   "theorems": [
    "C237_cursor_refuted"
   ],
   "note": "Violated: ClearLine moves the cursor to column 0 (C237_cursor_refuted, for every cursor not in column 0). What it does clear is C234_clear_line."
  },
  {
   "property": "C238",
   "status": "partial",
   "theorems": [
    "C238_size_partial",
    "C238_size_refuted"
   ],
   "note": "Violated: Size returns the screen buffer's size, scrollback included (C238_size_refuted). Proved in part: where window and buffer agree, as in the alternate screen (C235_enter), it is the window's (C238_size_partial)."
  },
  {
   "property": "C239",
   "status": "partial",
   "theorems": [
    "C239_stack_refuted",
    "C239_other_object_refuted"
   ],
   "note": "Violated: there is one saved position, shared by all terminal objects of the process (C239_stack_refuted, C239_other_object_refuted). Proved in part: a save followed by anything but a save, then a restore, brings the cursor back (C278_restore). The scoped claim that holds is C278."
  },
  {
   "property": "C240",
   "status": "partial",
   "theorems": [
    "C240_out_of_bounds_refuted"
   ],
   "note": "Violated: coordinates are converted to 16 bits, so a position 65536 columns or rows too far is accepted and goes to the wrapped cell (C240_out_of_bounds_refuted). Proved in part: within the 16-bit range exactly the positions out of bounds are refused (C279_in_range). The scoped claim that holds is C279."
  },
  {
   "property": "C241",
   "status": "partial",
   "theorems": [
    "C241_colours_refuted",
    "C241_clear_partial"
   ],
   "note": "Violated: ClearLine, ClearFromCursor and ClearLines change no attribute (C241_colours_refuted). Proved in part: Clear resets all (C241_clear_partial)."
  },
  {
   "property": "C242",
   "status": "proved",
   "theorems": [
    "C242_write",
    "C242_read",
    "C242_shown_total",
    "C242_round_trip",
    "C242_closed"
   ],
   "note": ""
  },
  {
   "property": "C243",
   "status": "partial",
   "theorems": [
    "C243_ascii_partial",
    "C243_fault_refuted",
    "C243_leak_refuted"
   ],
   "note": "Violated: the number of 16-bit units copied is the number of UTF-8 bytes plus one, so for every text with a character beyond ASCII memory behind the converted text is read: a crash if it is not readable (C243_fault_refuted), and otherwise foreign memory on the clipboard behind the terminating 0 (C243_leak_refuted). Proved in part: for ASCII texts nothing depends on other memory (C243_ascii_partial)."
  },
  {
   "property": "C244",
   "status": "partial",
   "theorems": [
    "C244_leak_refuted",
    "C244_lost_refuted"
   ],
   "note": "Violated: when EmptyClipboard or SetClipboardData fails the allocated memory is never freed (C244_leak_refuted), and in the second case the previous contents are gone (C244_lost_refuted). Proved in part: a failure before the clipboard is opened changes nothing (C280_early). The scoped claim that holds is C280."
  },
  {
   "property": "C245",
   "status": "partial",
   "theorems": [
    "C245_nul_refuted"
   ],
   "note": "Violated: a text is cut at its first NUL, without an error (C245_nul_refuted, for every such text). For texts without NUL see C242_round_trip."
  },
  {
   "property": "C246",
   "status": "proved",
   "theorems": [
    "C246_order",
    "C246_end",
    "C246_settles",
    "C246_waits_only_for_typing"
   ],
   "note": ""
  },
  {
   "property": "C247",
   "status": "proved",
   "theorems": [
    "C247_no_data_after_cancel",
    "C247_read_returns",
    "C247_later_reads",
    "C247_finite",
    "C247_shutdown_returns"
   ],
   "note": ""
  },
  {
   "property": "C248",
   "status": "partial",
   "theorems": [
    "C248_refuted"
   ],
   "note": "Violated: if the relay goroutine is still blocked in its read of the input when WaitForShutdown's 50 ms are over (always so for an input without read deadlines, as on MSYS or a non-*os.File reader), it takes the next bytes typed - meant for the external command or the next reader - and throws them away (C248_refuted). Proved part: at most one more read, of at most 4096 bytes, and none if the relay has ended. The scoped claim that holds is C274."
  },
  {
   "property": "C249",
   "status": "partial",
   "theorems": [
    "C249_refuted"
   ],
   "note": "Violated: bytes the relay has already taken from the input but that no Read has returned yet are discarded by Cancel (C249_refuted). Proved part: what was not taken stays in the input in order, and at most the pipe's capacity plus 4608 bytes are lost. The scoped claim that holds is C273."
  },
  {
   "property": "C250",
   "status": "proved",
   "theorems": [
    "C250_no_panic",
    "C250_one_reader",
    "C250_stopped",
    "C250_stays_stopped",
    "C250_resumed",
    "C250_cancelled",
    "C250_not_cancelled",
    "C250_suspend_not_stuck",
    "C250_suspend_returns"
   ],
   "note": ""
  },
  {
   "property": "C251",
   "status": "partial",
   "theorems": [
    "C251_refuted",
    "C251_partial"
   ],
   "note": "Violated when the 200 ms pass before the goroutine is scheduled: Suspend returns with the reader still reading, and when that reader ends it runs close() on the field Suspend has set to nil: the program panics (C251_refuted). Without the timeout it holds for every schedule (C251_partial)."
  },
  {
   "property": "C252",
   "status": "partial",
   "theorems": [
    "C252_refuted",
    "C252_partial"
   ],
   "note": "Violated: neither the end of Run nor Stop stops the reader goroutine, which goes on taking input from the terminal (C252_refuted). It holds if the reader was stopped by Suspend or the input had ended (C252_partial)."
  },
  {
   "property": "C253",
   "status": "partial",
   "theorems": [
    "C253_refuted",
    "C253_partial"
   ],
   "note": "Violated: the reader of the first Run is still there; a second Run starts another one and overwrites the done channel, both readers share the input, and when both end the second close panics (C253_refuted). Safe if the earlier reader was stopped or had ended (C253_partial)."
  },
  {
   "property": "C254",
   "status": "partial",
   "theorems": [
    "C254_child_in_raw_mode_refuted",
    "C254_not_restored_refuted"
   ],
   "note": "Violated. Suspend checks the flag and acts later, and there is one saved state for all callers: with two overlapping ExecProcess calls the second child still runs when the first call puts the terminal back into raw mode (C254_child_in_raw_mode_refuted); if both pass the check before either acts, the second saves the already restored modes and the program ends up without raw mode and alternate screen although both calls returned nil (C254_not_restored_refuted). Proved part: one command at a time. The scoped claim that holds is C271."
  },
  {
   "property": "C255",
   "status": "proved",
   "theorems": [
    "C255_screen_shows_the_model"
   ],
   "note": ""
  },
  {
   "property": "C256",
   "status": "partial",
   "theorems": [
    "C256_first_line_partial",
    "C256_frames_pile_up_refuted",
    "C256_staircase_refuted"
   ],
   "note": "Violated: renderView writes the view as it is, without moving the cursor home or clearing: each frame is written behind the previous one (C256_frames_pile_up_refuted, for all printable views), and in raw mode each line of a view starts below the end of the previous one (C256_staircase_refuted). Proved part: the very first view, if it is one line."
  },
  {
   "property": "C257",
   "status": "partial",
   "theorems": [
    "C257_unchanged_view_partial",
    "C257_refuted"
   ],
   "note": "Violated: the event loop does not look at the suspended flag when it renders, so any message that changes the view writes into the external command's screen (C257_refuted, both modes). Proved part: in inline mode messages that do not change the view write nothing."
  },
  {
   "property": "C258",
   "status": "proved",
   "theorems": [
    "C258_child_mode",
    "C258_raw_again"
   ],
   "note": ""
  },
  {
   "property": "C259",
   "status": "partial",
   "theorems": [
    "C259_mode_restored_partial",
    "C259_mode_restored_refuted"
   ],
   "note": "Violated: execWithTTYControl switches ENABLE_VIRTUAL_TERMINAL_INPUT off before the command and Resume's EnterRawMode then records that mode as the original, so the bit stays off after exit. Proved: exact when the bit was off at the start or no command was run (_partial); never restored otherwise (_refuted)."
  },
  {
   "property": "C260",
   "status": "proved",
   "theorems": [
    "C260_selection_visible"
   ],
   "note": ""
  },
  {
   "property": "C261",
   "status": "proved",
   "theorems": [
    "C261_select_quits",
    "C261_multiselect_quits"
   ],
   "note": ""
  },
  {
   "property": "C262",
   "status": "proved",
   "theorems": [
    "C262_submitted_fields_pass"
   ],
   "note": ""
  },
  {
   "property": "C263",
   "status": "proved",
   "theorems": [
    "C263_x10_press"
   ],
   "note": ""
  },
  {
   "property": "C264",
   "status": "proved",
   "theorems": [
    "C264_urxvt_position",
    "C264_urxvt_own_encoding"
   ],
   "note": ""
  },
  {
   "property": "C265",
   "status": "proved",
   "theorems": [
    "C265_x10_encoder"
   ],
   "note": ""
  },
  {
   "property": "C266",
   "status": "proved",
   "theorems": [
    "C266_measured_size"
   ],
   "note": ""
  },
  {
   "property": "C267",
   "status": "proved",
   "theorems": [
    "C267_render_again"
   ],
   "note": ""
  },
  {
   "property": "C268",
   "status": "proved",
   "theorems": [
    "C268_one_level"
   ],
   "note": ""
  },
  {
   "property": "C269",
   "status": "proved",
   "theorems": [
    "C269_in_bounds"
   ],
   "note": ""
  },
  {
   "property": "C270",
   "status": "proved",
   "theorems": [
    "C270_cursor_after_typed"
   ],
   "note": ""
  },
  {
   "property": "C271",
   "status": "proved",
   "theorems": [
    "C271_one_at_a_time"
   ],
   "note": ""
  },
  {
   "property": "C272",
   "status": "proved",
   "theorems": [
    "C272_failed_resume_retry"
   ],
   "note": ""
  },
  {
   "property": "C273",
   "status": "proved",
   "theorems": [
    "C273_at_most"
   ],
   "note": ""
  },
  {
   "property": "C274",
   "status": "proved",
   "theorems": [
    "C274_one_more_read"
   ],
   "note": ""
  },
  {
   "property": "C275",
   "status": "proved",
   "theorems": [
    "C275_marks_true_after_enter",
    "C275_isvalid_after_enter"
   ],
   "note": ""
  },
  {
   "property": "C276",
   "status": "proved",
   "theorems": [
    "C276_tags"
   ],
   "note": ""
  },
  {
   "property": "C277",
   "status": "proved",
   "theorems": [
    "C277_write"
   ],
   "note": ""
  },
  {
   "property": "C278",
   "status": "proved",
   "theorems": [
    "C278_restore"
   ],
   "note": ""
  },
  {
   "property": "C279",
   "status": "proved",
   "theorems": [
    "C279_in_range"
   ],
   "note": ""
  },
  {
   "property": "C280",
   "status": "proved",
   "theorems": [
    "C280_early"
   ],
   "note": ""
  },
  {
   "property": "C281",
   "status": "proved",
   "theorems": [
    "C281_resume_redraws",
    "C281_resumed"
   ],
   "note": ""
  },
  {
   "property": "C282",
   "status": "partial",
   "theorems": [
    "C282_one_line_partial",
    "C282_output_erased_refuted"
   ],
   "note": "Violated: Repaint keeps the count of rendered lines, so Resume moves the cursor up over the last n-1 rows, which hold the command's output, and overwrites them (witness C282_output_erased_refuted). Proved (_partial) for one-line views."
  },
  {
   "property": "C283",
   "status": "proved",
   "theorems": [
    "C283_keystrokes_delivered",
    "C283_whole_keystrokes"
   ],
   "note": ""
  },
  {
   "property": "C284",
   "status": "proved",
   "theorems": [
    "C284_typing_appears"
   ],
   "note": ""
  },
  {
   "property": "C285",
   "status": "proved",
   "theorems": [
    "C285_only_offered_messages"
   ],
   "note": ""
  },
  {
   "property": "C286",
   "status": "partial",
   "theorems": [
    "C286_never_told",
    "C286_told_the_size_refuted"
   ],
   "note": "Violated: nothing in the library creates a WindowSizeMsg (no call of the terminal's size, no SIGWINCH handler in the event loop), so Update sees one only if the application or a command sends it (C286_never_told, over all executions); C286_told_the_size_refuted is an execution with three updates and none. The declared MouseMsg is in the same position: WithMouseAllMotion sets a field nobody reads."
  },
  {
   "property": "C287",
   "status": "proved",
   "theorems": [
    "C287_unknown_sequences_swallowed"
   ],
   "note": ""
  },
  {
   "property": "C288",
   "status": "partial",
   "theorems": [
    "C288_mouse_reports_no_text_refuted"
   ],
   "note": "Violated: the reader takes at most ten bytes after ESC, and a report such as ESC [<0;100;50M is twelve bytes long, so a left click in column 100, row 50 gives the key M (C288_mouse_reports_no_text_refuted, C288_case). Proved for every report of at most 11 bytes (C301_short_mouse_reports). The scoped claim that holds is C301."
  },
  {
   "property": "C289",
   "status": "proved",
   "theorems": [
    "C289_mac"
   ],
   "note": ""
  },
  {
   "property": "C290",
   "status": "proved",
   "theorems": [
    "C290_filter_replacement"
   ],
   "note": ""
  },
  {
   "property": "C291",
   "status": "proved",
   "theorems": [
    "C291_sort_always_permutes"
   ],
   "note": ""
  },
  {
   "property": "C292",
   "status": "proved",
   "theorems": [
    "C292_saturates"
   ],
   "note": ""
  },
  {
   "property": "C293",
   "status": "proved",
   "theorems": [
    "C293_single_spinner"
   ],
   "note": ""
  },
  {
   "property": "C294",
   "status": "proved",
   "theorems": [
    "C294_drag_no_click"
   ],
   "note": ""
  },
  {
   "property": "C295",
   "status": "proved",
   "theorems": [
    "C295_ascii_line"
   ],
   "note": ""
  },
  {
   "property": "C296",
   "status": "proved",
   "theorems": [
    "C296_every_rtf_text"
   ],
   "note": ""
  },
  {
   "property": "C297",
   "status": "proved",
   "theorems": [
    "C297_clear_line"
   ],
   "note": ""
  },
  {
   "property": "C298",
   "status": "proved",
   "theorems": [
    "C298_color_depth"
   ],
   "note": ""
  },
  {
   "property": "C299",
   "status": "proved",
   "theorems": [
    "C299_control_keys_type_nothing"
   ],
   "note": ""
  },
  {
   "property": "C300",
   "status": "proved",
   "theorems": [
    "C300_length_counts_ascii"
   ],
   "note": ""
  },
  {
   "property": "C301",
   "status": "proved",
   "theorems": [
    "C301_short_mouse_reports"
   ],
   "note": ""
  },
  {
   "property": "C302",
   "status": "proved",
   "theorems": [
    "C302_sender_order",
    "C302_sender_complete"
   ],
   "note": ""
  },
  {
   "property": "C303",
   "status": "proved",
   "theorems": [
    "C303_stopped_is_stopped"
   ],
   "note": ""
  },
  {
   "property": "C304",
   "status": "partial",
   "theorems": [
    "C304_stop_stops_refuted"
   ],
   "note": "Violated: Stop's signal is offered once, without blocking; if Update is running (or the loop is expanding a batch) it is lost, Stop gives up after one second, marks the program as stopped, and the event loop goes on calling Update (C304_stop_stops_refuted). What holds when Stop did not run into the limit is C303."
  },
  {
   "property": "C305",
   "status": "proved",
   "theorems": [
    "C305_total",
    "C305_placeholder_shown",
    "C305_last_placeholder_shown",
    "C305_last_show_cursor",
    "C305_placeholder_hidden",
    "C305_plain_text",
    "C305_cursor_marked"
   ],
   "note": ""
  },
  {
   "property": "C306",
   "status": "proved",
   "theorems": [
    "C306_fits_width"
   ],
   "note": ""
  },
  {
   "property": "C307",
   "status": "partial",
   "theorems": [
    "C307_width_exceeded_refuted"
   ],
   "note": "Violated: a text as long as the width with the cursor at its end is drawn in full, followed by the cursor's blank, one column too many (C307_width_exceeded_refuted). C306 shows that for ASCII text this is the only case."
  },
  {
   "property": "C308",
   "status": "proved",
   "theorems": [
    "C308_refused_when_not_running",
    "C308_ends_only_so",
    "C308_nil_not_lost",
    "C308_error_not_delivered"
   ],
   "note": ""
  },
  {
   "property": "C309",
   "status": "partial",
   "theorems": [
    "C309_fresh_start_refuted"
   ],
   "note": "Violated: what is still queued when a run ends stays in the channel. After two quit messages (q pressed twice) the second one ends the next run before it handles anything (C309_fresh_start_refuted)."
  },
  {
   "property": "C310",
   "status": "partial",
   "theorems": [
    "C310_components_never_change",
    "C310_component_works_refuted"
   ],
   "note": "Violated: the form passes messages only to components with a method Update(tea.Msg) (value.FieldModel, tea.Cmd), an internal type; no component of the library has it (and none outside could), so every component in a form stays as it was put in, whatever is typed (C310_components_never_change, C310_component_works_refuted). The form's own example has the same fault."
  },
  {
   "property": "C311",
   "status": "proved",
   "theorems": [
    "C311_panic_in_loop_restores"
   ],
   "note": ""
  },
  {
   "property": "C312",
   "status": "partial",
   "theorems": [
    "C312_panic_in_command_refuted"
   ],
   "note": "Violated: a command runs in a goroutine without deferred cleanup or recover, so its panic kills the process with the terminal in raw mode and on the alternate screen (C312_panic_in_command_refuted). C311 is what holds."
  },
  {
   "property": "C313",
   "status": "proved",
   "theorems": [
    "C313_rows"
   ],
   "note": ""
  },
  {
   "property": "C314",
   "status": "partial",
   "theorems": [
    "C314_selection_visible_refuted"
   ],
   "note": "Violated: the arrow of the focused item replaces its check mark, so pressing space on the focused item changes the selection and nothing on the screen (C314_selection_visible_refuted). C313 is what holds."
  },
  {
   "property": "C315",
   "status": "proved",
   "theorems": [
    "C315_movement_history",
    "C315_at_most_one_callback",
    "C315_silence_means_no_move"
   ],
   "note": ""
  },
  {
   "property": "C316",
   "status": "partial",
   "theorems": [
    "C316_enter_unobserved_refuted",
    "C316_editing_keys_unobserved"
   ],
   "note": "Violated: the keys that edit (typing, Enter, Backspace, Delete, kill, yank) move the cursor without calling OnCursorMoved (C316_enter_unobserved_refuted; C316_editing_keys_unobserved shows it for every such key), although the documentation says the observer is called after each successful movement. For movement keys the claim holds (C315)."
  },
  {
   "property": "C317",
   "status": "proved",
   "theorems": [
    "C317_open_modal_on_screen"
   ],
   "note": ""
  },
  {
   "property": "C318",
   "status": "partial",
   "theorems": [
    "C318_closed_modal_gone_refuted"
   ],
   "note": "Violated: View is a line per drawn row, each moved to its place with a cursor address; closing the modal moves up by the number of drawn rows from the box's bottom and clears from there, so when rows of the rectangle are not drawn (less content than fits) the top of the box stays on the screen (C318_closed_modal_gone_refuted)."
  },
  {
   "property": "C319",
   "status": "proved",
   "theorems": [
    "C319_output_is_the_views"
   ],
   "note": ""
  },
  {
   "property": "C320",
   "status": "partial",
   "theorems": [
    "C320_println_prints_refuted",
    "C320_println_case_refuted"
   ],
   "note": "Violated: PrintlnMsg is delivered to Update like any other message and nothing prints it; a program that does not draw it writes the same bytes whatever the text."
  },
  {
   "property": "C321",
   "status": "partial",
   "theorems": [
    "C321_mouse_never_delivered_refuted",
    "C321_click_no_message_refuted"
   ],
   "note": "Violated: no code of the program produces a MouseMsg, the option WithMouseAllMotion is stored and never read, and the reader turns mouse reports into no key (or wrong keys, C288); Update sees a mouse message only if the application sends one itself."
  },
  {
   "property": "C322",
   "status": "proved",
   "theorems": [
    "C322_email_modelled",
    "C322_email",
    "C322_accepted",
    "C322_not_text"
   ],
   "note": ""
  },
  {
   "property": "C323",
   "status": "proved",
   "theorems": [
    "C323_pattern",
    "C323_written",
    "C323_words"
   ],
   "note": ""
  },
  {
   "property": "C324",
   "status": "partial",
   "theorems": [
    "C324_plain_addresses_partial",
    "C324_addresses_refuted"
   ],
   "note": "Violated: the address o'brien@example.com is refused and a..b@-..example.com, which has empty atoms and labels, is accepted (C324_addresses_refuted). Proved: addresses whose name uses only letters, digits and . _ % + - and whose last label is two or more letters are accepted (C324_plain_addresses_partial)."
  },
  {
   "property": "C325",
   "status": "proved",
   "theorems": [
    "C325_modes_concurrent",
    "C325_no_deadlock",
    "C325_one_winner"
   ],
   "note": ""
  },
  {
   "property": "C326",
   "status": "proved",
   "theorems": [
    "C326_history_serial",
    "C326_no_deadlock",
    "C326_every_write_recorded"
   ],
   "note": ""
  },
  {
   "property": "C327",
   "status": "partial",
   "theorems": [
    "C327_newest_entry_refuted"
   ],
   "note": "Violated: Write hands the text to the provider before it takes the history's lock, so of two concurrent writes one can reach the clipboard last and the other the history last (C327_newest_entry_refuted). The package comment says concurrent writes are supported; the comment on the type says they are not. What does hold under concurrency is C326."
  },
  {
   "property": "C328",
   "status": "proved",
   "theorems": [
    "C328_failed_render_can_be_retried",
    "C328_retry_writes_the_frame"
   ],
   "note": ""
  },
  {
   "property": "C329",
   "status": "partial",
   "theorems": [
    "C329_partial_write_refuted"
   ],
   "note": "Violated: Render updates its state only after a successful write, but the terminal's cursor has already moved by the part that was written; the next frame moves up once more and is drawn over the rows above (C329_partial_write_refuted). The case that nothing was written is C328."
  },
  {
   "property": "C330",
   "status": "proved",
   "theorems": [
    "C330_nil_means_shown",
    "C330_only_a_beginning",
    "C330_no_false_errors",
    "C330_silent_after_error"
   ],
   "note": ""
  },
  {
   "property": "C331",
   "status": "partial",
   "theorems": [
    "C331_retry_refuted"
   ],
   "note": "Violated: the bufio.Writer inside the renderer keeps its first error for good, so after one failed write every later call fails and nothing reaches the screen (C331_retry_refuted; C330_silent_after_error says so for every history)."
  },
  {
   "property": "C332",
   "status": "partial",
   "theorems": [
    "C332_held_back_refuted"
   ],
   "note": "Violated: Batch collects the results of all its commands before it returns one BatchMsg, so a message waits for the slowest command; Batch(LoadData(), Tick(5*time.Second)), the documented periodic refresh, shows its data five seconds late."
  },
  {
   "property": "C333",
   "status": "proved",
   "theorems": [
    "C333_frames_are_whole",
    "C333_no_deadlock"
   ],
   "note": ""
  },
  {
   "property": "C334",
   "status": "partial",
   "theorems": [
    "C334_tutorial_names_refuted"
   ],
   "note": "Violated: the names of the arrows are the characters \u2191 \u2193 \u2190 \u2192, F1 is \"F1\", Shift+Tab is not decoded (C80), Ctrl+I and Ctrl+J are \"tab\" and \"enter\": no input ever gives one of the tutorials' names, so e.g. the counter of tutorial 01 does not react to the arrow keys, although the tutorial documents String() as returning \"up\"."
  },
  {
   "property": "C335",
   "status": "proved",
   "theorems": [
    "C335_characters_only"
   ],
   "note": ""
  },
  {
   "property": "C336",
   "status": "partial",
   "theorems": [
    "C336_passed_verbatim",
    "C336_rendering_is_safe_refuted",
    "C336_text_without_escape_partial"
   ],
   "note": "Violated: Render passes the text on unchanged, so \"\\x1b[2J\" in user content clears the screen. Proved for text without ESC (C336_text_without_escape_partial)."
  },
  {
   "property": "C337",
   "status": "partial",
   "theorems": [
    "C337_positions_validated_refuted"
   ],
   "note": "Violated: the parsers never see the terminal's size and accept any int64; a report with coordinate 0 gives a negative position."
  },
  {
   "property": "C338",
   "status": "proved",
   "theorems": [
    "C338_only_colours",
    "C338_cursor_colours",
    "C338_placeholder_colour",
    "C338_default_colours"
   ],
   "note": ""
  },
  {
   "property": "C339",
   "status": "proved",
   "theorems": [
    "C339_list_colours"
   ],
   "note": ""
  },
  {
   "property": "C340",
   "status": "proved",
   "theorems": [
    "C340_typing_appears"
   ],
   "note": ""
  },
  {
   "property": "C341",
   "status": "partial",
   "theorems": [
    "C341_last_line_vanishes_refuted",
    "C341_never_fewer_partial"
   ],
   "note": "Violated: joining two lines of \"a\", \"b\", \"c\", \"c\" leaves the text \"ab\", \"c\", \"c\" on a terminal that shows only \"ab\" and \"c\": the inline renderer erases the last line when it equals the one it drew at that place before (C148 reached through a component). Proved for texts whose lines never get fewer; C340 has the exact condition."
  },
  {
   "property": "C342",
   "status": "partial",
   "theorems": [
    "C342_readme_buttons_refuted",
    "C342_taken_keys_refuted",
    "C342_free_keys_partial"
   ],
   "note": "Violated: with the README's own buttons, Esc closes the modal without pressing Cancel (no ButtonPressedMsg), and Enter presses whichever button has the focus; a button whose key is Esc, Tab, Shift+Tab or an arrow is never pressed by it. Proved: every key other than those six presses its button."
  },
  {
   "property": "C343",
   "status": "proved",
   "theorems": [
    "C343_told_of_what_is_refused",
    "C343_home",
    "C343_no_validator",
    "C343_backspace",
    "C343_other_keys"
   ],
   "note": ""
  },
  {
   "property": "C344",
   "status": "proved",
   "theorems": [
    "C344_starts_as_documented"
   ],
   "note": ""
  },
  {
   "property": "C345",
   "status": "partial",
   "theorems": [
    "C345_edges_are_told_refuted",
    "C345_edges_are_told_partial"
   ],
   "note": "Violated: without a validator, or with one that accepts the row outside the text, nothing is told (C345_edges_are_told_refuted); C345_edges_are_told_partial: with a validator that refuses that row the handler is called once with it and nothing changes. The reason string is not part of the model: each event's reason is the constant its call site passes."
  },
  {
   "property": "C346",
   "status": "proved",
   "theorems": [
    "C346_table",
    "C346_modal",
    "C346_viewport",
    "C346_bar",
    "C346_spinner"
   ],
   "note": ""
  },
  {
   "property": "C347",
   "status": "partial",
   "theorems": [
    "C347_refuted"
   ],
   "note": "Violated: none of these components' View reads the theme (C347_refuted: no two histories differing in themes give different views, for any of the five). For text inputs and lists the theme is seen: C338, C339."
  },
  {
   "property": "C348",
   "status": "proved",
   "theorems": [
    "C348_frames_as_rendered",
    "C348_only_renderer_writes",
    "C348_own_drawings",
    "C348_screen_shows_drawings",
    "C348_buffer_blank"
   ],
   "note": ""
  },
  {
   "property": "C349",
   "status": "partial",
   "theorems": [
    "C349_resized_buffer_refuted",
    "C349_buffer_renderer_size_refuted",
    "C349_fresh_size_partial",
    "C349_unresized_size_partial"
   ],
   "note": "Violated: C349_resized_buffer_refuted: a buffer released before Resize is handed out again with its old size (Resize replaces only the pool's New); C349_buffer_renderer_size_refuted: after a standalone buffer of another size is rendered, Width()/Height() follow it and Buffer() does not. The partial theorems: Buffer() has the size of the last Resize if no buffer got before it is ever released, and the size the renderer was made with if it is only resized to that."
  },
  {
   "property": "C350",
   "status": "partial",
   "theorems": [
    "C350_double_release_refuted",
    "C350_standalone_partial"
   ],
   "note": "Violated: C350_double_release_refuted: the pool then holds the same buffer twice and Buffer() hands it out twice; drawing in one draws in the other. C350_standalone_partial: releasing a NewBuffer buffer any number of times changes nothing."
  },
  {
   "property": "C351",
   "status": "proved",
   "theorems": [
    "C351_frames_are_whole",
    "C351_no_deadlock"
   ],
   "note": ""
  },
  {
   "property": "C352",
   "status": "partial",
   "theorems": [
    "C352_concurrent_update_refuted",
    "C352_other_buffer_partial"
   ],
   "note": "Violated: C352_concurrent_update_refuted: a cell drawn after the frames were compared and written, but before Render copies the buffer, is remembered as shown: rendering again writes nothing and the screen never shows it. C352_other_buffer_partial: drawing in another buffer meanwhile disturbs nothing. (The type's own comment says that buffers are not safe for concurrent use; the package's says that they are.)"
  },
  {
   "property": "C353",
   "status": "proved",
   "theorems": [
    "C353_terminal_back",
    "C353_returns",
    "C353_no_other_wait"
   ],
   "note": ""
  },
  {
   "property": "C354",
   "status": "partial",
   "theorems": [
    "C354_ctrl_z_refuted",
    "C354_own_group_partial"
   ],
   "note": "Violated: with TransferForeground and CreateProcessGroup, the documented example, nobody notices that the command has stopped: the program waits for it to end (cmd.Wait is not told of stops), the command's stopped group keeps the terminal, so that neither the TUI nor the shell ever comes back and no key has an effect (C354_ctrl_z_refuted, from every state in which the command has the terminal). C354_own_group_partial: for a command in the program's own group the key stops both and the shell's fg continues both."
  },
  {
   "property": "C355",
   "status": "partial",
   "theorems": [
    "C355_early_read_refuted",
    "C355_after_transfer_partial",
    "C355_own_group_reads_partial"
   ],
   "note": "Violated: with both options the command is started before the terminal is handed over; one that reads in between is stopped by SIGTTIN, is never continued, and the terminal is locked as in C354 (C355_early_read_refuted). C355_after_transfer_partial: once the program waits, no read stops the command; C355_own_group_reads_partial: without the options it reads whenever it likes."
  },
  {
   "property": "C356",
   "status": "partial",
   "theorems": [
    "C356_group_only_refuted",
    "C356_transfer_only_refuted"
   ],
   "note": "Violated: CreateProcessGroup alone leaves the command without the terminal: it never reads anything, and if it tries, the call never returns (C356_group_only_refuted). TransferForeground alone names a group that does not exist: if the kernel refuses, the command is killed at once; if it accepts, the first read stops the command and the program (C356_transfer_only_refuted). The other two combinations: C355_after_transfer_partial and C355_own_group_reads_partial."
  },
  {
   "property": "C357",
   "status": "partial",
   "theorems": [
    "C357_zombie_refuted",
    "C357_reaped_partial"
   ],
   "note": "Violated: when the hand-over of the terminal is refused the command is killed but not waited for: a zombie stays as long as the program runs (C357_zombie_refuted). C357_reaped_partial: in all other cases nothing is left."
  },
  {
   "property": "C358",
   "status": "partial",
   "theorems": [
    "C358_ctrl_c_refuted",
    "C358_own_terminal_partial"
   ],
   "note": "Violated: a command started with ExecProcess shares the program's process group, the terminal is in its normal mode and the program does not catch SIGINT: Ctrl-C at a Python prompt ends the whole program (C358_ctrl_c_refuted). C358_own_terminal_partial: with both options, once the command has the terminal, no key ends or stops the program."
  },
  {
   "property": "C359",
   "status": "proved",
   "theorems": [
    "C359_modes_concurrent",
    "C359_answers",
    "C359_no_deadlock",
    "C359_one_winner"
   ],
   "note": ""
  },
  {
   "property": "C360",
   "status": "partial",
   "theorems": [
    "C360_clear_race_refuted"
   ],
   "note": "Violated: the drawing calls read the object's handle without the lock; if another goroutine's ExitAltScreen runs between the lines of Clear, the user's own screen is blanked (C360_clear_race_refuted). Without such an overlap the user's screen comes back as it was: C235_round_trip."
  },
  {
   "property": "C361",
   "status": "proved",
   "theorems": [
    "C361_highlighted_button_is_the_answer"
   ],
   "note": ""
  },
  {
   "property": "C362",
   "status": "proved",
   "theorems": [
    "C362_marked_option_is_chosen"
   ],
   "note": ""
  },
  {
   "property": "C363",
   "status": "proved",
   "theorems": [
    "C363_ticked_options_are_delivered"
   ],
   "note": ""
  }
 ]
}