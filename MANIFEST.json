{
 "claims": [
  {
   "property": "C01",
   "status": "proved",
   "theorems": [
    "C01_order_sound"
   ],
   "note": ""
  },
  {
   "property": "C02",
   "status": "proved",
   "theorems": [
    "C02_order_iff_acyclic",
    "C02_build_no_panic",
    "C02_unlimited_fanout_refuted"
   ],
   "note": "More than 64 distinct targets of one node panic (refutation witness)."
  },
  {
   "property": "C03",
   "status": "proved",
   "theorems": [
    "C03_has_path_sound",
    "C03_has_path_total_on_acyclic_refuted"
   ],
   "note": "has_path answers None on acyclic diamonds (refutation witness)."
  },
  {
   "property": "C04",
   "status": "proved",
   "theorems": [
    "C04_step_is_geometric",
    "C04_step_back",
    "C04_adjacent_exact",
    "C04_adjacent_sym"
   ],
   "note": ""
  },
  {
   "property": "C05",
   "status": "partial",
   "theorems": [
    "C05_path_reaches_target_partial",
    "C05_path_exact",
    "C05_far_path_refuted"
   ],
   "note": "Characterised exactly (C05_path_exact): the path leads to the target if some neighbour of the source has a squared distance below 99999 from it, which holds in particular up to a squared distance of 99999; otherwise the code returns an empty path, so the unrestricted statement is false (refuted witness)."
  },
  {
   "property": "C06",
   "status": "proved",
   "theorems": [
    "C06_place_get",
    "C06_get_bounds",
    "C06_history",
    "C06_position",
    "C06_position_large_refuted"
   ],
   "note": "Positions of cells are truncated to 8 bits in larger matrices (refuted witness)."
  },
  {
   "property": "C07",
   "status": "proved",
   "theorems": [
    "C07_edges_exact",
    "C07_sync_rejects_exactly_cycles"
   ],
   "note": ""
  },
  {
   "property": "C08",
   "status": "proved",
   "theorems": [
    "C08_check_exact",
    "C08_sync_reports_duplicates_refuted"
   ],
   "note": "check is exact; sync does not look for duplicates (refuted witness)."
  },
  {
   "property": "C09",
   "status": "partial",
   "theorems": [
    "C09_change_matrix_atomic",
    "C09_change_matrix_err_atomic",
    "C09_used_inputs_after_success",
    "C09_used_inputs_after_failure_refuted",
    "C09_nested_transactions_refuted",
    "C09_restore_once"
   ],
   "note": "Rollback proved for closures that do not start transactions themselves; the used-input report is wrong after a rejected transaction and nested transactions lose the snapshot (refuted witnesses)."
  },
  {
   "property": "C10",
   "status": "proved",
   "theorems": [
    "C10_listing_exact",
    "C10_listing_symmetric"
   ],
   "note": ""
  },
  {
   "property": "C11",
   "status": "proved",
   "theorems": [
    "C11_port_ranges_tile",
    "C11_modulators",
    "C11_local_to_global",
    "C11_modulator_lookup_refuted"
   ],
   "note": "For every reachable configuration; table_ok (at most 32 inputs per node kind, distinct atom indices, Nop cannot be created) is asked of the node table. Modulator lookup for input number 32 panics (refuted)."
  },
  {
   "property": "C12",
   "status": "proved",
   "theorems": [
    "C12_program_follows_layout",
    "C12_sync_succeeds",
    "C12_257_nodes_refuted",
    "C12_input_32_refuted"
   ],
   "note": "For every history of matrix calls and every state of the audio thread, with at most 256 created nodes. More than 256 nodes and input number 32 are refuted with concrete boards."
  },
  {
   "property": "C13",
   "status": "proved",
   "theorems": [
    "C13_block_is_dataflow"
   ],
   "note": "Engine level, any interleaving, boards of at most 256 nodes. Node semantics is an abstract function; modulators, wiring, order are modelled."
  },
  {
   "property": "C14",
   "status": "proved",
   "theorems": [
    "C14_set_survives",
    "C14_set_independent",
    "C14_default"
   ],
   "note": "Histories of sets, modulation changes, node creations, rebuilds, uploads and dump loads."
  },
  {
   "property": "C15",
   "status": "proved",
   "theorems": [
    "C15_dump_restores"
   ],
   "note": "Any entry order, any target configuration. Asks that the stored value survives denormalise/normalise (see C41) and that samples are already loaded."
  },
  {
   "property": "C16",
   "status": "proved",
   "theorems": [
    "C16_creation_in_order",
    "C16_unused_is_free",
    "C16_unused_terminates",
    "C16_unused_full_board_refuted"
   ],
   "note": "Every sequence of matrix calls. When all 256 instances of a kind are on the board the search never returns (proved, with a concrete 16x16 board)."
  },
  {
   "property": "C17",
   "status": "proved",
   "theorems": [
    "C17_reaches_target",
    "C17_done_after",
    "C17_straight_line"
   ],
   "note": "Reaching the target exactly holds for any arithmetic; the straight line is exact (rational) arithmetic."
  },
  {
   "property": "C18",
   "status": "proved",
   "theorems": [
    "C18_settled",
    "C18_never_fails",
    "C18_settles",
    "C18_full_queue_refuted",
    "C18_many_changes_refuted",
    "C18_clear_while_smoothing_refuted",
    "C18_lost_upload_refuted",
    "C18_monitor_refuted",
    "C18_empty_block_refuted",
    "C18_amounts",
    "C18_failed_amount_refuted"
   ],
   "note": "For every interleaving of API calls, message handling, blocks and releases that keeps to the limits (calm_reachable: the messages of a call fit into the queue, a changed parameter finds a smoother, nothing is smoothed when everything is removed). Outside of the limits it is refuted: a lost update stays lost even after an upload, the 41st simultaneous change is dropped, clearing while smoothing makes the next block fail. C18_amounts: the modulation amounts of the running program are those of the frontend (tuned: every message fits into the queue, and the calls that set amounts since the last successful synchronisation gave no error); C18_failed_amount_refuted: after a call that gave an error the frontend reports an amount that the audio thread does not use."
  },
  {
   "property": "C19",
   "status": "proved",
   "theorems": [
    "C19_buffers_owned_once",
    "C19_release_never_fails",
    "C19_no_leak"
   ],
   "note": "Over every interleaving of frontend calls, message handling, blocks and releases, with arbitrary node behaviour that writes full blocks; the C19_example run meets the hypotheses."
  },
  {
   "property": "C20",
   "status": "proved",
   "theorems": [
    "C20_delivery",
    "C20_injected_order_refuted",
    "C20_limit_refuted"
   ],
   "note": "For any time-ordered event list and any block sizes within the per-block limits. Two statements that fail in the code are refuted: events injected together are delivered in reverse, and more than 512 notes in a block make a later block underflow."
  },
  {
   "property": "C21",
   "status": "partial",
   "theorems": [
    "C21_set_cell",
    "C21_clear_cell",
    "C21_change_cell",
    "C21_outside",
    "C21_shown_partial",
    "C21_shown_after_set",
    "C21_shown_refuted"
   ],
   "note": "Reading back, clearing, changing and editing outside are proved for every history. The shown text is that of the current value in every history that loads no stored pattern; C21_shown_refuted shows that loading one leaves stale texts."
  },
  {
   "property": "C22",
   "status": "proved",
   "theorems": [
    "C22_roundtrip"
   ],
   "note": "For every reachable pattern, loaded into any other reachable pattern. The JSON layer is not part of this theorem."
  },
  {
   "property": "C23",
   "status": "partial",
   "theorems": [
    "C23_backend_plays_pattern_partial",
    "C23_backend_plays_current",
    "C23_heard_at_phase",
    "C23_rows_change_refuted",
    "C23_overflow_refuted",
    "C23_second_backend_refuted",
    "C23_new_backend"
   ],
   "note": "Proved for every history without a dropped message, with the row count of the last send of each column, down to the samples of all four column types (C23_heard_at_phase). The unrestricted claim is false: a change of the row count does not resend value columns, an overflowing queue loses the last update and a second backend is not sent the pattern."
  },
  {
   "property": "C24",
   "status": "proved",
   "theorems": [
    "C24_round",
    "C24_text",
    "C24_newer",
    "C24_unknown",
    "C24_nan_refuted",
    "C24_micro_refuted",
    "C24_atom_port_refuted",
    "C24_huge_version_refuted",
    "C24_long_pattern_refuted",
    "C24_dropped_atom"
   ],
   "note": "Proved for descriptions whose numbers fit the JSON integers, with finite floats, micro samples of 8 values and ports that exist (repr_fits); the text of a tree is quantified over as any print/parse pair. Refuted outside of that: NaN, short micro samples, atom ports, versions that are no i64."
  },
  {
   "property": "C25",
   "status": "proved",
   "theorems": [
    "C25_atomic",
    "C25_completes",
    "C25_history",
    "C25_save_load",
    "C25_link_refuted",
    "C25_tilde_refuted"
   ],
   "note": "System calls as steps, stopped after any of them; rename is atomic and the page cache survives (no power loss: the code does not sync). Refuted if the tilde name is a link to the file."
  },
  {
   "property": "C26",
   "status": "proved",
   "theorems": [
    "C26_load",
    "C26_file",
    "C26_empty_pattern_refuted",
    "C26_rows_refuted"
   ],
   "note": "Refuted: a pattern or block function that is empty in the source is not emptied in the target; a pattern whose only change is its row count is not saved. A modulation amount for a parameter that never got a value is not part of the dump (see the spec of saved values)."
  },
  {
   "property": "C27",
   "status": "partial",
   "theorems": [
    "C27_exact",
    "C27_delay_partial",
    "C27_writer_first",
    "C27_first_sample_refuted",
    "C27_late_writer_refuted",
    "C27_order_refuted"
   ],
   "note": "What a reader puts out is characterised exactly for every history (C27_exact). The delay is exactly 138 samples from the second sample on when reader and writer both run from the start with the reader first. As stated it is false: the first sample is lost, the delay is zero if the writer runs before the reader, and depends on the block partition if the writer starts later (refutation theorems)."
  },
  {
   "property": "C28",
   "status": "proved",
   "theorems": [
    "C28_kinds",
    "C28_inputs",
    "C28_params",
    "C28_atoms",
    "C28_outputs",
    "C28_settings",
    "C28_categories",
    "C28_table_ok",
    "C28_info_refuted",
    "C28_defaults",
    "C28_defaults_refuted"
   ],
   "note": "All name, index and parameter tables agree for all 42 node kinds, and the real table meets the hypothesis table_ok used by the configurator theorems. Defaults lie in range (in exact arithmetic, up to 2^-24) except the two high pass cutoffs of the plate reverb, which is refuted; the NodeInfo atom names of smap are refuted as well."
  },
  {
   "property": "C29",
   "status": "proved",
   "theorems": [
    "C29_monitor",
    "C29_current",
    "C29_refused",
    "C29_limit_refuted"
   ],
   "note": "Every interleaving of audio, monitor and frontend thread steps. Windows with all samples beyond +-100 are clipped (refutation)."
  },
  {
   "property": "C30",
   "status": "proved",
   "theorems": [
    "C30_peaks",
    "C30_all_sampled",
    "C30_missed_refuted",
    "C30_first_refuted"
   ],
   "note": ""
  },
  {
   "property": "C31",
   "status": "proved",
   "theorems": [
    "C31_described",
    "C31_upload",
    "C31_audio_values",
    "C31_update",
    "C31_runs",
    "C31_circular_builders_refuted",
    "C31_rejected_graph_stays_refuted",
    "C31_update_drops_inputs_refuted"
   ],
   "note": "For every history of upload, update_params and clear, any builders and any (permuting) iteration order of the maps: an upload succeeds iff everything said since the last clear is acyclic, sends one program, and this program runs every named node once, producers first, with every input connected to the last source given and the values last given (up to 256 nodes). A cyclic graph is rejected and nothing is sent. update_params without an upload sets every value it mentions, in the configurator and in what the audio thread is sent. Calls with builders that are not circular never crash. Refuted: circular builders overflow the stack; a rejected graph is kept and blocks later uploads until clear; update_params ignores new inputs."
  },
  {
   "property": "C32",
   "status": "proved",
   "theorems": [
    "C32_wellformed",
    "C32_total",
    "C32_wide_filler_refuted",
    "C32_filler_areas_refuted",
    "C32_clone_into_itself_refuted"
   ],
   "note": "Every history of edit calls with errors, saves and loads, for every set of block types with at least one row. Conditions shown necessary by the refutations: fillers of a split have one row (and, for termination, no areas), clones go into existing areas."
  },
  {
   "property": "C33",
   "status": "proved",
   "theorems": [
    "C33_unchanged",
    "C33_reads",
    "C33_move_refuted",
    "C33_clone_areas_refuted"
   ],
   "note": "A failing move to an area that does not exist deletes the block (refuted); a failing clone leaves empty areas behind."
  },
  {
   "property": "C34",
   "status": "proved",
   "theorems": [
    "C34_chain",
    "C34_same_chain"
   ],
   "note": "For taking out and for copying a chain, in every program reached by edit calls."
  },
  {
   "property": "C35",
   "status": "proved",
   "theorems": [
    "C35_reads",
    "C35_loads"
   ],
   "note": "For programs whose numbers fit the JSON integers, any order of the hash maps."
  },
  {
   "property": "C36",
   "status": "proved",
   "theorems": [
    "C36_dataflow",
    "C36_one_meaning",
    "C36_swapped_inputs_refuted",
    "C36_no_output_refuted",
    "C36_same_names_refuted",
    "C36_if_refuted"
   ],
   "note": "For every edited program meeting prog_ok and every library meeting lib_ok; without the conditions it is refuted (swapped inputs behind a block with several outputs, no open output, port names equal in their first two letters, \"if\"). The semantics of the generated code is the specification in S_Comp.v (the JIT is an external crate)."
  },
  {
   "property": "C37",
   "status": "proved",
   "theorems": [
    "C37_shift",
    "C37_permutes",
    "C37_round",
    "C37_same_row",
    "C37_same_row_refuted"
   ],
   "note": "Through the edit call for every reached program and for single blocks; shifting the same row again and again is described exactly (C37_same_row), it does not restore the order after as many shifts as rows (refuted)."
  },
  {
   "property": "C38",
   "status": "proved",
   "theorems": [
    "C38_places",
    "C38_params",
    "C38_same_instances",
    "C38_error",
    "C38_describe_total",
    "C38_wrong_instance_refuted",
    "C38_two_of_a_kind_refuted",
    "C38_used_instance_refuted",
    "C38_set_panics_refuted",
    "C38_second_place_refuted"
   ],
   "note": "Placement, ports, instances, parameters and errors for every description. 'On the very instances it placed' holds when each kind occurs once and its first instance is unused (C38_same_instances) and is false otherwise (refutations); parameters go to the named node."
  },
  {
   "property": "C39",
   "status": "proved",
   "theorems": [
    "C39_reads",
    "C39_recording"
   ],
   "note": "The long time range (min/max) branch of the scope node and the trigger are not modelled."
  },
  {
   "property": "C40",
   "status": "proved",
   "theorems": [
    "C40_delivery",
    "C40_511_refuted",
    "C40_513_refuted",
    "C40_interrupted_refuted",
    "C40_cut_refuted"
   ],
   "note": "Messages of at most 510 bytes; the refutations show what happens beyond."
  },
  {
   "property": "C41",
   "status": "proved",
   "theorems": [
    "C41_scales",
    "C41_pitch",
    "C41_params"
   ],
   "note": "Exact real arithmetic; f32 rounding is not modelled. The decibel conversions of the external crate synfx_dsp enter as parameters with the hypothesis that they are inverse to each other."
  },
  {
   "property": "C42",
   "status": "proved",
   "theorems": [
    "C42_smap_clips",
    "C42_smap_linear",
    "C42_map_linear",
    "C42_map_clips",
    "C42_map_folds_refuted",
    "C42_smap_single_refuted",
    "C42_map_nan_refuted"
   ],
   "note": "Simple mapper: exact arithmetic for all inputs, modes and ranges; in single precision the rounding can overshoot (refuted by a witness). Mapper: clipping proved for all single precision floats, linearity in exact arithmetic; inputs below the input range are folded back (refuted witness), a NaN bound panics (witness)."
  },
  {
   "property": "C43",
   "status": "proved",
   "theorems": [
    "C43_triggers",
    "C43_select",
    "C43_select_even",
    "C43_history",
    "C43_inverse",
    "C43_setting_refuted"
   ],
   "note": "The trigger detectors are those of an external crate and enter as booleans per frame; the selection value is a rational number."
  },
  {
   "property": "C44",
   "status": "partial",
   "theorems": [
    "C44_gate_partial",
    "C44_note",
    "C44_note_all_modes",
    "C44_midi_mode",
    "C44_trigger_mode",
    "C44_gate_len_mode",
    "C44_two_ons_refuted",
    "C44_off_on_refuted",
    "C44_restart_gap_refuted"
   ],
   "note": "Proved when no frame has two note events of the channel (the full statement is refuted in the code by two witnesses). The note, the velocity and the trigger mode hold without this restriction. The trigger and gate generators are those of an external crate and enter as parameters."
  },
  {
   "property": "C45",
   "status": "proved",
   "theorems": [
    "C45_row_inside",
    "C45_rows_in_order",
    "C45_gate_row_inside",
    "C45_equal_share"
   ],
   "note": "In range and in order for every rounding to nearest onto a set that contains the 24 bit numbers (f32, exact arithmetic); the equal shares are stated in exact arithmetic, the last row is shorter by 0.00001 rows."
  },
  {
   "property": "C46",
   "status": "proved",
   "theorems": [
    "C46_cluster_only_into_empty_cells"
   ],
   "note": ""
  },
  {
   "property": "C47",
   "status": "proved",
   "theorems": [
    "C47_frame",
    "C47_gates_of_row",
    "C47_full_length",
    "C47_row_all_or_nothing",
    "C47_new_row_draws",
    "C47_never_panics",
    "C47_phase_mode",
    "C47_lone_chance_row_refuted",
    "C47_fresh_decision_refuted",
    "C47_wide_cell_refuted",
    "C47_loaded_rows_refuted"
   ],
   "note": "For cells of three digits and up to 256 rows, for every rounding to nearest and every random number generator; the equal parts of a row are stated in exact arithmetic. Refuted beyond the claim: a row that alone is left to chance keeps its first decision for ever; cells of four digits, which the editor accepts, are silent; a stored pattern with more than 256 rows makes the audio thread panic."
  },
  {
   "property": "C48",
   "status": "proved",
   "theorems": [
    "C48_outputs",
    "C48_led",
    "C48_same_controller_refuted"
   ],
   "note": "The slew limiter is that of an external crate and enters as a parameter. Values are integers where the code has f32; they are only copied."
  },
  {
   "property": "C49",
   "status": "partial",
   "theorems": [
    "C49_never_panics",
    "C49_never_panics_declick",
    "C49_modulated",
    "C49_plays_once",
    "C49_loops",
    "C49_declick_fast_refuted",
    "C49_declick_length_refuted",
    "C49_ends_refuted"
   ],
   "note": "Playback is proved for constant parts (C49_plays_once, C49_loops) and for every modulation (C49_modulated) without the ramps against clicks. With the ramps the absence of panics is proved for steps up to one and parts of one length; beyond that it is refuted. The one shot mode plays one sample too many, and its end is refuted for steps as long as the part."
  },
  {
   "property": "C50",
   "status": "proved",
   "theorems": [
    "C50_exchange",
    "C50_total",
    "C50_exclusive",
    "C50_runs_what_was_sent",
    "C50_preserved_for_first_use",
    "C50_dummy",
    "C50_dummy_is_silent"
   ],
   "note": "C50_exchange: every interleaving of the steps of the two threads gives the outputs of a history of calls that happen at one moment (S_Dyn: happened, code, outputs). C50_runs_what_was_sent, C50_preserved_for_first_use, C50_dummy, C50_dummy_is_silent: what the history says about the code run. C50_total: no step is blocked. C50_exclusive: writer and reader have different slots. The crate triple_buffer is external and modelled by its documented operations."
  },
  {
   "property": "C51",
   "status": "proved",
   "theorems": [
    "C51_published",
    "C51_heard",
    "C51_nothing_else",
    "C51_through"
   ],
   "note": "Out, Inp, Amp and Mix3 on top of the engine model; float operations are parameters. If several Out nodes exist, the last one in the program is heard. That the own values and modulation amounts in force are those of the frontend is C18."
  },
  {
   "property": "C52",
   "status": "proved",
   "theorems": [
    "C52_never_panics",
    "C52_load",
    "C52_again",
    "C52_path",
    "C52_others",
    "C52_errors",
    "C52_no_errors"
   ],
   "note": "The WAV reader is external and modelled by what it gives; the conversions to floats are parameters."
  },
  {
   "property": "C53",
   "status": "partial",
   "theorems": [
    "C53_property_told",
    "C53_property_value",
    "C53_parameter_told_partial",
    "C53_monitor_told_partial",
    "C53_program_told_partial",
    "C53_copy_up_to_date_partial",
    "C53_no_false_alarm",
    "C53_generation_partial",
    "C53_amount_exact",
    "C53_published",
    "C53_amount_change_silent_refuted",
    "C53_generation_refuted",
    "C53_publish_silent_refuted"
   ],
   "note": "Proved for every call but changes of modulation amounts, and for those that set an amount where there was none or take one away on a published matrix. The full statement is false of the code: changing an amount to another tells the observer nothing, setting one publishes unpublished cells and refreshes the monitored cell without telling, and a failing one changes the amount but not the generation (refuted witnesses). C53_amount_exact says exactly when an amount is told."
  },
  {
   "property": "C54",
   "status": "proved",
   "theorems": [
    "C54_same_blocks",
    "C54_same_order",
    "C54_all_told",
    "C54_injected_at_most_once",
    "C54_injected_once",
    "C54_round_trip",
    "C54_order_refuted",
    "C54_overflow_refuted",
    "C54_injected_limit_refuted"
   ],
   "note": "The refuted theorems show that each restriction is needed: events injected together are reversed, a full ring loses events and so do more than 64 injections before a block."
  },
  {
   "property": "C55",
   "status": "proved",
   "theorems": [
    "C55_copy_knows_position",
    "C55_free_places",
    "C55_first_free",
    "C55_connected",
    "C55_connected_flows",
    "C55_unconnected",
    "C55_grow",
    "C55_edge_label",
    "C55_named_input",
    "C55_named_output",
    "C55_unknown_name",
    "C55_named_side_refuted",
    "C55_get_position_refuted",
    "C55_dangling_refuted",
    "C55_empty_connected_refuted"
   ],
   "note": "The refuted theorems show the limits: cells read by reference from a new matrix do not know their position, empty cells with ports count as connected, the doc's dangling ports include directions without a port, and names are accepted on the wrong side."
  },
  {
   "property": "C56",
   "status": "proved",
   "theorems": [
    "C56_range",
    "C56_idempotent",
    "C56_monotone",
    "C56_grid",
    "C56_nested",
    "C56_nested_refuted",
    "C56_shortest_refuted",
    "C56_steps_refuted"
   ],
   "note": "In exact arithmetic; the decibel conversions of synfx_dsp are taken to be inverse to each other. Refuted: coarsely rounded frequencies stay under fine rounding; the coarse rounding of 0.1 ms; param_steps returns the range, never the steps."
  },
  {
   "property": "C57",
   "status": "proved",
   "theorems": [
    "C57_total",
    "C57_settings",
    "C57_wait",
    "C57_triggered_long",
    "C57_triggered_short",
    "C57_running_long",
    "C57_running_short",
    "C57_sweep",
    "C57_time_refuted",
    "C57_first_refuted",
    "C57_stale_refuted"
   ],
   "note": "Sample values are integers (no NaN), times exact rationals; the trigger detector of synfx_dsp is any state machine. Refuted: the picture has the set time range; the first point of a new node and the first one after a short time range show only their own frames."
  },
  {
   "property": "C58",
   "status": "proved",
   "theorems": [
    "C58_output",
    "C58_complete",
    "C58_steady",
    "C58_live",
    "C58_led",
    "C58_phase",
    "C58_stale_refuted",
    "C58_led_stale_refuted",
    "C58_led_panic_refuted"
   ],
   "note": "Refuted: reported values always belong to the node asked for (not before an update, not for LEDs before the first block); led_value_for never panics (over 256 nodes). The triple buffer is modelled as its three slots, index exchange and dirty flag. Node behaviour is any function that keeps the number of outputs."
  },
  {
   "property": "C59",
   "status": "proved",
   "theorems": [
    "C59_generation",
    "C59_current",
    "C59_always",
    "C59_reported",
    "C59_quiet",
    "C59_others",
    "C59_error_once_refuted",
    "C59_retrieve_refuted",
    "C59_lost_refuted"
   ],
   "note": "The edits that the check cannot notice are excluded (noticed) and shown to break the property; a check after a failed one is shown to answer Ok."
  },
  {
   "property": "C60",
   "status": "proved",
   "theorems": [
    "C60_block_lengths",
    "C60_complete",
    "C60_once_per_block_refuted"
   ],
   "note": "nodes are any frame-by-frame functions with a state of their own; nodes that read parameters once per block are shown to break the claim"
  },
  {
   "property": "C61",
   "status": "proved",
   "theorems": [
    "C61_range",
    "C61_latest",
    "C61_step",
    "C61_no_randomness",
    "C61_rounding_possible",
    "C61_narrow_refuted"
   ],
   "note": "rounding is a parameter with monotonicity, idempotence and the error bounds of f32; instances: exact arithmetic and rounding to a grid"
  },
  {
   "property": "C62",
   "status": "proved",
   "theorems": [
    "C62_switch",
    "C62_limits",
    "C62_notch_peak",
    "C62_unknown_type_refuted",
    "C62_biquad_current",
    "C62_biquad_fixed",
    "C62_order_refuted",
    "C62_va_filter",
    "C62_va_no_ladder",
    "C62_ladder_mode_refuted"
   ],
   "note": "the exceptions (unknown type, order above 3, ladder mode changed while another filter is selected) are refuted by witnesses"
  },
  {
   "property": "C63",
   "status": "proved",
   "theorems": [
    "C63_sin_ends",
    "C63_sin_phase",
    "C63_sin_hang_refuted",
    "C63_formfm_range",
    "C63_noise_range",
    "C63_noise_reset",
    "C63_noise_seeds"
   ],
   "note": "below -2^24 termination is refuted with single precision floats"
  },
  {
   "property": "C64",
   "status": "proved",
   "theorems": [
    "C64_recording",
    "C64_silence",
    "C64_length"
   ],
   "note": ""
  },
  {
   "property": "C65",
   "status": "proved",
   "theorems": [
    "C65_reverb",
    "C65_delay",
    "C65_filters",
    "C65_ad",
    "C65_adsr",
    "C65_lfo",
    "C65_external",
    "C65_quantizers",
    "C65_test",
    "C65_looks"
   ],
   "note": "The DSP objects of synfx_dsp are parameters. That a new node starts in its initial state after clear is not modelled."
  },
  {
   "property": "C66",
   "status": "proved",
   "theorems": [
    "C66_basic",
    "C66_vector",
    "C66_bowed",
    "C66_same_pitch",
    "C66_limits",
    "C66_string",
    "C66_bow",
    "C66_rest",
    "C66_starts",
    "C66_tuning"
   ],
   "note": "The DSP objects of synfx_dsp are parameters. C66_same_pitch, C66_limits, C66_string, C66_bow, C66_rest, C66_starts and C66_tuning are about exact arithmetic."
  },
  {
   "property": "C67",
   "status": "proved",
   "theorems": [
    "C67_random",
    "C67_count",
    "C67_any",
    "C67_every",
    "C67_lists",
    "C67_catalogue",
    "C67_phases",
    "C67_useful_refuted",
    "C67_many_refuted"
   ],
   "note": "The random numbers are arbitrary. C67_useful_refuted and C67_many_refuted show where empty entries appear."
  },
  {
   "property": "C68",
   "status": "proved",
   "theorems": [
    "C68_ad",
    "C68_adsr",
    "C68_bosc",
    "C68_vosc",
    "C68_tslfo",
    "C68_test",
    "C68_repeatable",
    "C68_inside"
   ],
   "note": "The pictures of the stateful graphs are repeatable under the hypothesis that the resets of synfx_dsp forget the past."
  },
  {
   "property": "C69",
   "status": "proved",
   "theorems": [
    "C69_instanciate",
    "C69_remove",
    "C69_move",
    "C69_clone",
    "C69_move_chain",
    "C69_split"
   ],
   "note": "Shifting ports is in C32/C33's model; recalculation and snapshots are not edits of blocks. Cloned blocks get new empty areas, not copies of the contents (see the findings)."
  },
  {
   "property": "C70",
   "status": "proved",
   "theorems": [
    "C70_recalculated",
    "C70_loaded",
    "C70_owned"
   ],
   "note": "Areas that do not shrink (the root) get the larger of their old size and the least size for what is in them."
  },
  {
   "property": "C71",
   "status": "proved",
   "theorems": [
    "C71_runs",
    "C71_taken",
    "C71_cut",
    "C71_copy"
   ],
   "note": "With a block of no frames the LEDs show 0. That a program which is accepted before the node exists is lost, or not, is a matter of the engine (another crate) and not modelled."
  },
  {
   "property": "C72",
   "status": "proved",
   "theorems": [
    "C72_octaves",
    "C72_knob",
    "C72_midi",
    "C72_tracker"
   ],
   "note": "In exact arithmetic. Cells above key 189 are cut to it (the clamp in the pattern)."
  },
  {
   "property": "C73",
   "status": "proved",
   "theorems": [
    "C73_scopes",
    "C73_trackers",
    "C73_has_tracker"
   ],
   "note": "Only the sequencer that was fetched last is followed (older ones are disconnected). Each call is atomic, as under the lock of the table or of the pattern."
  }
 ]
}
