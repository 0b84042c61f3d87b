{
 "claims": [
  {
   "property": "C01",
   "status": "proved",
   "theorems": [
    "C01_backward_search",
    "C01_forward_search",
    "C01_exact_backward",
    "C01_exact_forward"
   ],
   "note": ""
  },
  {
   "property": "C02",
   "status": "proved",
   "theorems": [
    "C02_fold_rune",
    "C02_fold_string",
    "C02_fold_prefix",
    "C02_exact",
    "C02_exact_string",
    "C02_exact_prefix"
   ],
   "note": ""
  },
  {
   "property": "C03",
   "status": "proved",
   "theorems": [
    "C03_aggregate"
   ],
   "note": ""
  },
  {
   "property": "C04",
   "status": "proved",
   "theorems": [
    "C04_prompt_width",
    "C04_prompt_filtered",
    "C04_trailing_esc_panics",
    "C04_unfinished",
    "C04_other_csi_refuted",
    "C04_other_escape",
    "C04_title_refuted"
   ],
   "note": "Stated for prompts made of visible runes and complete SGR sequences, as the property says. C04_other_csi_refuted documents that other escape sequences are mis-measured."
  },
  {
   "property": "C05",
   "status": "proved",
   "theorems": [
    "C05_utf8_roundtrip",
    "C05_utf8_valid",
    "C05_utf8_bytes",
    "C05_decode_total",
    "C05_decode_scalars"
   ],
   "note": ""
  },
  {
   "property": "C06",
   "status": "proved",
   "theorems": [
    "C06_cursor_inside",
    "C06_step",
    "C06_short_transpose_refuted",
    "C06_rune_slice"
   ],
   "note": "As stated (with the exclusion). C06_short_transpose_refuted is the excluded case."
  },
  {
   "property": "C07",
   "status": "proved",
   "theorems": [
    "C07_motion_keeps_text"
   ],
   "note": ""
  },
  {
   "property": "C08",
   "status": "proved",
   "theorems": [
    "C08_insert_at_cursor",
    "C08_line_form"
   ],
   "note": ""
  },
  {
   "property": "C09",
   "status": "proved",
   "theorems": [
    "C09_backspace",
    "C09_backspace_at_start",
    "C09_delete",
    "C09_delete_at_end"
   ],
   "note": ""
  },
  {
   "property": "C10",
   "status": "proved",
   "theorems": [
    "C10_kill_removes_range",
    "C10_kill_then_yank",
    "C10_yank",
    "C10_ctrl_k",
    "C10_ctrl_u",
    "C10_erase"
   ],
   "note": ""
  },
  {
   "property": "C11",
   "status": "partial",
   "theorems": [
    "C11_cut_previous_word_partial",
    "C11_first_word_erases_line",
    "C11_cut_previous_word_refuted"
   ],
   "note": "False when the word starts at column 0: C11_first_word_erases_line gives the exact behaviour there, C11_cut_previous_word_refuted a witness; C11_cut_previous_word_partial covers every other case."
  },
  {
   "property": "C12",
   "status": "proved",
   "theorems": [
    "C12_backward_word",
    "C12_forward_word",
    "C12_end_of_word"
   ],
   "note": ""
  },
  {
   "property": "C13",
   "status": "proved",
   "theorems": [
    "C13_delete_word",
    "C13_delete_word_at_end"
   ],
   "note": ""
  },
  {
   "property": "C14",
   "status": "proved",
   "theorems": [
    "C14_transpose",
    "C14_transpose_short"
   ],
   "note": ""
  },
  {
   "property": "C15",
   "status": "proved",
   "theorems": [
    "C15_find_left",
    "C15_find_right"
   ],
   "note": ""
  },
  {
   "property": "C16",
   "status": "proved",
   "theorems": [
    "C16_panics_exactly",
    "C16_otherwise_succeeds"
   ],
   "note": ""
  },
  {
   "property": "C17",
   "status": "proved",
   "theorems": [
    "C17_session",
    "C17_session_start",
    "C17_bounded",
    "C17_bounded_after_load"
   ],
   "note": "C17_session, C17_session_start: the same bound at the prompt, for all keys mixed with SaveHistory, ResetHistory, HistoryDisable and HistoryEnable, with any history file."
  },
  {
   "property": "C18",
   "status": "partial",
   "theorems": [
    "C18_submitted_lines",
    "C18_submitted_lines_fresh",
    "C18_after_submit",
    "C18_first_empty_line_refuted"
   ],
   "note": "Proved from any prompt with recorded lines, and from an empty history unless the very first event is an empty line: C18_first_empty_line_refuted. Between submissions one entry less than HistoryLimit may be kept because the line being edited counts."
  },
  {
   "property": "C19",
   "status": "proved",
   "theorems": [
    "C19_up_down",
    "C19_prev",
    "C19_next",
    "C19_keys"
   ],
   "note": ""
  },
  {
   "property": "C20",
   "status": "proved",
   "theorems": [
    "C20_recorded_text",
    "C20_edit_shown",
    "C20_moves_keep_edits",
    "C20_revert",
    "C20_submit_drops_edits"
   ],
   "note": ""
  },
  {
   "property": "C21",
   "status": "proved",
   "theorems": [
    "C21_no_nil"
   ],
   "note": ""
  },
  {
   "property": "C22",
   "status": "proved",
   "theorems": [
    "C22_load",
    "C22_file_after_load",
    "C22_session"
   ],
   "note": ""
  },
  {
   "property": "C23",
   "status": "proved",
   "theorems": [
    "C23_crash_atomic",
    "C23_crash_mid_write",
    "C23_completes",
    "C23_write_failure_refuted"
   ],
   "note": "As stated: atomic when the writes succeed, and C23_write_failure_refuted shows the truncated file after an ignored write error."
  },
  {
   "property": "C24",
   "status": "partial",
   "theorems": [
    "C24_torn_line_partial",
    "C24_refuted"
   ],
   "note": "False: C24_refuted. C24_torn_line_partial says exactly what happens to every unterminated line."
  },
  {
   "property": "C25",
   "status": "partial",
   "theorems": [
    "C25_disabled_truncates_partial",
    "C25_refuted"
   ],
   "note": "False for every file: C25_disabled_truncates_partial."
  },
  {
   "property": "C26",
   "status": "proved",
   "theorems": [
    "C26_reverse_search",
    "C26_forward_search"
   ],
   "note": ""
  },
  {
   "property": "C27",
   "status": "partial",
   "theorems": [
    "C27_cancel_partial",
    "C27_search_again_refuted",
    "C27_first_line_refuted"
   ],
   "note": "C27_cancel_partial: any search started with one Ctrl-R/Ctrl-S and any ordinary runes and Backspaces, cancelled by Ctrl-G/Ctrl-C, restores the entry. False after pressing Ctrl-R again and on the first line of an instance without history (refutations)."
  },
  {
   "property": "C28",
   "status": "proved",
   "theorems": [
    "C28_selection",
    "C28_moves",
    "C28_accept"
   ],
   "note": "For any good configuration (candidates fit on the terminal) and any sequence of selection keys; C28_accept is the accepting step."
  },
  {
   "property": "C29",
   "status": "partial",
   "theorems": [
    "C29_completion_partial",
    "C29_kill_refuted",
    "C29_narrow_refuted",
    "C29_wide_prefix_refuted",
    "C29_vim_refuted"
   ],
   "note": "C29_completion_partial: no panic for any keys except the situations `trips` names, for candidates that fit on the terminal. The four refutations show a panic for Ctrl-K while choosing, a narrow terminal, a wide prefix and Esc in vim mode."
  },
  {
   "property": "C30",
   "status": "proved",
   "theorems": [
    "C30_tab"
   ],
   "note": ""
  },
  {
   "property": "C31",
   "status": "proved",
   "theorems": [
    "C31_prefix_completer",
    "C31_unknown_command",
    "C31_every_line",
    "C31_completions",
    "C31_inner_blank_refuted",
    "C31_white_space"
   ],
   "note": "As stated (static and dynamic names without white space). C31_inner_blank_refuted documents names with inner blanks."
  },
  {
   "property": "C32",
   "status": "proved",
   "theorems": [
    "C32_split_segment"
   ],
   "note": ""
  },
  {
   "property": "C33",
   "status": "proved",
   "theorems": [
    "C33_segment_completion",
    "C33_strip"
   ],
   "note": ""
  },
  {
   "property": "C34",
   "status": "partial",
   "theorems": [
    "C34_partial",
    "C34_same_partial",
    "C34_refuted"
   ],
   "note": "Proved when candidates with spare capacity do not share arrays; refuted in general (C34_refuted)."
  },
  {
   "property": "C35",
   "status": "proved",
   "theorems": [
    "C35_plain_text",
    "C35_one_by_one"
   ],
   "note": ""
  },
  {
   "property": "C36",
   "status": "partial",
   "theorems": [
    "C36_csi_keys",
    "C36_ss3_keys",
    "C36_delete_key",
    "C36_meta_keys",
    "C36_other_meta",
    "C36_other_csi_silent",
    "C36_other_ss3_silent",
    "C36_cursor_report",
    "C36_report_numbers",
    "C36_report_one",
    "C36_report_empty",
    "C36_private_parameters_refuted"
   ],
   "note": "Proved for digits and semicolons as parameters. Sequences with private parameters (ESC [ ? ...) leave their tail as typed text: C36_private_parameters_refuted."
  },
  {
   "property": "C37",
   "status": "partial",
   "theorems": [
    "C37_one_kick_partial",
    "C37_session_partial",
    "C37_vim_refuted",
    "C37_filter_refuted",
    "C37_filter_partial",
    "C37_returns_partial",
    "C37_vim_partial",
    "C37_vim_returns_partial"
   ],
   "note": "Without NUL, and for filters that are gentle (they drop only Ctrl-C, Ctrl-D, Enter and Ctrl-J, turn none of these into another key nor another key into one, and pass end of input): exactly one resumption per pause (C37_session_partial, C37_filter_partial), and in every schedule a pending Readline returns unless the input has not come, the editor crashed (C74) or EOF was reported before (C37_returns_partial). In vim mode the same (C37_vim_partial, C37_vim_returns_partial) unless Ctrl-J or Ctrl-D is pressed in command mode or a pausing key is the second key of a command, where it is refuted; refuted too for a filter replacing Enter."
  },
  {
   "property": "C38",
   "status": "proved",
   "theorems": [
    "C38_lines",
    "C38_bytes"
   ],
   "note": "Without listener and input filter; C38_bytes includes UTF-8 and key decoding. Delivery to the caller is C42."
  },
  {
   "property": "C39",
   "status": "proved",
   "theorems": [
    "C39_interrupt"
   ],
   "note": "Without listener and input filter."
  },
  {
   "property": "C40",
   "status": "proved",
   "theorems": [
    "C40_eof",
    "C40_delete"
   ],
   "note": "Without listener and input filter. In vim command mode Ctrl-D only rings (C37_vim_refuted)."
  },
  {
   "property": "C41",
   "status": "partial",
   "theorems": [
    "C41_goes_on_partial",
    "C41_nul_refuted",
    "C41_filter_partial",
    "C41_again_refuted",
    "C41_vim_partial"
   ],
   "note": "C41_goes_on_partial, C41_filter_partial, C41_vim_partial: no sequence of non-NUL keys ends the session, in vim mode or not (gentle filters as in C37). C41_nul_refuted: a NUL rune ends it. C41_again_refuted: the call after EOF hangs in every schedule."
  },
  {
   "property": "C42",
   "status": "partial",
   "theorems": [
    "C42_determined_partial",
    "C42_agree_partial",
    "C42_typed_lines",
    "C42_filter_refuted",
    "C42_nul_refuted"
   ],
   "note": "Proved for every schedule until Operation.Close, without NUL runes, with the gentle filters of C37; C42_typed_lines is end to end from bytes and includes that every call returns. Refuted with other rune-dropping filters and with NUL."
  },
  {
   "property": "C43",
   "status": "partial",
   "theorems": [
    "C43_file_partial",
    "C43_last_line_refuted"
   ],
   "note": "Proved up to the very last line returned (non-vim, clean lines, Enter not pressed while searching). C43_last_line_refuted: the last one can be missing."
  },
  {
   "property": "C44",
   "status": "partial",
   "theorems": [
    "C44_unchanged_partial",
    "C44_mask_refuted",
    "C44_prompt_refuted",
    "C44_history_refuted"
   ],
   "note": "Proved for a configuration without history file, with mask rune 0, its own prompt and its own history (C44_unchanged_partial); each condition is needed: the mask rune is overwritten (C44_mask_refuted), SetPrompt is forgotten (C44_prompt_refuted), file history is loaded again (C44_history_refuted)."
  },
  {
   "property": "C45",
   "status": "partial",
   "theorems": [
    "C45_separate_partial",
    "C45_files_partial",
    "C45_race_refuted"
   ],
   "note": "For every reachable state and any keys, prompts and listeners the configurations, histories and files do not depend on the password (C45_separate_partial, C45_files_partial) when the editor stores the line before ReadPassword returns to the old configuration; the two goroutines race, and in the other order the password is written to the history file (C45_race_refuted)."
  },
  {
   "property": "C46",
   "status": "partial",
   "theorems": [
    "C46_saved_refuted",
    "C46_password_refuted",
    "C46_search_partial",
    "C46_search_refuted"
   ],
   "note": "Refuted: lines entered after SetHistoryPath are not written (C46_saved_refuted); after the next password prompt the history from before SetHistoryPath is used with the new path (C46_password_refuted). The search goes on looking into the history from before (C46_search_refuted); it uses the right one until SetHistoryPath is called (C46_search_partial)."
  },
  {
   "property": "C47",
   "status": "proved",
   "theorems": [
    "C47_split_is_partition",
    "C47_row_count"
   ],
   "note": "partition for all lines, widths and start columns; row count for width-one runes"
  },
  {
   "property": "C48",
   "status": "proved",
   "theorems": [
    "C48_redraw_terminates_iff",
    "C48_hang_is_divergence",
    "C48_redraw_hangs_refuted"
   ],
   "note": "iff, with divergence of the loop shown for every number of rounds; C48_redraw_hangs_refuted gives a reachable hanging configuration"
  },
  {
   "property": "C49",
   "status": "partial",
   "theorems": [
    "C49_session_screen",
    "C49_edits_screen",
    "C49_redraw",
    "C49_wide_cursor_refuted",
    "C49_edge_prompt_refuted",
    "C49_long_prompt_refuted",
    "C49_mask_cursor_refuted",
    "C49_unique_interrupt_refuted"
   ],
   "note": "proved for every session (edits, Enter/EOF/Interrupt, background output) when the prompt is at least two columns narrower than the screen, and per redraw for a prompt one column narrower with a non-empty line; the remaining cases (wide runes, prompt one column narrower with an empty line, longer prompt, mask, UniqueEditLine interrupt) are refuted"
  },
  {
   "property": "C50",
   "status": "partial",
   "theorems": [
    "C50_masked_output",
    "C50_mask_runes",
    "C50_masked_redraws_partial",
    "C50_width_leak_refuted"
   ],
   "note": "one drawing: as stated; whole redraws: when the rune widths agree one by one; the stated form is refuted for the erasing sequences"
  },
  {
   "property": "C51",
   "status": "partial",
   "theorems": [
    "C51_background_output",
    "C51_unfinished_line_refuted"
   ],
   "note": "proved for complete lines of single-width text; output not ending in a newline is erased (refuted)"
  },
  {
   "property": "C52",
   "status": "proved",
   "theorems": [
    "C52_one_message",
    "C52_stream",
    "C52_truncated"
   ],
   "note": ""
  },
  {
   "property": "C53",
   "status": "partial",
   "theorems": [
    "C53_panics_exactly_partial",
    "C53_refuted"
   ],
   "note": "False: C53_refuted; the exact set of panicking inputs is C53_panics_exactly_partial."
  },
  {
   "property": "C54",
   "status": "partial",
   "theorems": [
    "C54_order",
    "C54_rest_partial",
    "C54_ends",
    "C54_woken",
    "C54_not_woken",
    "C54_after_eof",
    "C54_wakeup_refuted",
    "C54_spurious_eof_refuted",
    "C54_empty_refuted",
    "C54_early_eof_refuted",
    "C54_disconnect_refuted",
    "C54_something",
    "C54_no_room",
    "C54_waits"
   ],
   "note": "For all schedules: order and completeness (C54_order), termination and rest (C54_ends, C54_rest_partial), waiting Reads are woken (C54_woken), no waiting after EOF (C54_after_eof). Refuted: lost wake-up, EOF without end (two ways), EOF before the last data, waiting forever after a disconnect. With room for a byte Read returns bytes or an error (C54_something), without room it returns at once (C54_no_room), and nothing is returned before a message has come (C54_waits)."
  },
  {
   "property": "C55",
   "status": "partial",
   "theorems": [
    "C55_returns_partial",
    "C55_taken",
    "C55_closed_refuted",
    "C55_server_write_count_refuted",
    "C55_server_write_count_exact_partial"
   ],
   "note": "Write returns 6 more than len(b) (refuted); on an open connection every Write returns in every schedule (C55_returns_partial, C55_taken); after Close it waits forever (C55_closed_refuted)."
  },
  {
   "property": "C56",
   "status": "partial",
   "theorems": [
    "C56_nothing_lost_partial",
    "C56_fill_first",
    "C56_refuted"
   ],
   "note": "False when a read is smaller than the pending fill: C56_refuted."
  },
  {
   "property": "C57",
   "status": "proved",
   "theorems": [
    "C57_order",
    "C57_after_close",
    "C57_returns",
    "C57_open",
    "C57_ends",
    "C57_fits"
   ],
   "note": "All schedules of reader, pumping goroutine and Close; a blocked underlying reader is covered by C57_returns."
  },
  {
   "property": "C58",
   "status": "proved",
   "theorems": [
    "C58_exit_restores",
    "C58_enter_raw",
    "C58_raw_bits",
    "C58_raw_cc",
    "C58_nested_refuted",
    "C58_windows_restores",
    "C58_windows_raw"
   ],
   "note": "For Enter/Exit calls that are not nested, which is how Readline uses them; C58_nested_refuted is the excluded case. ioctl failures are not modelled."
  },
  {
   "property": "C59",
   "status": "proved",
   "theorems": [
    "C59_line",
    "C59_eof",
    "C59_ctrl_d_multiple_of_16_refuted"
   ],
   "note": "For lines ended by Enter; C59_ctrl_d_multiple_of_16_refuted documents lines ended by Ctrl-D."
  },
  {
   "property": "C60",
   "status": "proved",
   "theorems": [
    "C60_edit",
    "C60_edits",
    "C60_new",
    "C60_writes"
   ],
   "note": "All growth policies, all edit sequences; also says exactly which memory an edit writes (C60_writes)."
  },
  {
   "property": "C61",
   "status": "partial",
   "theorems": [
    "C61_recalled",
    "C61_slice_refuted",
    "C61_without_search_partial",
    "C61_keys_refuted"
   ],
   "note": "Proved for lines recalled with Prev/Next (C61_recalled) and for whole sessions without search keys (C61_without_search_partial); false for lines brought by search, on the slices (C61_slice_refuted) and in a session (C61_keys_refuted)."
  },
  {
   "property": "C62",
   "status": "partial",
   "theorems": [
    "C62_refuted",
    "C62_motions_partial",
    "C62_moved_partial"
   ],
   "note": "Refuted in general; holds after motions alone and once the line moved to another array."
  },
  {
   "property": "C63",
   "status": "partial",
   "theorems": [
    "C63_refuted",
    "C63_panics_only_on_bad_colours_partial",
    "C63_step_partial"
   ],
   "note": "False: C63_refuted; panics only on colours 38, 39, 48, 49."
  },
  {
   "property": "C64",
   "status": "partial",
   "theorems": [
    "C64_search_submit_refuted"
   ],
   "note": "False; C18_submitted_lines covers submissions from the prompt."
  },
  {
   "property": "C65",
   "status": "partial",
   "theorems": [
    "C65_save_history_refuted"
   ],
   "note": "False when an older entry is current; C18_submitted_lines covers the other case."
  },
  {
   "property": "C66",
   "status": "partial",
   "theorems": [
    "C66_reset_then_save_refuted"
   ],
   "note": "False for the first line saved after ResetHistory."
  },
  {
   "property": "C67",
   "status": "partial",
   "theorems": [
    "C67_vim_arrow_refuted",
    "C67_vim_passes_sequences_partial"
   ],
   "note": "False: C67_vim_arrow_refuted (the decoder never enters the escape state in vim mode)."
  },
  {
   "property": "C68",
   "status": "partial",
   "theorems": [
    "C68_session",
    "C68_width",
    "C68_handshake",
    "C68_unknown_width_refuted"
   ],
   "note": "Proved for widths in 0..65535; an unknown width (-1) arrives as 65535: C68_unknown_width_refuted."
  },
  {
   "property": "C69",
   "status": "partial",
   "theorems": [
    "C69_handle_panics_exactly_partial",
    "C69_refuted"
   ],
   "note": "False: C69_refuted; the exact set of crashing messages is given."
  },
  {
   "property": "C70",
   "status": "partial",
   "theorems": [
    "C70_no_echo_while_reading",
    "C70_settings_not_restored_partial",
    "C70_refuted"
   ],
   "note": "Echo is off while reading; the settings are never restored: C70_settings_not_restored_partial."
  },
  {
   "property": "C71",
   "status": "partial",
   "theorems": [
    "C71_plain_text",
    "C71_after_other_escape_refuted",
    "C71_not_a_colour",
    "C71_after_other_sequence_refuted",
    "C71_bell"
   ],
   "note": "Proved from the ground state; after ESC plus another character a later '[' is swallowed."
  },
  {
   "property": "C72",
   "status": "partial",
   "theorems": [
    "C72_reset",
    "C72_short_reset_refuted"
   ],
   "note": "ESC[0m proved; ESC[m gives black on black: C72_short_reset_refuted."
  },
  {
   "property": "C73",
   "status": "partial",
   "theorems": [
    "C73_title_shown_refuted",
    "C73_title_always_shown"
   ],
   "note": "refuted: SetTitle writes ESC [ 2 ; instead of ESC ] 2 ; so the title text lands on the screen"
  },
  {
   "property": "C74",
   "status": "partial",
   "theorems": [
    "C74_shared_partial",
    "C74_shared_keys_partial",
    "C74_no_crash_partial",
    "C74_no_crash_keys_partial",
    "C74_transpose_refuted",
    "C74_first_search_refuted",
    "C74_vim_refuted",
    "C74_listener_refuted"
   ],
   "note": "C74_no_crash_partial: every key sequence avoiding the situations in `trips` (Ctrl-T on a short line, Ctrl-K while choosing, the vim commands named there), for an editor that has seen one line. Refutations show the excluded keys do panic. C74_shared_partial and C74_shared_keys_partial: the same for the editor whose line may share its memory with a history entry."
  },
  {
   "property": "C75",
   "status": "partial",
   "theorems": [
    "C75_typing_refreshes_partial",
    "C75_retyped_refuted"
   ],
   "note": "Proved when the remembered line is the current one (always so right after Tab or a typed rune); refuted for a stale remembered line."
  },
  {
   "property": "C76",
   "status": "partial",
   "theorems": [
    "C76_idle_partial",
    "C76_pending_refuted",
    "C76_filter_refuted"
   ],
   "note": "Proved for Close called between two calls of Readline (gentle filters as in C37, no NUL). Refuted while a Readline is pending and no input comes, and with a rune-dropping filter."
  },
  {
   "property": "C77",
   "status": "partial",
   "theorems": [
    "C77_wakes",
    "C77_terminates_partial",
    "C77_third_call_refuted"
   ],
   "note": "Proved for a call pending at the time of Close (C77_wakes, for every configuration). A third call after Close hangs: C77_third_call_refuted."
  },
  {
   "property": "C78",
   "status": "partial",
   "theorems": [
    "C78_recorded_partial",
    "C78_saved_partial",
    "C78_search_refuted",
    "C78_vim_refuted",
    "C78_no_file_partial"
   ],
   "note": "Proved with shared memory modelled for all keys outside vim mode, without filter, every search given up with Ctrl-G or Ctrl-C; refuted for Enter while searching and for vim mode. A search left by editing falls under C61_keys_refuted. C78_no_file_partial: the same without a history file, without search keys, first line not empty (C18)."
  },
  {
   "property": "C79",
   "status": "partial",
   "theorems": [
    "C79_terminal_partial",
    "C79_editor_refuted"
   ],
   "note": "The terminal goroutine has ended (C79_terminal_partial); the editor goroutine is leaked by closing an idle instance (C79_editor_refuted)."
  },
  {
   "property": "C80",
   "status": "partial",
   "theorems": [
    "C80_typed_partial",
    "C80_kill_refuted"
   ],
   "note": "Refuted for editing keys: text killed at the password prompt can be yanked at the next one (C80_kill_refuted). For passwords typed without editing keys, the states afterwards are equal, so any later keys give the same results (C80_typed_partial)."
  },
  {
   "property": "C81",
   "status": "partial",
   "theorems": [
    "C81_remote_refuted"
   ],
   "note": "Refuted: the password prompt asks the process's terminal (C81_remote_refuted)."
  },
  {
   "property": "C82",
   "status": "proved",
   "theorems": [
    "C82_typed"
   ],
   "note": "For every state reachable by calls of the application, with the editor at rest."
  },
  {
   "property": "C83",
   "status": "proved",
   "theorems": [
    "C83_frames",
    "C83_counts",
    "C83_own",
    "C83_parts"
   ],
   "note": "Any number of writers, all schedules; a failed write ends the guarantee, as the connection is broken then."
  },
  {
   "property": "C84",
   "status": "partial",
   "theorems": [
    "C84_open_partial",
    "C84_refuted",
    "C84_bytes"
   ],
   "note": "Holds until Close (C84_open_partial), refuted afterwards (C84_refuted)."
  },
  {
   "property": "C85",
   "status": "partial",
   "theorems": [
    "C85_open_partial",
    "C85_refuted"
   ],
   "note": "Holds until Close (C85_open_partial), refuted afterwards (C85_refuted)."
  },
  {
   "property": "C86",
   "status": "partial",
   "theorems": [
    "C86_insert",
    "C86_partial",
    "C86_refuted"
   ],
   "note": "Exact effect proved (C86_insert); unchanged with the cursor at the end or without spare capacity; refuted in general."
  },
  {
   "property": "C87",
   "status": "partial",
   "theorems": [
    "C87_partial",
    "C87_refuted"
   ],
   "note": "Holds for motions and edits that outgrow the slice; refuted in general."
  },
  {
   "property": "C88",
   "status": "partial",
   "theorems": [
    "C88_exact",
    "C88_refuted"
   ],
   "note": "Unchanged exactly when nothing common was found (C88_exact); refuted in general."
  },
  {
   "property": "C89",
   "status": "partial",
   "theorems": [
    "C89_colours_partial",
    "C89_last_colour_refuted",
    "C89_reset_colour_refuted",
    "C89_moves",
    "C89_negative"
   ],
   "note": "C89_colours_partial: one foreground and/or one background colour in one sequence, after any output that is not inside another sequence. Refuted for several colours in one sequence (they are mixed) and for a reset or bold parameter before the colour (always white)."
  },
  {
   "property": "C90",
   "status": "partial",
   "theorems": [
    "C90_new",
    "C90_set_config_partial",
    "C90_vim_refuted",
    "C90_tab"
   ],
   "note": "For NewEx and for SetConfig with a configuration not used before; VimMode only for NewEx: SetConfig ignores it, the vim layer keeps the configuration of NewOperation (C90_vim_refuted)."
  },
  {
   "property": "C91",
   "status": "partial",
   "theorems": [
    "C91_typed_partial",
    "C91_surrogates_refuted",
    "C91_repeat_refuted",
    "C91_delete_refuted",
    "C91_numpad_refuted"
   ],
   "note": "C91_typed_partial: events without modifier keys (those: C92_held_partial) and surrogates, buffer of at least 4 bytes. Refuted: characters outside the basic plane become two replacement characters; repeat counts, Delete, Home, End and Alt-number entry are lost."
  },
  {
   "property": "C92",
   "status": "partial",
   "theorems": [
    "C92_alt_partial",
    "C92_bracket_refuted",
    "C92_ctrl_partial",
    "C92_control_refuted",
    "C92_held_partial"
   ],
   "note": "C92_held_partial: any records, with Ctrl and Alt pressed and released at any time, except Esc, surrogates, and [ or O with Alt; outside vim mode. Refuted: Alt with [ or O swallows the next key; VK_CONTROL is not recognised."
  },
  {
   "property": "C93",
   "status": "partial",
   "theorems": [
    "C93_shortcuts_partial",
    "C93_total",
    "C93_lines",
    "C93_unchanged",
    "C93_meta_t_refuted",
    "C93_ctrl_d_refuted",
    "C93_ctrl_c_refuted",
    "C93_menu_tab_refuted"
   ],
   "note": "Proved for every editing key of the table except Meta-T, in any state at the prompt, without input filter (C110 reduces a filter to none) and without Listener (C111_shortcuts gives the same with one); refuted: Meta-T inserts rune -5 into the line, Ctrl-D on an empty line ends the input and Ctrl-C does not, Tab in the candidate menu does not take the candidate."
  },
  {
   "property": "C94",
   "status": "partial",
   "theorems": [
    "C94_escape",
    "C94_one_key",
    "C94_x",
    "C94_insert",
    "C94_two_keys",
    "C94_history",
    "C94_enter",
    "C94_other",
    "C94_ctrl_d_refuted",
    "C94_replace_refuted",
    "C94_set_vim",
    "C94_hooks",
    "C94_motions",
    "C94_enter_hooks"
   ],
   "note": "All commands, in any line and state. With a Listener and a filter that lets the command pass: the same (C94_hooks, C94_enter_hooks), and h, j, k, l are the control keys they stand for, told to the Listener (C94_motions). Refuted: r behind the last character panics, r Enter inserts a carriage return; Ctrl-D and Ctrl-J do nothing in command mode."
  },
  {
   "property": "C95",
   "status": "partial",
   "theorems": [
    "C95_menu_partial",
    "C95_from_line",
    "C95_redraw",
    "C95_chosen",
    "C95_plain",
    "C95_current",
    "C95_second_row_refuted",
    "C95_wide_refuted",
    "C95_full_row_refuted",
    "C95_no_prompt_refuted",
    "C95_wide_candidate_refuted"
   ],
   "note": "Prompt and line of single-width runes, cursor in the first row but not its first column, candidates narrower than the screen. Refuted otherwise: cursor in the second row, wide rune before the cursor, line filling its row, no prompt, candidate as wide as the screen."
  },
  {
   "property": "C96",
   "status": "partial",
   "theorems": [
    "C96_status_partial",
    "C96_match_rows_refuted",
    "C96_long_status_refuted",
    "C96_full_row_refuted"
   ],
   "note": "Prompt and line of single-width runes, match within the cursor's row, status narrower than the screen, line not ending at the edge with the cursor behind it. Refuted otherwise: match in two rows, long search text, line filling its row."
  },
  {
   "property": "C97",
   "status": "partial",
   "theorems": [
    "C97_file",
    "C97_nosave",
    "C97_off_partial",
    "C97_saved_partial",
    "C97_unchanged_refuted",
    "C97_forgotten_refuted",
    "C97_first_up_refuted"
   ],
   "note": "The file for all keys, configurations and states (C97_file, C97_nosave). The lines recorded (C97_off_partial, C97_saved_partial) without the two search keys, vim mode and FuncFilterInputRune; with them C119_memory_partial says none is recorded while off. Refuted beyond the statement: an older line submitted while recording is off is shown empty afterwards; with DisableAutoSaveHistory a submitted line can be brought back at the next prompt and browsing does not start again."
  },
  {
   "property": "C98",
   "status": "proved",
   "theorems": [
    "C98_begin",
    "C98_char",
    "C98_backspace",
    "C98_emptied",
    "C98_again",
    "C98_backspace_returns_refuted"
   ],
   "note": "The current entry must be in the list (it always is at a prompt). One key at a time, from any searching state."
  },
  {
   "property": "C99",
   "status": "partial",
   "theorems": [
    "C99_mode",
    "C99_line_partial",
    "C99_line_returned",
    "C99_rest_refuted",
    "C99_eof"
   ],
   "note": "Refuted for lengths 15, 31, ...: the line feed stays unread and the next call returns an empty password (C99_rest_refuted); every other length proved."
  },
  {
   "property": "C100",
   "status": "partial",
   "theorems": [
    "C100_move_partial",
    "C100_outside",
    "C100_edge_refuted",
    "C100_row_above",
    "C100_clear_below",
    "C100_clear_below_partial",
    "C100_clear_below_refuted",
    "C100_erase_line",
    "C100_erase_to_end_refuted"
   ],
   "note": "Movements across an edge do nothing instead of stopping there, so the editor's own sequence for the last column of the row above ends in the first one (C100_row_above); ESC[J is exact (C100_clear_below) but may clear nothing when more than 32768 cells are left; ESC[K clears the whole row."
  },
  {
   "property": "C101",
   "status": "partial",
   "theorems": [
    "C101_options",
    "C101_recorded_partial",
    "C101_saved_partial",
    "C101_auto_partial",
    "C101_auto_refuted",
    "C101_path_refuted",
    "C101_empty_refuted"
   ],
   "note": "Without the two search keys. SetAutoComplete and SetHistoryPath drop lines that were only in memory (refuted); an empty line added first is recorded (refuted, C18)."
  },
  {
   "property": "C102",
   "status": "partial",
   "theorems": [
    "C102_enter",
    "C102_interrupt",
    "C102_as_typed_partial",
    "C102_recorded_partial",
    "C102_browse_refuted",
    "C102_search_refuted"
   ],
   "note": "Enter and Ctrl-C: all texts. As typed: any keys after a first editing key, without vim mode. Up and down, or a search begun and cancelled, lose the offered text when they come first (refuted)."
  },
  {
   "property": "C103",
   "status": "partial",
   "theorems": [
    "C103_loop_partial",
    "C103_end_partial",
    "C103_cases",
    "C103_slice_partial",
    "C103_slice_refuted"
   ],
   "note": "For typed text entered, given up or ended. ReadSlice loses the text given up with Ctrl-C (refuted)."
  },
  {
   "property": "C104",
   "status": "partial",
   "theorems": [
    "C104_shown",
    "C104_other",
    "C104_terminal_partial",
    "C104_terminal_refuted",
    "C104_input",
    "C104_file",
    "C104_received",
    "C104_after_refuted"
   ],
   "note": "Output and input complete. The terminal is given back unless the server enters raw mode twice (refuted); the goroutine keeps reading the input after a disconnect (refuted)."
  },
  {
   "property": "C105",
   "status": "partial",
   "theorems": [
    "C105_line_partial",
    "C105_search_partial",
    "C105_password_refuted",
    "C105_second_refuted"
   ],
   "note": "Line and menu: for the instance created last, whatever configurations it uses (C105_line_partial). Search status: when configurations other than the first are used once each and the width does not change meanwhile (C105_search_partial). False for a resize during a password prompt (the search of the main configuration keeps the old width, C105_password_refuted) and for an instance that is not the last one created (C105_second_refuted)."
  },
  {
   "property": "C106",
   "status": "partial",
   "theorems": [
    "C106_painter_partial",
    "C106_nil",
    "C106_password_nil",
    "C106_nil_refuted"
   ],
   "note": "When every configuration given to SetConfig and ReadPasswordWithConfig has a Painter; without one the next redraw panics (C106_nil, C106_password_nil, C106_nil_refuted), because only NewEx fills in a missing Painter."
  },
  {
   "property": "C107",
   "status": "partial",
   "theorems": [
    "C107_outline",
    "C107_tells_partial",
    "C107_tells_refuted",
    "C107_dynamic_refuted"
   ],
   "note": "The outline for all trees (C107_outline). That it tells completers apart needs words without line breaks that do not start with the branch rune (C107_tells_partial, C107_tells_refuted); what a dynamic item offers is not in it (C107_dynamic_refuted)."
  },
  {
   "property": "C108",
   "status": "partial",
   "theorems": [
    "C108_settings",
    "C108_raw",
    "C108_resumes_partial",
    "C108_waits",
    "C108_resumes_refuted"
   ],
   "note": "Settings: all (C108_settings, C108_raw). Going on: when the process was stopped for more than 100 ms (C108_resumes_partial); stopped for less, or not at all, the editor waits forever (C108_waits, C108_resumes_refuted)."
  },
  {
   "property": "C109",
   "status": "partial",
   "theorems": [
    "C109_menu_partial",
    "C109_search_partial",
    "C109_idle",
    "C109_second_row_refuted"
   ],
   "note": "Under the conditions of C95 and C96 (single-width runes, candidates: cursor in the first row but not its first column; search: match within the cursor's row, status narrower than the screen). Refuted otherwise: with the cursor in the second row it ends up at the end of that row."
  },
  {
   "property": "C110",
   "status": "partial",
   "theorems": [
    "C110_filter_partial",
    "C110_transparent",
    "C110_dropped",
    "C110_end_dropped",
    "C110_vim_refuted"
   ],
   "note": "Outside vim mode, for every filter, key sequence and state; in vim mode the second key of r, d, c, f, F, t, T goes round the filter (C110_vim_refuted). A filter that drops rune 0 drops the end of the input: the prompt never returns (C110_end_dropped)."
  },
  {
   "property": "C111",
   "status": "partial",
   "theorems": [
    "C111_silent",
    "C111_told_partial",
    "C111_line",
    "C111_shortcuts",
    "C111_next_refuted",
    "C111_menu_refuted",
    "C111_vim_refuted",
    "C111_cursor_refuted"
   ],
   "note": "A watching listener changes nothing in any mode (C111_silent); at the prompt the answer replaces line and cursor for every key but those that open a menu or search; whole lines and all shortcuts. Refuted: the answer to the call after Enter is on the next line, keys of the candidate menu and vim commands are not told, a cursor beyond the line panics later. The call with (nil, 0, 0) that begins a Readline discards its answer and is not modelled."
  },
  {
   "property": "C112",
   "status": "partial",
   "theorems": [
    "C112_clears_partial",
    "C112_cleaned_refuted"
   ],
   "note": "Under the conditions of C49 (one-cell runes, plain painter, no masking) with the prompt on the screen; after Instance.Clean Ctrl-L draws the prompt in the first row and clears nothing (C112_cleaned_refuted); utils_windows.go not modelled."
  },
  {
   "property": "C113",
   "status": "partial",
   "theorems": [
    "C113_kept_partial",
    "C113_stale",
    "C113_rewrite",
    "C113_refuted"
   ],
   "note": "Holds for any interleaving as long as no instance finds more lines in the file than its HistoryLimit (C113_kept_partial; limits of at least two, lines that survive being written). Refuted: opening such a file replaces it, and instances already open then write to a file without a name (C113_refuted; C113_rewrite, C113_stale for all executions). Opening with rewriting is one step; write errors and crashes are C23."
  },
  {
   "property": "C114",
   "status": "partial",
   "theorems": [
    "C114_answered_partial",
    "C114_once",
    "C114_stale_refuted",
    "C114_dropped_refuted",
    "C114_vim",
    "C114_vim_refuted"
   ],
   "note": "Questions asked one after the other, for every schedule of the goroutines and any keys without Esc meanwhile (C114_answered_partial); in every execution no report answers two questions and answers keep the order of reports (C114_once). Refuted: a report nobody asked for shifts all later answers by one (C114_stale_refuted), two questions at once can lose a report (C114_dropped_refuted), in vim mode no question is answered (C114_vim)."
  },
  {
   "property": "C115",
   "status": "partial",
   "theorems": [
    "C115_free_partial",
    "C115_steps",
    "C115_painter_refuted",
    "C115_stdout_refuted",
    "C115_width_refuted"
   ],
   "note": "Lock operations and field accesses of every method, tests as free choices; channels, atomics and the user's own locks are not in it. Proved for any callbacks called without a lock and for Stdout, Painter and FuncGetWidth that keep off the locks held around them (C115_free_partial). Refuted: a Painter asking for the configuration deadlocks with SetConfig though each finishes alone (C115_painter_refuted); a Stdout that sets the prompt (C115_stdout_refuted) and a FuncGetWidth that asks for the configuration (C115_width_refuted) block their own goroutine."
  },
  {
   "property": "C116",
   "status": "partial",
   "theorems": [
    "C116_safe_partial",
    "C116_line_refuted",
    "C116_history_refuted",
    "C116_exact"
   ],
   "note": "Exact answer (C116_exact): prompt, interactive flag, erased mark, buffer configuration and history file handle are never raced for (C116_safe_partial); for each of the nine other fields two calls race, e.g. the line when Enter meets a redraw (C116_line_refuted) and the history when two goroutines save (C116_history_refuted)."
  },
  {
   "property": "C117",
   "status": "partial",
   "theorems": [
    "C117_row",
    "C117_cursor_partial",
    "C117_tab_cursor_refuted",
    "C117_backspace"
   ],
   "note": "Text: proved as stated (C117_row), zero-width runes excluded. Cursor: it stands as many columns before the end as there are runes behind it, which is right exactly when each of these is one column wide (C117_cursor_partial); in front of a tab or wide character it is shown too far right (C117_tab_cursor_refuted)."
  },
  {
   "property": "C118",
   "status": "partial",
   "theorems": [
    "C118_order_partial",
    "C118_returns",
    "C118_close_ends",
    "C118_spins",
    "C118_missed_refuted",
    "C118_waiting",
    "C118_prefill"
   ],
   "note": "Order and completeness for reads with room for all that was written (C118_order_partial, otherwise C56_refuted), WriteStdin returns (C118_returns), the next Read gets the text once the goroutine has appended it (C118_prefill), Close (C118_close_ends). Refuted: a Read called after WriteStdin returned can still wait for the keyboard and return the key first (C118_missed_refuted); a Read already waiting never gets the text first (C118_waiting). After closing the writing end the goroutine spins (C118_spins)."
  },
  {
   "property": "C119",
   "status": "partial",
   "theorems": [
    "C119_appends",
    "C119_prefix",
    "C119_off",
    "C119_memory_partial",
    "C119_same_line_refuted"
   ],
   "note": "The file (C119_appends, C119_prefix, C119_off): all keys, configurations and states. The list in memory (C119_memory_partial): without the sharing of memory between the line being edited and recorded entries, with which C61_keys_refuted. The line appended need not be the one returned (C119_same_line_refuted, after a search; otherwise C37, C97). SetHistoryPath, which rewrites the file, is C22/C96."
  },
  {
   "property": "C120",
   "status": "proved",
   "theorems": [
    "C120_exact",
    "C120_clones",
    "C120_reader",
    "C120_lost",
    "C120_after_set_refuted",
    "C120_race_refuted"
   ],
   "note": "C120_exact, C120_reader, C120_lost, C120_clones. Refuted: that text given after SetConfig is read (C120_after_set_refuted), that the input does not depend on the schedule when SetConfig follows NewEx (C120_race_refuted). The schedule inside FillableStdin is C118."
  },
  {
   "property": "C121",
   "status": "proved",
   "theorems": [
    "C121_restored",
    "C121_raw",
    "C121_close",
    "C121_changed_refuted",
    "C121_two_refuted"
   ],
   "note": "C121_restored, C121_raw, C121_close. Refuted: a change of configuration while a call is pending leaves the terminal raw for good, even after Close (C121_changed_refuted); so do two calls pending at once (C121_two_refuted)."
  },
  {
   "property": "C122",
   "status": "proved",
   "theorems": [
    "C122_cancelable",
    "C122_fillable",
    "C122_close",
    "C122_password",
    "C122_reuse",
    "C122_close_refuted"
   ],
   "note": "C122_cancelable, C122_fillable, C122_close, C122_password, C122_reuse. Refuted: that Close ends all of them (C122_close_refuted)."
  },
  {
   "property": "C123",
   "status": "proved",
   "theorems": [
    "C123_screen",
    "C123_no_crash",
    "C123_unique_draws"
   ],
   "note": "Editor model and drawing model run together (OutModel: which redraws and bells each key causes, vim mode and UniqueEditLine included); C123_screen for every order of events, C123_no_crash: the editor part of such a session always exists (no listener, no filter). The situations left out are named in the statement; for several of them the screen is wrong (C49 refutations)."
  },
  {
   "property": "C124",
   "status": "proved",
   "theorems": [
    "C124_screen"
   ],
   "note": "SeekModel: the redraws and status rows each key of a search causes, run together with OpModel and RenderModel. C124_screen for every order of events, including that the run exists. The conditions under which a status can be shown are those of C96, whose refutations show the rest to be wrong on screen; Ctrl-G after a repeated Ctrl-R shows what C27 says."
  },
  {
   "property": "C125",
   "status": "proved",
   "theorems": [
    "C125_screen",
    "C125_search_tab_refuted",
    "C125_menu_search_refuted",
    "C125_enter_race_refuted"
   ],
   "note": "Without vim mode, listener and filter; width-one characters, non-empty prompt, completer as in C95 (fitting candidates); cursor in the first row while candidates are shown. C125_search_tab_refuted and C125_menu_search_refuted: Tab during a search and Ctrl-R over candidates leave the mode on without showing it."
  },
  {
   "property": "C126",
   "status": "partial",
   "theorems": [
    "C126_hidden",
    "C126_word_refuted",
    "C126_search_refuted"
   ],
   "note": "C126_hidden: characters, cursor keys, Backspace, Ctrl-D/H/K/T/U/Y, Enter, Ctrl-C, any number of prompts and printed texts, equality of the bytes written (and of crashes). The full statement is false: C126_word_refuted (keys acting on words), C126_search_refuted (Ctrl-R shows what is typed). History keys are left out."
  },
  {
   "property": "C127",
   "status": "partial",
   "theorems": [
    "C127_silent",
    "C127_file",
    "C127_width",
    "C127_lives",
    "C127_search_refuted",
    "C127_tab_refuted",
    "C127_status_refuted",
    "C127_screen_width",
    "C127_interactive"
   ],
   "note": "Proved for every session outside search, completion, Ctrl-L and Ctrl-Z, without vim mode: output (C127_silent, C127_file), independence of the width (C127_width) and no crash (C127_lives, without Ctrl-T). False beyond that: with no terminal Ctrl-R (C127_search_refuted) or Tab with several candidates (C127_tab_refuted) in the input crashes; with a width a search writes escape sequences although the input is no terminal (C127_status_refuted)."
  },
  {
   "property": "C128",
   "status": "partial",
   "theorems": [
    "C128_view",
    "C128_lines",
    "C128_only",
    "C128_tall_refuted"
   ],
   "note": "C128_view for every session of C123 and Ctrl-L in which all lines drawn fit on the screen (C128_lines: without listener, all lines after each key); C128_only: nothing else clears. False for lines taller than the screen (C128_tall_refuted). Search and completion on a screen of few rows: C130."
  },
  {
   "property": "C129",
   "status": "partial",
   "theorems": [
    "C129_waiting_partial",
    "C129_between_partial",
    "C129_alive",
    "C129_typed",
    "C129_stray_refuted",
    "C129_two_refuted",
    "C129_early_refuted",
    "C129_ctrl_d_refuted",
    "C129_enter_refuted"
   ],
   "note": "C129_waiting_partial and C129_between_partial for all interleavings in which the application prints at most once through Instance.Stdout before its next call and other goroutines print while Readline waits with isReading set; C129_typed: without listener and filter every key sequence of C123 qualifies. Outside these conditions the screen can be wrong (C129_stray/two/early/ctrl_d/enter_refuted). Redraws and writes are single steps."
  },
  {
   "property": "C130",
   "status": "partial",
   "theorems": [
    "C130_screen",
    "C130_menu_refuted",
    "C130_status_refuted"
   ],
   "note": "C130_screen for every session of C125 in which everything drawn fits on the screen (a status needs a row below the line, candidates their rows and the one the cursor ends on). False without that: C130_menu_refuted, C130_status_refuted."
  },
  {
   "property": "C131",
   "status": "partial",
   "theorems": [
    "C131_screen",
    "C131_cursor_partial",
    "C131_no_crash",
    "C131_cursor_refuted"
   ],
   "note": "C131_screen, C131_cursor_partial (the exact column) and C131_no_crash for sessions without vim mode, listener and filter in which every line with its prompt fits one row. Missing: the cursor with double-width characters behind it (false: C131_cursor_refuted) and lines of several rows of double-width characters."
  },
  {
   "property": "C132",
   "status": "partial",
   "theorems": [
    "C132_screen_partial",
    "C132_no_crash",
    "C132_shorter_refuted",
    "C132_longer_refuted"
   ],
   "note": "C132_screen_partial and C132_no_crash for all sessions of C123 with SetPrompt, Refresh and Clean, when a prompt set while another is on the screen leaves the cursor in its row (after Clean or between calls: any prompt). False without that: C132_shorter_refuted, C132_longer_refuted."
  },
  {
   "property": "C133",
   "status": "partial",
   "theorems": [
    "C133_screen",
    "C133_secret",
    "C133_cursor_partial",
    "C133_no_crash",
    "C133_cursor_refuted",
    "C133_full_row_refuted"
   ],
   "note": "C133_screen, C133_secret, C133_no_crash for all such sessions on one row (no vim mode, listener or filter), with the exact column of the cursor; C133_cursor_partial says when it is right. False otherwise: C133_cursor_refuted. Beyond one row false: C133_full_row_refuted."
  },
  {
   "property": "C134",
   "status": "partial",
   "theorems": [
    "C134_between",
    "C134_screen",
    "C134_secret_refuted"
   ],
   "note": "C134_screen and C134_between for all programs of such calls (no vim mode, listener or filter, one row per text), assuming that the editor handles each key (shown by C135_program for calls without completer). Secrecy at later prompts is false: C134_secret_refuted (as C80_kill_refuted)."
  },
  {
   "property": "C135",
   "status": "partial",
   "theorems": [
    "C135_keys_partial",
    "C135_search_partial",
    "C135_start",
    "C135_sessions",
    "C135_program",
    "C135_first_search_refuted",
    "C135_again_refuted",
    "C135_transpose_refuted"
   ],
   "note": "C135_keys_partial (with a listener, without searches) and C135_search_partial (with searches, but not as first key of a call) for all keys and any history limit; C135_sessions, C135_program: the sessions of C131, C133 and programs of C134 run to their end whatever the limit, without completer. The full statement is false: C135_first_search_refuted, C135_again_refuted, C135_transpose_refuted."
  },
  {
   "property": "C136",
   "status": "proved",
   "theorems": [
    "C136_calls",
    "C136_vim_recall",
    "C136_nothing_kept",
    "C136_no_recall",
    "C136_search",
    "C136_start"
   ],
   "note": "For every configuration with a negative limit: at most one entry, without text, exists at any time (C136_nothing_kept); an instance starts like that with or without a file (C136_start); the recall keys ring the bell and change nothing, outside searches and candidate lists, without listener and filter (C136_no_recall; in vim mode C136_vim_recall). A search finds only the entry being edited (C136_search). C136_calls: the same with calls of SaveHistory, ResetHistory, HistoryDisable and HistoryEnable mixed in."
  },
  {
   "property": "C137",
   "status": "proved",
   "theorems": [
    "C137_forgets",
    "C137_no_recall"
   ],
   "note": "C137_forgets: number of entries after a reset, for every configuration and every mix of keys and calls; C137_no_recall: the recall keys before the next line. The reset is taken as one step between two keys."
  }
 ]
}