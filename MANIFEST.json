{
 "claims": [
  {
   "property": "C01",
   "status": "proved",
   "theorems": [
    "C01_roundtrip",
    "C01_writer_produces_wire_format",
    "C01_request_roundtrip",
    "C01_send_total",
    "C01_reply_spawn_failed",
    "C01_reply_spawned",
    "C01_reply_process_list",
    "C01_reply_setup",
    "C01_reply_desktop",
    "C01_reply_set_size"
   ],
   "note": "Round trip for every sequence of values and for every message type; the writer's bytes match an independent wire-format relation."
  },
  {
   "property": "C02",
   "status": "proved",
   "theorems": [
    "C02_never_overreads",
    "C02_accepts_exactly_wellformed",
    "C02_request_decoder",
    "C02_rejection_is_decode_error",
    "C02_oversize_string_refuted"
   ],
   "note": "No over-read; exact characterisation of accepted messages; every other message fails with an exception. Finding C02_oversize_string_refuted: a huge string length is reported as an allocation failure rather than a decode error, because the string is resized before the bounds check; the agent does not catch it."
  },
  {
   "property": "C03",
   "status": "proved",
   "theorems": [
    "C03_executes_prefix_in_order",
    "C03_whole_requests_executed",
    "C03_always_room",
    "C03_eventually_all_executed",
    "C03_no_abort",
    "C03_impossible_header_not_executed",
    "C03_request_before_disconnect_refuted"
   ],
   "note": "Safety, timeliness, room and liveness for every OS behaviour. Finding C03_request_before_disconnect_refuted: a request received in the same service call as a pipe error is dropped, hence the 'while connected' in the statement."
  },
  {
   "property": "C04",
   "status": "proved",
   "theorems": [
    "C04_encode_utf8",
    "C04_encode_utf16",
    "C04_encode_error",
    "C04_utf8_roundtrip",
    "C04_utf8_accepts_only_shortest",
    "C04_utf8_reads_only_announced",
    "C04_char_length",
    "C04_surrogate_pairs",
    "C04_surrogate_pairs_inverse"
   ],
   "note": "Encoders equal the Unicode standard's arithmetic forms; the decoder accepts exactly the shortest forms and reads only the announced bytes; surrogate pairs in both directions."
  },
  {
   "property": "C05",
   "status": "proved",
   "theorems": [
    "C05_decimal",
    "C05_hexadecimal",
    "C05_canonical_unique"
   ],
   "note": "Both formatters, every width and signedness, every initial buffer content; stores are checked, so success also means no overrun."
  },
  {
   "property": "C06",
   "status": "proved",
   "theorems": [
    "C06_same_process",
    "C06_total",
    "C06_different_processes",
    "C06_random_suffix"
   ],
   "note": "Whole history of names of one process with arbitrary clock and random bytes, the counter wrapping modulo 2^32; different process ids; random suffix."
  },
  {
   "property": "C07",
   "status": "proved",
   "theorems": [
    "C07_longest_match",
    "C07_order_independent"
   ],
   "note": "The trie (both node representations and the conversion between them) is modelled as it is; lookups are proved for every history of registrations with nonempty byte sequences. Registering an empty sequence asserts and is excluded (the code never does). Pool allocation is assumed to succeed."
  },
  {
   "property": "C08",
   "status": "proved",
   "theorems": [
    "C08_delivered",
    "C08_table_built_consistently",
    "C08_documented_recognised",
    "C08_only_documented"
   ],
   "note": "Tables transcribed from DefaultInputMap.cc and expanded by the modelled code into 2676 set calls. The specification lists the documented encodings by terminal convention and modifier set; the theorem that the two agree is decided by kernel computation over the whole finite table and extended to every following input with C07. The theorem concerns the table: that CSI 1;m R (modified F3) is intercepted as a cursor report by the input scanner before the table is consulted is covered with C14. C08_delivered: a documented sequence written at a boundary reaches the console as that key, except the three shadowed forms."
  },
  {
   "property": "C09",
   "status": "proved",
   "theorems": [
    "C09_chunking"
   ],
   "note": "For every reachable state and every prompt history. GetTickCount answers for double clicks are a stream shared by both runs. Writes are below 2^31-64 bytes (inputSize is an int)."
  },
  {
   "property": "C10",
   "status": "proved",
   "theorems": [
    "C10_ctrl_c",
    "C10_consumed",
    "C10_timeout",
    "C10_never_stuck"
   ],
   "note": "Tokens are given by a grammar independent of the scanner. Finding: bytes that are not UTF-8 are dropped, and an invalid sequence takes with it as many bytes as its lead byte announces."
  },
  {
   "property": "C11",
   "status": "proved",
   "theorems": [
    "C11_text",
    "C11_alt"
   ],
   "note": "Every text, every reachable state at a sequence boundary, every layout (VT input mode: layouts that do not type text with a re-encoded key)."
  },
  {
   "property": "C12",
   "status": "proved",
   "theorems": [
    "C12_key",
    "C12_char",
    "C12_vt"
   ],
   "note": "Every documented key, every decoded character on any layout, both console modes. Shadowed sequences (cursor reply form, mouse prefix, Ctrl+C in processed mode) are recognised as something else and are excluded."
  },
  {
   "property": "C13",
   "status": "proved",
   "theorems": [
    "C13_double_click_seen",
    "C13_triple_click",
    "C13_report",
    "C13_history",
    "C13_double_click",
    "C13_wrap_refuted"
   ],
   "note": "All reports of all three encodings, all reachable states, all window rectangles of less than 32767 cells a side; double clicks over all histories. Finding C13_wrap_refuted: coordinates wrap to 16 bits, so columns beyond 32768 are not placed at the window's edge."
  },
  {
   "property": "C14",
   "status": "proved",
   "theorems": [
    "C14_asked",
    "C14_one_outstanding",
    "C14_released",
    "C14_swallowed",
    "C14_f3_refuted",
    "C14_escape_refuted",
    "C14_lead_refuted"
   ],
   "note": "History invariant, release and swallowing proved for every reachable state and every reply. Findings kept as witnesses: modified F3 in xterm's CSI 1;m R form is swallowed as a reply; ESC typed just before a reply 1;2..8 becomes Alt+modified F3; an incomplete UTF-8 character eats the start of a reply, whose rest is delivered as typed text."
  },
  {
   "property": "C15",
   "status": "proved",
   "theorems": [
    "C15_detect",
    "C15_shows"
   ],
   "note": "All histories of comparisons, forced sends, blankings and resets, on terminals that keep or forget obscured columns. Erased columns appear in the colour of the last cell of the line last sent. A reset is taken to go with a cleared row."
  },
  {
   "property": "C16",
   "status": "proved",
   "theorems": [
    "C16_send",
    "C16_position",
    "C16_cursor",
    "C16_reset",
    "C16_total",
    "C16_control_refuted",
    "C16_surrogate_refuted"
   ],
   "note": "Relative to a terminal emulator defined in TerminalSpec.v. Findings: C16_control_refuted (control characters other than 1-6 and ESC are sent raw, so the terminal shows nothing for them and its cursor is off), C16_surrogate_refuted (a line sent with half a surrogate pair and again with the whole pair shows two question marks). C16_total: for any cells no operation fails an assertion or reads outside a line."
  },
  {
   "property": "C17",
   "status": "proved",
   "theorems": [
    "C17_stream",
    "C17_plain_stream",
    "C17_clean",
    "C17_plain"
   ],
   "note": "C17_clean and C17_plain are about the terminal object, C17_stream and C17_plain_stream about all of CONOUT and CONERR, with titles and cursor queries mixed in. ESC only. The C1 control characters U+0080-U+009F are sent as UTF-8, among them U+009B (CSI), which some terminals obey; the code does not filter them. Titles are not filtered either (C42_injection_refuted)."
  },
  {
   "property": "C18",
   "status": "proved",
   "theorems": [
    "C18_color"
   ],
   "note": "All 65536 attribute words and any previous state of the terminal."
  },
  {
   "property": "C19",
   "status": "proved",
   "theorems": [
    "C19_past",
    "C19_show",
    "C19_hide",
    "C19_redundant",
    "C19_reset_refuted"
   ],
   "note": "Finding C19_reset_refuted: resetting the terminal while the cursor is hidden (the agent does this when a console with a hidden cursor is resized or loses its sync marker) makes the agent believe the cursor is visible, so a later show sends nothing and the terminal's cursor stays hidden."
  },
  {
   "property": "C20",
   "status": "proved",
   "theorems": [
    "C20_safe",
    "C20_same",
    "C20_polls",
    "C20_marker_refuted",
    "C20_window_refuted",
    "C20_stale_refuted"
   ],
   "note": "C20_safe: every history runs to its end unless one of three resize circumstances arises (the run with stops Throws); C20_same: the stops are the only difference; C20_polls: poll-only histories with a constant buffer height are never excluded. C20_marker_refuted, C20_window_refuted and C20_stale_refuted show that the program does fail in each of the three. Console calls GetConsoleScreenBufferInfo etc. are assumed to succeed. The runs include the terminal objects (drawn_all)."
  },
  {
   "property": "C21",
   "status": "proved",
   "theorems": [
    "C21_stream",
    "C21_window",
    "C21_once",
    "C21_slow_enough",
    "C21_start",
    "C21_setup",
    "C21_first_scroll_refuted"
   ],
   "note": "Histories of the primary console (StreamSpec.v): programs never move the window's row up, do not imitate the agent's 16-row sync marker in column 0 and leave alone what is above the window; attributes are 16-bit; buffer height 3000 throughout; console calls succeed. within_reach is the condition that the marker is not overrun; C21_slow_enough gives a condition on the programs alone that implies it (at most T-431 lines scroll off from the start of a poll with the window at row T to the start of the poll after the next; nothing scrolls off before the first marker). C21_first_scroll_refuted: before the first marker scrolling is not noticed and lines get wrong numbers."
  },
  {
   "property": "C22",
   "status": "proved",
   "theorems": [
    "C22_reachable",
    "C22_screen",
    "C22_poll",
    "C22_enter",
    "C22_cursor"
   ],
   "note": "DirectProps.v. C22_reachable links the hypotheses to running agents; C22_enter, C22_poll, C22_screen and C22_cursor are the parts of the statement. 'The terminal shows a line and nothing else in that row' is DirectSpec.fills: erased columns show blanks in the last colour of the line last sent, which is what the terminal writer relies on (C15, C19), and the rest of the row is blank. What is seen is exactly what the console holds when it is frozen during the poll; with the new console (not frozen) it is so under the stated condition, since programs may move the window between the query and the read. At a resize the terminal may keep rows below the visible part until the next poll."
  },
  {
   "property": "C23",
   "status": "proved",
   "theorems": [
    "C23_contains_rect",
    "C23_contains_coord",
    "C23_intersected",
    "C23_size",
    "C23_make",
    "C23_resize",
    "C23_include_line",
    "C23_equal",
    "C23_add"
   ],
   "note": "Containment, intersection, sizes and line inclusion agree with the set of cells for all 16-bit rectangles; the only place where 16 bits can wrap (an empty intersection at the least SHORT) is excluded and shown by an example."
  },
  {
   "property": "C24",
   "status": "proved",
   "theorems": [
    "C24_reader_prefix",
    "C24_reader_nothing_lost",
    "C24_writer_prefix",
    "C24_bytes_to_send_exact",
    "C24_eventually_sent",
    "C24_eventually_received",
    "C24_closed_is_final",
    "C24_no_assertion_failure",
    "C24_error_closes",
    "C24_read_size"
   ],
   "note": "NamedPipe service loop, queues and close against arbitrary OS answers; liveness under completing OS answers; assertion freedom under the full-write contract."
  },
  {
   "property": "C25",
   "status": "proved",
   "theorems": [
    "C25_conout_close",
    "C25_conerr_close",
    "C25_final_scrape",
    "C25_quiet",
    "C25_no_flag",
    "C25_exit",
    "C25_progress",
    "C25_finish",
    "C25_total"
   ],
   "note": "For every schedule of polls, pipe completions, resizes, replies and client actions. C25_total shows that no such schedule fails an assertion, as long as no start follows one that succeeded (winpty.h allows winpty_spawn once; a second start does assert)."
  },
  {
   "property": "C26",
   "status": "proved",
   "theorems": [
    "C26_in_step",
    "C26_poisoned",
    "C26_only_from_a_packet",
    "C26_resize_succeeds",
    "C26_failure_reported"
   ],
   "note": "All call sequences, all OS answers, any agent that answers each request with one packet; poisoning also for agents sending arbitrary bytes. A call that aborts the process by ASSERT or never returns ends the session."
  },
  {
   "property": "C27",
   "status": "proved",
   "theorems": [
    "C27_outputs",
    "C27_requested_handles",
    "C27_spawn_succeeds",
    "C27_creation_error_reported"
   ],
   "note": "All replies and failure points, ownership of handles as a multiset; with the real agent's reply the duplicated handles are exactly the requested ones. Error objects: C28."
  },
  {
   "property": "C28",
   "status": "proved",
   "theorems": [
    "C28_error_object",
    "C28_documented_code",
    "C28_success_and_unwanted",
    "C28_client_safe",
    "C28_trace_allocation_refuted"
   ],
   "note": "All exceptions, all allocation failures while throwing and building, all client histories of calls and frees. Finding C28_trace_allocation_refuted: the trace call's string conversions are outside the try block, so a further allocation failure there lets std::bad_alloc leave the C API and leaks the object."
  },
  {
   "property": "C29",
   "status": "proved",
   "theorems": [
    "C29_block_copied",
    "C29_block_reaches_CreateProcess"
   ],
   "note": "Copy and end-to-end path (config object, RPC encoding, decoding in the agent, CreateProcess arguments) for every block, any other arguments and any memory after the block. Strings must fit the receiving process's allocation limit."
  },
  {
   "property": "C30",
   "status": "proved",
   "theorems": [
    "C30_roundtrip"
   ],
   "note": "Round trip for every argument list under all three published rules for doubled quotes (stated in CmdLineSpec). Assumes the program path has no quotes and does not end in a backslash when it needs quoting, and arguments shorter than 2^30 characters. The multibyte-to-wide conversion is not modelled."
  },
  {
   "property": "C31",
   "status": "proved",
   "theorems": [
    "C31_write_all",
    "C31_write_all_finishes",
    "C31_output_thread",
    "C31_input_thread",
    "C31_input_complete"
   ],
   "note": "writeAll, the output thread and the input thread, for all POSIX answer sequences; buffers below 2^31 bytes (the code keeps the result in an int; it uses 4096)."
  },
  {
   "property": "C32",
   "status": "proved",
   "theorems": [
    "C32_list_returned",
    "C32_small_array_fails",
    "C32_agent_loop_ends",
    "C32_small_array_refuted"
   ],
   "note": "Call end to end for all counts, array sizes and chunkings of the reply; agent loop ends within 26 queries. Finding: C32_small_array_refuted shows that a too-small array poisons the session instead of only failing."
  },
  {
   "property": "C33",
   "status": "proved",
   "theorems": [
    "C33_start",
    "C33_setup",
    "C33_requests",
    "C33_effect",
    "C33_zero",
    "C33_fit_refuted"
   ],
   "note": "C33_start and C33_requests bound every request made of the console under arbitrary interference and failures; C33_effect gives the exact resulting geometry (primary and stderr buffers) without interference; C33_zero the abort. Finding (C33_fit_refuted): if the console refuses the new buffer size the agent still asks for a window that does not fit. The console's reaction (SetConsoleWindowInfo, SetConsoleScreenBufferSize) is modelled in Console.v."
  },
  {
   "property": "C34",
   "status": "proved",
   "theorems": [
    "C34_open_only_with_own_agent",
    "C34_impostor_never_read",
    "C34_decided_by_client"
   ],
   "note": "All OS answers, for the main agent and the desktop helper. Also: nothing is read from the pipe before the check."
  },
  {
   "property": "C35",
   "status": "proved",
   "theorems": [
    "C35_config_flags",
    "C35_spawn_flags",
    "C35_setters",
    "C35_values",
    "C35_open_succeeds",
    "C35_agent_command_line",
    "C35_agent_meaning",
    "C35_pipe_names"
   ],
   "note": "All flag words and integers; the whole path config -> command line -> CommandLineToArgvW (as documented, all three quote conventions) -> agent main -> Agent constructor. Rejection is an ASSERT (process abort), not an error code. WideCharToMultiByte is assumed to keep ASCII."
  },
  {
   "property": "C36",
   "status": "proved",
   "theorems": [
    "C36_scrape",
    "C36_resize",
    "C36_history",
    "C36_guard"
   ],
   "note": "For every poll, resize and history of them with arbitrary interference by other programs, and for arbitrarily nested guards. Assumes that the system's Mark/Select All and ESC commands take effect."
  },
  {
   "property": "C37",
   "status": "proved",
   "theorems": [
    "C37_exact",
    "C37_bounds"
   ],
   "note": "For every rectangle inside the buffer at most 2500 columns wide (the code asserts that bound), masked, in both the one-request and the split mode. Split reads need the console frozen, which it always is on the systems that split. The console's read call is modelled as returning the buffer's cells."
  },
  {
   "property": "C38",
   "status": "proved",
   "theorems": [
    "C38_selected",
    "C38_wide",
    "C38_fallback",
    "C38_xp",
    "C38_face",
    "C38_usual",
    "C38_xp_listed",
    "C38_tables"
   ],
   "note": "The selected size is a row of the code page's table; if any row makes the window 160 pixels wide the selected one does and no smaller row does; the XP tables and the fallback for fonts the console refuses are covered. Pixel metrics reported by the console are inputs."
  },
  {
   "property": "C39",
   "status": "proved",
   "theorems": [
    "C39_exact",
    "C39_items",
    "C39_threads",
    "C39_stable",
    "C39_answered",
    "C39_tracing"
   ],
   "note": "Over all variable values and flag names without a comma; includes the 256 byte limit, the cached value and concurrent first calls."
  },
  {
   "property": "C40",
   "status": "proved",
   "theorems": [
    "C40_no_lost_wakeup",
    "C40_main_exits",
    "C40_main_exits_only_then",
    "C40_resize_noticed",
    "C40_input_thread_stops",
    "C40_input_thread_stops_only_if_asked",
    "C40_resize_before_registration_refuted"
   ],
   "note": "All interleavings of resizes, signal delivery, thread completion and main. Assumes a non-blocking self-pipe of positive capacity and that the handler does not disturb errno. Finding (C40_resize_before_registration_refuted): a resize between the initial size query and the installation of the handler is not noticed until the next wake-up; the theorems start at the installation."
  },
  {
   "property": "C41",
   "status": "proved",
   "theorems": [
    "C41_shutdown",
    "C41_wanted",
    "C41_start",
    "C41_modes",
    "C41_redundant",
    "C41_plain"
   ],
   "note": "The terminal object for every operation sequence, and the agent: at shutdown the mouse mode is off before the output pipe is closed."
  },
  {
   "property": "C42",
   "status": "proved",
   "theorems": [
    "C42_titles",
    "C42_command",
    "C42_complete",
    "C42_sound",
    "C42_injection_refuted"
   ],
   "note": "A failing title query reads as an empty title (C42_sound says when). Finding, C42_injection_refuted: the title is sent unfiltered, so a program-chosen title holding BEL or ESC ends the title command early and injects escape sequences into the client's terminal."
  },
  {
   "property": "C43",
   "status": "proved",
   "theorems": [
    "C43_reencoded",
    "C43_plain",
    "C43_ctrl_keypad_refuted",
    "C43_char",
    "C43_mode"
   ],
   "note": "All documented keys and modifier sets. Finding C43_ctrl_keypad_refuted: in VT input mode Ctrl with a keypad operator delivers nothing at all."
  },
  {
   "property": "C44",
   "status": "proved",
   "theorems": [
    "C44_accounted",
    "C44_all_closed"
   ],
   "note": "OwnedHandle/OwnedHandle-like ownership modelled as a history of operations against a handle table: every handle the code received is at every moment either owned by exactly one object, released to the caller or closed exactly once; after all owners are destroyed nothing is left open. A CloseHandle refused by Windows is shown separately."
  },
  {
   "property": "C45",
   "status": "proved",
   "theorems": [
    "C45_serialised",
    "C45_in_progress"
   ],
   "note": "Every schedule of every number of threads, one I/O operation at a time; the mutex is modelled as mutual exclusion of the sections between lock and unlock. winpty_free is outside the property."
  },
  {
   "property": "C46",
   "status": "proved",
   "theorems": [
    "C46_command",
    "C46_no_command",
    "C46_unknown_rejected",
    "C46_information",
    "C46_showkey",
    "C46_agent_flags",
    "C46_cases_complete"
   ],
   "note": "Exact characterisation of the adapter's option parsing: command found, no command, unknown option, help/version."
  },
  {
   "property": "C47",
   "status": "proved",
   "theorems": [
    "C47_wcsncpy",
    "C47_wcsncpy_nul",
    "C47_wcsnlen",
    "C47_snprintf"
   ],
   "note": "Checked loads and stores; the C library's vsnprintf is an oracle."
  },
  {
   "property": "C48",
   "status": "proved",
   "theorems": [
    "C48_open_leaves_nothing_behind"
   ],
   "note": "All OS answers; memory allocation assumed to succeed; an ASSERT abort is excluded."
  },
  {
   "property": "C49",
   "status": "proved",
   "theorems": [
    "C49_detect",
    "C49_single_cell"
   ],
   "note": "Assumes that no other program uses the console at the agent's start. The single-cell case assumes that calls succeed and the screen has two columns."
  },
  {
   "property": "C50",
   "status": "proved",
   "theorems": [
    "C50_not_needed",
    "C50_who_makes_it",
    "C50_desktop_alive",
    "C50_children"
   ],
   "note": "All settings of the debug options that force or suppress a background desktop are covered (several at once are ignored, as in the code). Memory allocation assumed to succeed."
  },
  {
   "property": "C51",
   "status": "proved",
   "theorems": [
    "C51_scrolled",
    "C51_window",
    "C51_full_start",
    "C51_full_poll"
   ],
   "note": "Scrolling mode: C51_scrolled and C51_window compose C21 with the terminal of C16; assumptions are those of C21 on the programs, that the terminal has at least the console's columns and window rows and shows each character in as many columns as the console (fits), and that its cursor starts at the beginning of a row. Lines that are blank and were never sent leave the terminal's row as it was. Full-screen mode: C51_full_start and C51_full_poll compose C22 with that terminal; the agent has been told the terminal's size, there is no resize in between, and the cells of one character have the same colours. The cursor's visibility needs that it was not hidden when the mode started (strict; see C19_reset_refuted)."
  },
  {
   "property": "C52",
   "status": "proved",
   "theorems": [
    "C52_full_screen",
    "C52_scrolling",
    "C52_idle",
    "C52_history",
    "C52_window_up_refuted"
   ],
   "note": "Every poll, full-screen or scrolling, changes a console buffer only through the programs' own steps and, while scrolling, through writes more than 200 rows above the window; corollaries for idle programs and for whole C21 runs. On the new console, programs must not move the window up during the poll: C52_window_up_refuted exhibits the marker overwriting visible text otherwise. The poll that leaves full-screen mode and resizes are excluded in the statement."
  },
  {
   "property": "C53",
   "status": "proved",
   "theorems": [
    "C53_first_failure_reported"
   ],
   "note": "The steps are listed in OpenSpec.open_steps; memory allocation is assumed to succeed. The error objects themselves are C28."
  },
  {
   "property": "C54",
   "status": "proved",
   "theorems": [
    "C54_first_in_path",
    "C54_named_file",
    "C54_no_scripts"
   ],
   "note": "realpath, access, tolower and the path conversion are inputs; the conversion for old MSYS without cygwin_conv_path is not modelled."
  },
  {
   "property": "C55",
   "status": "proved",
   "theorems": [
    "C55_restored",
    "C55_raw",
    "C55_refused",
    "C55_failure_refuted"
   ],
   "note": "Flag values are arbitrary. Finding C55_failure_refuted: a failing tcsetattr leaves an earlier terminal raw."
  },
  {
   "property": "C56",
   "status": "proved",
   "theorems": [
    "C56_session",
    "C56_terminals_restored",
    "C56_not_started",
    "C56_failures_reported",
    "C56_crashes_only",
    "C56_zero_size_refuted",
    "C56_non_tty_refuted"
   ],
   "note": "Joining the threads is assumed to return (C40). Findings: C56_zero_size_refuted, C56_non_tty_refuted. The child's exit code is what GetExitCodeProcess says, which is STILL_ACTIVE if the child has not ended."
  },
  {
   "property": "C57",
   "status": "proved",
   "theorems": [
    "C57_environment",
    "C57_fails_only_on_text"
   ],
   "note": "The result of CW_SYNC_WINENV is an input."
  },
  {
   "property": "C58",
   "status": "proved",
   "theorems": [
    "C58_session_pipes",
    "C58_debug_server",
    "C58_exclusive",
    "C58_all_or_nothing",
    "C58_data_pipe_or_stop"
   ],
   "note": "Without --everyone the debug server uses Windows' default descriptor, about which nothing is claimed. The owner of a token is assumed not to be Everyone for the public pipe."
  },
  {
   "property": "C59",
   "status": "proved",
   "theorems": [
    "C59_messages",
    "C59_error_kept",
    "C59_flag_error_kept",
    "C59_server",
    "C59_sent_is_printed"
   ],
   "note": "Reading the clock is exact for clocks after 1970; on Windows XP a program path of 1024 bytes or more would be read past its buffer (the statement assumes shorter paths)."
  },
  {
   "property": "C60",
   "status": "proved",
   "theorems": [
    "C60_agent",
    "C60_helper",
    "C60_never_elsewhere",
    "C60_path_not_cut",
    "C60_one_directory",
    "C60_first_argument",
    "C60_as_in_open"
   ],
   "note": "Windows' own behaviour (GetModuleFileNameW, CreateProcessW) is input. Handles closing after a failure is C48."
  },
  {
   "property": "C61",
   "status": "proved",
   "theorems": [
    "C61_report",
    "C61_no_desktop",
    "C61_exists_first",
    "C61_kept",
    "C61_ends",
    "C61_nothing_left",
    "C61_no_failure",
    "C61_goes_out",
    "C61_library_learns"
   ],
   "note": "getObjectName is an input (the desktop's name or a failure). If the library sent 64 KiB or more to the helper, which it never does, the event loop would assert; the bound is in the statement."
  },
  {
   "property": "C62",
   "status": "proved",
   "theorems": [
    "C62_heap_rules",
    "C62_nodes_stay",
    "C62_total"
   ],
   "note": "sizeof(T) * chunkSize does not overflow for the two pools in use (compile-time constants)."
  },
  {
   "property": "C63",
   "status": "proved",
   "theorems": [
    "C63_not_early",
    "C63_not_late",
    "C63_due",
    "C63_wait",
    "C63_fair",
    "C63_idle",
    "C63_end",
    "C63_no_failure",
    "C63_long_sleep_refuted"
   ],
   "note": "Loop.v models EventLoop::run over NamedPipe.v's pipes with the true time and GetTickCount as its low 32 bits; handlers are arbitrary pipe operations. C63_not_early, C63_not_late, C63_due, C63_wait (pace), C63_fair, C63_idle (no lost work, exact wait set), C63_end, C63_no_failure. C63_long_sleep_refuted: after a suspension of 25 days within a wait the elapsed time reads as negative and the loop asks for a wait of over 24 days instead of polling (EventLoop.cc:56-57, 69)."
  },
  {
   "property": "C64",
   "status": "proved",
   "theorems": [
    "C64_session",
    "C64_modes",
    "C64_refused",
    "C64_line",
    "C64_faithful",
    "C64_key_text",
    "C64_key_words",
    "C64_mouse_text",
    "C64_options",
    "C64_vk_zero_refuted"
   ],
   "note": "ShowInput.v models debugShowInput, the flag tables, Key::toString and the options. C64_session (what is printed, up to Ctrl-D, however split), C64_faithful (the text determines the events), C64_line, C64_key_text, C64_key_words (each of the 65536 keys by its name or number, each character), C64_mouse_text (names of bits), C64_modes (bit by bit), C64_refused, C64_options. C64_vk_zero_refuted: the exception for virtual key 0 is real. fwrite/stdout and the number of records per read (at most 32) are not constrained; printf's %#x is modelled by its documented result."
  },
  {
   "property": "C65",
   "status": "proved",
   "theorems": [
    "C65_output",
    "C65_faithful",
    "C65_ctrl_d_refuted"
   ],
   "note": "ShowKey.v models the reading loop, the caret notation and the three formats. C65_output (what is printed, up to the first piece that begins with Ctrl-D), C65_faithful (the text determines the pieces read). C65_ctrl_d_refuted: a Ctrl-D behind another byte in one read does not end the mode, contrary to the greeting."
  },
  {
   "property": "C66",
   "status": "proved",
   "theorems": [
    "C66_whole_or_nothing",
    "C66_utf8_fits",
    "C66_arguments_whole",
    "C66_spawn_message",
    "C66_code_told",
    "C66_open_message"
   ],
   "note": "Messages.v models the conversions with their buffer sizes and the messages of main.cc. C66_whole_or_nothing, C66_utf8_fits (every Unicode text, both directions), C66_arguments_whole, C66_spawn_message, C66_code_told (for any system texts and locales), C66_open_message. A text that the locale cannot express is dropped entirely, so 'Error creating winpty:' may be followed by nothing."
  },
  {
   "property": "C67",
   "status": "proved",
   "theorems": [
    "C67_at_least",
    "C67_silent",
    "C67_report",
    "C67_modules",
    "C67_text_tells"
   ],
   "note": "WinVersion.v models the version tests, getFixedFileInfo, versionToString, OsModule and dumpWindowsVersion. C67_at_least, C67_silent, C67_report (always completed; text against an independent description), C67_modules (only the system directory's version.dll; balanced loading), C67_text_tells. GetVersionEx failing, and kernel32 not loading in a 32-bit build, are assertion failures and excluded by hypothesis. The text of the exception in the error trace is left out; memory allocation for the version buffer succeeds."
  },
  {
   "property": "C68",
   "status": "proved",
   "theorems": [
    "C68_source",
    "C68_context"
   ],
   "note": "WinVersion.v models the sources in GenRandom. C68_source (exactly the delivered bytes, or nothing on failure), C68_context (life of the crypto context and of advapi32). Quality of the system's generator is outside the model; advapi32 not loading is an assertion failure and excluded. The use of the bytes in names is the subject of C06."
  },
  {
   "property": "C69",
   "status": "proved",
   "theorems": [
    "C69_safe",
    "C69_which",
    "C69_requests",
    "C69_tries",
    "C69_untraced",
    "C69_tracing"
   ],
   "note": "FontApi.v models setSmallFont with its API classes, setFontVista and the dumps on top of ConsoleFont.v (C38). C69_safe, C69_which, C69_requests, C69_tries. kernel32 not loading is an assertion failure and excluded; the number of columns is bounded as in C38. The console's answers are functions of the request (the last one set); std::sort is any sorted permutation. The texts of the dumps are not modelled."
  },
  {
   "property": "C70",
   "status": "proved",
   "theorems": [
    "C70_passed",
    "C70_agent",
    "C70_library",
    "C70_end"
   ],
   "note": "WinptyAssert.h and WinptyAssert.cc and the end of the agent as sequences of effects with the fate of the process. That abort() may wait for a frozen console is the assumption the code's own comment makes; the agent never calls it."
  },
  {
   "property": "C71",
   "status": "proved",
   "theorems": [
    "C71_pipe",
    "C71_server",
    "C71_descriptor",
    "C71_same",
    "C71_conversions"
   ],
   "note": "Acquisitions, uses and frees as a trace with C++'s scopes and unwinding; the endings agree with C58's model (C71_same). The moves of SecurityItem are taken as transfers of ownership, and memory allocation by new succeeds."
  }
 ]
}