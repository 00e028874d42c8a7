{
 "C01": {
  "note": "Round trip for every sequence of values and for every message type; the writer's bytes match an independent wire-format relation.",
  "status": "proved"
 },
 "C02": {
  "note": "No over-read; exact characterisation of accepted messages; every other message fails with an exception. Finding C02_oversize_string_refuted: a huge string length is reported as an allocation failure rather than a decode error, because the string is resized before the bounds check; the agent does not catch it.",
  "status": "proved"
 },
 "C03": {
  "note": "Safety, timeliness, room and liveness for every OS behaviour. Finding C03_request_before_disconnect_refuted: a request received in the same service call as a pipe error is dropped, hence the 'while connected' in the statement.",
  "status": "proved"
 },
 "C04": {
  "note": "Encoders equal the Unicode standard's arithmetic forms; the decoder accepts exactly the shortest forms and reads only the announced bytes; surrogate pairs in both directions.",
  "status": "proved"
 },
 "C05": {
  "note": "Both formatters, every width and signedness, every initial buffer content; stores are checked, so success also means no overrun.",
  "status": "proved"
 },
 "C06": {
  "note": "Whole history of names of one process with arbitrary clock and random bytes, the counter wrapping modulo 2^32; different process ids; random suffix.",
  "status": "proved"
 },
 "C07": {
  "note": "The trie (both node representations and the conversion between them) is modelled as it is; lookups are proved for every history of registrations with nonempty byte sequences. Registering an empty sequence asserts and is excluded (the code never does). Pool allocation is assumed to succeed.",
  "status": "proved"
 },
 "C08": {
  "note": "Tables transcribed from DefaultInputMap.cc and expanded by the modelled code into 2676 set calls. The specification lists the documented encodings by terminal convention and modifier set; the theorem that the two agree is decided by kernel computation over the whole finite table and extended to every following input with C07. The theorem concerns the table: that CSI 1;m R (modified F3) is intercepted as a cursor report by the input scanner before the table is consulted is covered with C14. C08_delivered: a documented sequence written at a boundary reaches the console as that key, except the three shadowed forms.",
  "status": "proved"
 },
 "C09": {
  "note": "For every reachable state and every prompt history. GetTickCount answers for double clicks are a stream shared by both runs. Writes are below 2^31-64 bytes (inputSize is an int).",
  "status": "proved"
 },
 "C10": {
  "note": "Tokens are given by a grammar independent of the scanner. Finding: bytes that are not UTF-8 are dropped, and an invalid sequence takes with it as many bytes as its lead byte announces.",
  "status": "proved"
 },
 "C11": {
  "note": "Every text, every reachable state at a sequence boundary, every layout (VT input mode: layouts that do not type text with a re-encoded key).",
  "status": "proved"
 },
 "C12": {
  "note": "Every documented key, every decoded character on any layout, both console modes. Shadowed sequences (cursor reply form, mouse prefix, Ctrl+C in processed mode) are recognised as something else and are excluded.",
  "status": "proved"
 },
 "C13": {
  "note": "All reports of all three encodings, all reachable states, all window rectangles of less than 32767 cells a side; double clicks over all histories. Finding C13_wrap_refuted: coordinates wrap to 16 bits, so columns beyond 32768 are not placed at the window's edge.",
  "status": "proved"
 },
 "C14": {
  "note": "History invariant, release and swallowing proved for every reachable state and every reply. Findings kept as witnesses: modified F3 in xterm's CSI 1;m R form is swallowed as a reply; ESC typed just before a reply 1;2..8 becomes Alt+modified F3; an incomplete UTF-8 character eats the start of a reply, whose rest is delivered as typed text.",
  "status": "proved"
 },
 "C24": {
  "note": "NamedPipe service loop, queues and close against arbitrary OS answers; liveness under completing OS answers; assertion freedom under the full-write contract.",
  "status": "proved"
 },
 "C26": {
  "note": "All call sequences, all OS answers, any agent that answers each request with one packet; poisoning also for agents sending arbitrary bytes. A call that aborts the process by ASSERT or never returns ends the session.",
  "status": "proved"
 },
 "C27": {
  "note": "All replies and failure points, ownership of handles as a multiset; with the real agent's reply the duplicated handles are exactly the requested ones. Error objects: C28.",
  "status": "proved"
 },
 "C28": {
  "note": "All exceptions, all allocation failures while throwing and building, all client histories of calls and frees. Finding C28_trace_allocation_refuted: the trace call's string conversions are outside the try block, so a further allocation failure there lets std::bad_alloc leave the C API and leaks the object.",
  "status": "proved"
 },
 "C29": {
  "note": "Copy and end-to-end path (config object, RPC encoding, decoding in the agent, CreateProcess arguments) for every block, any other arguments and any memory after the block. Strings must fit the receiving process's allocation limit.",
  "status": "proved"
 },
 "C30": {
  "note": "Round trip for every argument list under all three published rules for doubled quotes (stated in CmdLineSpec). Assumes the program path has no quotes and does not end in a backslash when it needs quoting, and arguments shorter than 2^30 characters. The multibyte-to-wide conversion is not modelled.",
  "status": "proved"
 },
 "C31": {
  "note": "writeAll, the output thread and the input thread, for all POSIX answer sequences; buffers below 2^31 bytes (the code keeps the result in an int; it uses 4096).",
  "status": "proved"
 },
 "C32": {
  "note": "Call end to end for all counts, array sizes and chunkings of the reply; agent loop ends within 26 queries. Finding: C32_small_array_refuted shows that a too-small array poisons the session instead of only failing.",
  "status": "proved"
 },
 "C34": {
  "note": "All OS answers, for the main agent and the desktop helper. Also: nothing is read from the pipe before the check.",
  "status": "proved"
 },
 "C35": {
  "note": "All flag words and integers; the whole path config -> command line -> CommandLineToArgvW (as documented, all three quote conventions) -> agent main -> Agent constructor. Rejection is an ASSERT (process abort), not an error code. WideCharToMultiByte is assumed to keep ASCII.",
  "status": "proved"
 },
 "C40": {
  "note": "All interleavings of resizes, signal delivery, thread completion and main. Assumes a non-blocking self-pipe of positive capacity and that the handler does not disturb errno. Finding (C40_resize_before_registration_refuted): a resize between the initial size query and the installation of the handler is not noticed until the next wake-up; the theorems start at the installation.",
  "status": "proved"
 },
 "C43": {
  "note": "All documented keys and modifier sets. Finding C43_ctrl_keypad_refuted: in VT input mode Ctrl with a keypad operator delivers nothing at all.",
  "status": "proved"
 },
 "C45": {
  "note": "Every schedule of every number of threads, one I/O operation at a time; the mutex is modelled as mutual exclusion of the sections between lock and unlock. winpty_free is outside the property.",
  "status": "proved"
 },
 "C46": {
  "note": "Exact characterisation of the adapter's option parsing: command found, no command, unknown option, help/version.",
  "status": "proved"
 },
 "C47": {
  "note": "Checked loads and stores; the C library's vsnprintf is an oracle.",
  "status": "proved"
 },
 "C48": {
  "note": "All OS answers; memory allocation assumed to succeed; an ASSERT abort is excluded.",
  "status": "proved"
 },
 "C15": {
  "status": "proved",
  "note": "All histories of comparisons, forced sends, blankings and resets, on terminals that keep or forget obscured columns. Erased columns appear in the colour of the last cell of the line last sent. A reset is taken to go with a cleared row."
 },
 "C16": {
  "status": "proved",
  "note": "Relative to a terminal emulator defined in TerminalSpec.v. Findings: C16_control_refuted (control characters other than 1-6 and ESC are sent raw, so the terminal shows nothing for them and its cursor is off), C16_surrogate_refuted (a line sent with half a surrogate pair and again with the whole pair shows two question marks). C16_total: for any cells no operation fails an assertion or reads outside a line."
 },
 "C17": {
  "status": "proved",
  "note": "C17_clean and C17_plain are about the terminal object, C17_stream and C17_plain_stream about all of CONOUT and CONERR, with titles and cursor queries mixed in. ESC only. The C1 control characters U+0080-U+009F are sent as UTF-8, among them U+009B (CSI), which some terminals obey; the code does not filter them. Titles are not filtered either (C42_injection_refuted)."
 },
 "C18": {
  "status": "proved",
  "note": "All 65536 attribute words and any previous state of the terminal."
 },
 "C19": {
  "status": "proved",
  "note": "Finding C19_reset_refuted: resetting the terminal while the cursor is hidden (the agent does this when a console with a hidden cursor is resized or loses its sync marker) makes the agent believe the cursor is visible, so a later show sends nothing and the terminal's cursor stays hidden."
 },
 "C41": {
  "status": "proved",
  "note": "The terminal object for every operation sequence, and the agent: at shutdown the mouse mode is off before the output pipe is closed."
 },
 "C23": {
  "status": "proved",
  "note": "Containment, intersection, sizes and line inclusion agree with the set of cells for all 16-bit rectangles; the only place where 16 bits can wrap (an empty intersection at the least SHORT) is excluded and shown by an example."
 },
 "C44": {
  "status": "proved",
  "note": "OwnedHandle/OwnedHandle-like ownership modelled as a history of operations against a handle table: every handle the code received is at every moment either owned by exactly one object, released to the caller or closed exactly once; after all owners are destroyed nothing is left open. A CloseHandle refused by Windows is shown separately."
 },
 "C25": {
  "status": "proved",
  "note": "For every schedule of polls, pipe completions, resizes, replies and client actions. C25_total shows that no such schedule fails an assertion, as long as no start follows one that succeeded (winpty.h allows winpty_spawn once; a second start does assert)."
 },
 "C42": {
  "status": "proved",
  "note": "A failing title query reads as an empty title (C42_sound says when). Finding, C42_injection_refuted: the title is sent unfiltered, so a program-chosen title holding BEL or ESC ends the title command early and injects escape sequences into the client's terminal."
 },
 "C37": {
  "status": "proved",
  "note": "For every rectangle inside the buffer at most 2500 columns wide (the code asserts that bound), masked, in both the one-request and the split mode. Split reads need the console frozen, which it always is on the systems that split. The console's read call is modelled as returning the buffer's cells."
 },
 "C38": {
  "status": "proved",
  "note": "The selected size is a row of the code page's table; if any row makes the window 160 pixels wide the selected one does and no smaller row does; the XP tables and the fallback for fonts the console refuses are covered. Pixel metrics reported by the console are inputs."
 },
 "C39": {
  "status": "proved",
  "note": "Over all variable values and flag names without a comma; includes the 256 byte limit, the cached value and concurrent first calls."
 },
 "C20": {
  "status": "proved",
  "note": "C20_safe: every history runs to its end unless one of three resize circumstances arises (the run with stops Throws); C20_same: the stops are the only difference; C20_polls: poll-only histories with a constant buffer height are never excluded. C20_marker_refuted, C20_window_refuted and C20_stale_refuted show that the program does fail in each of the three. Console calls GetConsoleScreenBufferInfo etc. are assumed to succeed. The runs include the terminal objects (drawn_all)."
 },
 "C36": {
  "status": "proved",
  "note": "For every poll, resize and history of them with arbitrary interference by other programs, and for arbitrarily nested guards. Assumes that the system's Mark/Select All and ESC commands take effect."
 },
 "C49": {
  "status": "proved",
  "note": "Assumes that no other program uses the console at the agent's start. The single-cell case assumes that calls succeed and the screen has two columns."
 },
 "C33": {
  "status": "proved",
  "note": "C33_start and C33_requests bound every request made of the console under arbitrary interference and failures; C33_effect gives the exact resulting geometry (primary and stderr buffers) without interference; C33_zero the abort. Finding (C33_fit_refuted): if the console refuses the new buffer size the agent still asks for a window that does not fit. The console's reaction (SetConsoleWindowInfo, SetConsoleScreenBufferSize) is modelled in Console.v."
 },
 "C22": {
  "status": "proved",
  "note": "DirectProps.v. C22_reachable links the hypotheses to running agents; C22_enter, C22_poll, C22_screen and C22_cursor are the parts of the statement. 'The terminal shows a line and nothing else in that row' is DirectSpec.fills: erased columns show blanks in the last colour of the line last sent, which is what the terminal writer relies on (C15, C19), and the rest of the row is blank. What is seen is exactly what the console holds when it is frozen during the poll; with the new console (not frozen) it is so under the stated condition, since programs may move the window between the query and the read. At a resize the terminal may keep rows below the visible part until the next poll."
 },
 "C50": {
  "status": "proved",
  "note": "All settings of the debug options that force or suppress a background desktop are covered (several at once are ignored, as in the code). Memory allocation assumed to succeed."
 },
 "C21": {
  "status": "proved",
  "note": "Histories of the primary console (StreamSpec.v): programs never move the window's row up, do not imitate the agent's 16-row sync marker in column 0 and leave alone what is above the window; attributes are 16-bit; buffer height 3000 throughout; console calls succeed. within_reach is the condition that the marker is not overrun; C21_slow_enough gives a condition on the programs alone that implies it (at most T-431 lines scroll off from the start of a poll with the window at row T to the start of the poll after the next; nothing scrolls off before the first marker). C21_first_scroll_refuted: before the first marker scrolling is not noticed and lines get wrong numbers."
 },
 "C51": {
  "status": "proved",
  "note": "Scrolling mode: C51_scrolled and C51_window compose C21 with the terminal of C16; assumptions are those of C21 on the programs, that the terminal has at least the console's columns and window rows and shows each character in as many columns as the console (fits), and that its cursor starts at the beginning of a row. Lines that are blank and were never sent leave the terminal's row as it was. Full-screen mode: C51_full_start and C51_full_poll compose C22 with that terminal; the agent has been told the terminal's size, there is no resize in between, and the cells of one character have the same colours. The cursor's visibility needs that it was not hidden when the mode started (strict; see C19_reset_refuted)."
 },
 "C52": {
  "status": "proved",
  "note": "Every poll, full-screen or scrolling, changes a console buffer only through the programs' own steps and, while scrolling, through writes more than 200 rows above the window; corollaries for idle programs and for whole C21 runs. On the new console, programs must not move the window up during the poll: C52_window_up_refuted exhibits the marker overwriting visible text otherwise. The poll that leaves full-screen mode and resizes are excluded in the statement."
 },
 "C53": {
  "status": "proved",
  "note": "The steps are listed in OpenSpec.open_steps; memory allocation is assumed to succeed. The error objects themselves are C28."
 },
 "C54": {
  "status": "proved",
  "note": "realpath, access, tolower and the path conversion are inputs; the conversion for old MSYS without cygwin_conv_path is not modelled."
 },
 "C55": {
  "status": "proved",
  "note": "Flag values are arbitrary. Finding C55_failure_refuted: a failing tcsetattr leaves an earlier terminal raw."
 },
 "C56": {
  "status": "proved",
  "note": "Joining the threads is assumed to return (C40). Findings: C56_zero_size_refuted, C56_non_tty_refuted. The child's exit code is what GetExitCodeProcess says, which is STILL_ACTIVE if the child has not ended."
 },
 "C57": {
  "status": "proved",
  "note": "The result of CW_SYNC_WINENV is an input."
 },
 "C58": {
  "status": "proved",
  "note": "Without --everyone the debug server uses Windows' default descriptor, about which nothing is claimed. The owner of a token is assumed not to be Everyone for the public pipe."
 },
 "C59": {
  "status": "proved",
  "note": "Reading the clock is exact for clocks after 1970; on Windows XP a program path of 1024 bytes or more would be read past its buffer (the statement assumes shorter paths)."
 },
 "C60": {
  "status": "proved",
  "note": "Windows' own behaviour (GetModuleFileNameW, CreateProcessW) is input. Handles closing after a failure is C48."
 },
 "C61": {
  "status": "proved",
  "note": "getObjectName is an input (the desktop's name or a failure). If the library sent 64 KiB or more to the helper, which it never does, the event loop would assert; the bound is in the statement."
 },
 "C62": {
  "status": "proved",
  "note": "sizeof(T) * chunkSize does not overflow for the two pools in use (compile-time constants)."
 },
 "C63": {
  "status": "proved",
  "note": "Loop.v models EventLoop::run over NamedPipe.v's pipes with the true time and GetTickCount as its low 32 bits; handlers are arbitrary pipe operations. C63_not_early, C63_not_late, C63_due, C63_wait (pace), C63_fair, C63_idle (no lost work, exact wait set), C63_end, C63_no_failure. C63_long_sleep_refuted: after a suspension of 25 days within a wait the elapsed time reads as negative and the loop asks for a wait of over 24 days instead of polling (EventLoop.cc:56-57, 69)."
 },
 "C64": {
  "status": "proved",
  "note": "ShowInput.v models debugShowInput, the flag tables, Key::toString and the options. C64_session (what is printed, up to Ctrl-D, however split), C64_faithful (the text determines the events), C64_line, C64_key_text, C64_key_words (each of the 65536 keys by its name or number, each character), C64_mouse_text (names of bits), C64_modes (bit by bit), C64_refused, C64_options. C64_vk_zero_refuted: the exception for virtual key 0 is real. fwrite/stdout and the number of records per read (at most 32) are not constrained; printf's %#x is modelled by its documented result."
 },
 "C65": {
  "status": "proved",
  "note": "ShowKey.v models the reading loop, the caret notation and the three formats. C65_output (what is printed, up to the first piece that begins with Ctrl-D), C65_faithful (the text determines the pieces read). C65_ctrl_d_refuted: a Ctrl-D behind another byte in one read does not end the mode, contrary to the greeting."
 },
 "C66": {
  "status": "proved",
  "note": "Messages.v models the conversions with their buffer sizes and the messages of main.cc. C66_whole_or_nothing, C66_utf8_fits (every Unicode text, both directions), C66_arguments_whole, C66_spawn_message, C66_code_told (for any system texts and locales), C66_open_message. A text that the locale cannot express is dropped entirely, so 'Error creating winpty:' may be followed by nothing."
 },
 "C67": {
  "status": "proved",
  "note": "WinVersion.v models the version tests, getFixedFileInfo, versionToString, OsModule and dumpWindowsVersion. C67_at_least, C67_silent, C67_report (always completed; text against an independent description), C67_modules (only the system directory's version.dll; balanced loading), C67_text_tells. GetVersionEx failing, and kernel32 not loading in a 32-bit build, are assertion failures and excluded by hypothesis. The text of the exception in the error trace is left out; memory allocation for the version buffer succeeds."
 },
 "C68": {
  "status": "proved",
  "note": "WinVersion.v models the sources in GenRandom. C68_source (exactly the delivered bytes, or nothing on failure), C68_context (life of the crypto context and of advapi32). Quality of the system's generator is outside the model; advapi32 not loading is an assertion failure and excluded. The use of the bytes in names is the subject of C06."
 },
 "C69": {
  "status": "proved",
  "note": "FontApi.v models setSmallFont with its API classes, setFontVista and the dumps on top of ConsoleFont.v (C38). C69_safe, C69_which, C69_requests, C69_tries. kernel32 not loading is an assertion failure and excluded; the number of columns is bounded as in C38. The console's answers are functions of the request (the last one set); std::sort is any sorted permutation. The texts of the dumps are not modelled."
 },
 "C70": {
  "status": "proved",
  "note": "WinptyAssert.h and WinptyAssert.cc and the end of the agent as sequences of effects with the fate of the process. That abort() may wait for a frozen console is the assumption the code's own comment makes; the agent never calls it."
 },
 "C71": {
  "status": "proved",
  "note": "Acquisitions, uses and frees as a trace with C++'s scopes and unwinding; the endings agree with C58's model (C71_same). The moves of SecurityItem are taken as transfers of ownership, and memory allocation by new succeeds."
 }
}