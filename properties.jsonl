{"id": "C01", "title": "RPC message round trip", "statement": "Whatever sequence of 32-bit integers, 64-bit integers and wide strings one side (winpty.dll or the agent) puts into a control-pipe message, the other side reads back exactly that sequence of values, and then sees end of message. In particular every winpty_spawn, winpty_set_size and winpty_get_console_process_list request and reply arrives with the field values that were sent, including negative integers, integers at the limits of their types, empty strings and strings with embedded NULs.", "quantifier": "all finite sequences of values of the three wire types, all integer values of each width, all strings of any length", "why_tests_cant": "tests send a handful of messages; the claim ranges over every value and every string length, including boundary bit patterns", "anchors": ["src/shared/Buffer.cc: WriteBuffer, ReadBuffer", "src/libwinpty/winpty.cc: winpty_spawn, winpty_set_size, winpty_get_console_process_list", "src/agent/Agent.cc: handleStartProcessPacket, handleSetSizePacket"]}
{"id": "C02", "title": "Malformed RPC messages are rejected, never over-read", "statement": "For every byte string received as a control-pipe message, decoding any sequence of fields from it either returns values fully contained in the message or reports a decode error; it never reads a byte outside the message. A field whose wire type differs from the expected one, a truncated field, a string length that does not fit the message, and left-over bytes after the last field are all rejected: decoding fails with an error and no value is delivered (a decode error, except that a string length beyond what the process can allocate may surface as an allocation failure).", "quantifier": "all byte strings (valid or not) and all sequences of expected field types", "why_tests_cant": "the set of malformed messages is infinite and the interesting ones have adversarial length fields close to 2^64", "anchors": ["src/shared/Buffer.cc: getRawData, getInt32, getInt64, getWString, assertEof"]}
{"id": "C03", "title": "Control-pipe framing is independent of how the pipe splits the bytes", "statement": "While the control connection stays up, the agent executes exactly the requests the client sent, in the order sent, each exactly once, no matter how the operating system splits the control-pipe byte stream into reads and no matter when the agent polls; a request is executed only when all of its bytes have arrived, and a request of any size eventually gets buffer space. A message with an impossible length header is never executed.", "quantifier": "all finite request sequences, all message sizes, all splittings of the byte stream, all interleavings of arrivals and polls", "why_tests_cant": "the number of ways to split a stream grows exponentially; a unit test fixes one split", "anchors": ["src/agent/Agent.cc: pollControlPipe, handlePacket", "src/agent/NamedPipe.cc: setReadBufferSize, peek, read"]}
{"id": "C04", "title": "UTF-8 and UTF-16 conversion is lossless on every Unicode scalar value", "statement": "For every Unicode scalar value, encoding to UTF-8 and decoding gives the same value back and consumes exactly the encoded length; same for UTF-16 surrogate pairs. Conversely every byte sequence the decoder accepts is the unique shortest encoding of the value returned: overlong forms, surrogates, values above U+10FFFF, stray continuation bytes and truncated sequences are all rejected, and the decoder never examines more bytes than the lead byte announces. Encoding a non-scalar value produces no output and reports an error.", "quantifier": "all 32-bit code values and all byte sequences of the announced length", "why_tests_cant": "the decoder domain has 2^32 four-byte inputs and the encoder domain 2^32 values; tests sample boundaries", "anchors": ["src/agent/UnicodeEncoding.h: encodeUtf8, encodeUtf16, utf8CharLength, decodeUtf8, decodeSurrogatePair"]}
{"id": "C05", "title": "Integer formatting is exact and stays inside its buffer", "statement": "Every integer that is formatted in decimal or hexadecimal (pipe names, escape-sequence parameters, error messages, agent command line) produces the canonical numeral of that integer (no leading zeros unless requested, a minus sign exactly for negatives), and the fixed-size scratch buffer is never overrun, for every integer type width including the most negative value.", "quantifier": "all integers of all widths up to 64 bits (and beyond), both signednesses", "why_tests_cant": "2^64 values per type; the most negative value and maximum width are the classic off-by-one traps", "anchors": ["src/shared/StringBuilder.h: gdecOfInt, ghexOfInt"]}
{"id": "C06", "title": "Generated pipe names do not collide", "statement": "Two pipe names generated in the same process at different times (fewer than 2^32 calls apart), or generated in different live processes, are different strings, whatever the clock and the random number generator return; and when secure random bytes are available the name ends in the hexadecimal rendering of all 128 of them.", "quantifier": "all process ids, all counter values, all clock readings and random outputs, including a clock that goes backwards and a constant random generator", "why_tests_cant": "collisions depend on joint values of pid, counter, clock and RNG that a test cannot enumerate", "anchors": ["src/shared/GenRandom.cc: uniqueName, randomHexString"]}
{"id": "C07", "title": "Key-sequence lookup finds the longest registered sequence", "statement": "After registering any set of escape sequences with any keys in any order, looking up any input returns the key most recently registered for the longest registered sequence that is a prefix of the input (and its length), or reports no match; it reports 'incomplete' exactly when the whole input is a proper prefix of some registered sequence. The answer does not depend on registration order (except overwriting the same sequence) nor on how many continuations share a prefix.", "quantifier": "all finite sets of sequences, all registration orders, all inputs", "why_tests_cant": "a trie with two node representations and an in-place conversion between them has infinitely many shapes", "anchors": ["src/agent/InputMap.cc: set, setHelper, getOrCreateChild, lookupKey", "src/agent/InputMap.h: getChild"]}
{"id": "C08", "title": "The built-in key table is complete and consistent", "statement": "The built-in table of terminal key encodings is constructed without any assertion failure or buffer overrun; each terminal encoding documented for the arrow, navigation, function and keypad keys with any combination of Shift/Alt/Ctrl modifiers is recognised, with and without Alt (ESC) prefix, as that key with that modifier state, whatever input follows it (the ESC O forms of F1-F4, back-tab and Ctrl+C have no Alt-prefixed form); nothing else is recognised; no entry silently overwrites another with a different meaning.", "quantifier": "all entries of the table times all modifier combinations times optional Alt prefix", "why_tests_cant": "several thousand generated entries; tests cover a few, and overwriting is invisible to tests of single entries", "anchors": ["src/agent/DefaultInputMap.cc: addDefaultEntriesToInputMap, addSimpleEntries, expandEncoding, setEncoding"]}
{"id": "C09", "title": "Terminal input decoding does not depend on chunking", "statement": "Splitting the bytes written to the CONIN pipe into arbitrary chunks, with no pause of more than the escape timeout between chunks and unchanged console mode, produces exactly the same console input records as writing them in one piece.", "quantifier": "all byte streams, all splittings, all console modes", "why_tests_cant": "there are 2^(n-1) splittings of an n-byte stream and escape sequences, UTF-8 characters, DSR replies and mouse records may straddle every boundary", "anchors": ["src/agent/ConsoleInput.cc: writeInput, doWrite, scanInput"]}
{"id": "C10", "title": "Terminal input never gets stuck and is never lost", "statement": "Every byte written to the CONIN pipe is consumed exactly once, in order: decoding always makes progress and terminates; bytes are held back only while they are a proper prefix of a recognisable sequence; and once the escape timeout has passed without new input, everything held back is delivered, except that the bytes of a UTF-8 character that never became complete are discarded. Ctrl+C read at a boundary, in processed-input mode, becomes exactly one interrupt and nothing else.", "quantifier": "all byte streams and all timings of polls", "why_tests_cant": "requires induction over streams and a termination argument", "anchors": ["src/agent/ConsoleInput.cc: doWrite, scanInput, flushIncompleteEscapeCode, writeInput"]}
{"id": "C11", "title": "Typed text arrives unchanged", "statement": "For every Unicode text consisting of characters that are not control characters, sending its UTF-8 encoding to CONIN makes the console receive key events whose characters, in order, are exactly the UTF-16 encoding of the text, each as a key-down followed by a key-up. (In VT input mode, on keyboard layouts that type no text character with one of the keys that mode re-encodes: cursor, editing and function keys, Backspace, Tab.) ESC followed by such a character, sent together, is that character typed with Alt held.", "quantifier": "all Unicode texts of any length, all keyboard layouts", "why_tests_cant": "the text space is infinite; surrogate pairs and key-map prefixes interact", "anchors": ["src/agent/ConsoleInput.cc: scanInput, appendUtf8Char, appendKeyPress, appendInputRecord"]}
{"id": "C12", "title": "Synthesised key presses leave no modifier stuck", "statement": "For every recognised key, the console input records form a balanced sequence: each modifier key pressed is released afterwards, in reverse order, the key itself is pressed once and released once, the control-key state in each record equals the set of modifiers down at that moment plus the key's own enhanced flag, and after the sequence no modifier is down. In VT input mode the key's presses are replaced by the characters of its re-encoding, and the modifiers are balanced around them in the same way.", "quantifier": "all virtual keys, characters, modifier states and console modes", "why_tests_cant": "combination of independent modifier bits, key kinds and console modes", "anchors": ["src/agent/ConsoleInput.cc: appendKeyPress, appendCPInputRecords, appendInputRecord"]}
{"id": "C13", "title": "Mouse events always lie inside the console window", "statement": "For every mouse escape sequence in any of the supported encodings (X10, SGR 1006, urxvt 1015), with arbitrary numeric parameters of up to seven digits, the resulting console mouse record has a position inside the current window, and the sequence is consumed entirely; button state after a press contains the pressed button and after release does not; wheel events carry the right direction; a press is reported as a double click only if the preceding press was of the same button at the same cell within the double-click time. Two presses of a button in one cell within the double-click time, with its release between them, are reported as a double click, and the press after a double click is not reported as another one.", "quantifier": "all byte strings matching the encodings, all parameter values including ones that overflow 16 and 32 bits, all window rectangles, all event histories", "why_tests_cant": "numeric overflow and history dependence", "anchors": ["src/agent/ConsoleInput.cc: matchMouseDefault, matchMouse1006, matchMouse1015, scanMouseInput"]}
{"id": "C14", "title": "Cursor-position queries: at most one outstanding, replies swallowed", "statement": "The agent never sends a second device-status query to the terminal while one is outstanding: over any history the queries sent exceed the replies received by at most one. After a reply ESC [ digits ; digits R nothing is withheld any more. A reply that arrives while nothing, or only ASCII input other than an X10 mouse prefix, is withheld is consumed without producing any event, and the withheld input is delivered exactly as the timeout would deliver it (one exception: a withheld lone ESC directly before a reply of the form ESC [ 1 ; 2..8 R, which together encode a key). A terminal's encoding of modified F3, ESC [ 1 ; m R, is itself taken for a reply. Whenever a write leaves input held back and no query is outstanding, one query is sent; a write that leaves nothing held back sends none.", "quantifier": "all interleavings of user input, queries and replies", "why_tests_cant": "races between user typing and terminal replies", "anchors": ["src/agent/ConsoleInput.cc: matchDsr, scanInput, doWrite, flushIncompleteEscapeCode"]}
{"id": "C15", "title": "Changed console lines are always detected", "statement": "Each time the agent compares a console line with what it last recorded, it answers 'unchanged' only if a terminal showing the previously recorded line already shows the new line (after padding the shorter one with blanks); after the comparison the recorded line is the new line. This holds for every history of lines of varying widths and of blanking.", "quantifier": "all sequences of lines, widths and cell contents", "why_tests_cant": "stale cells beyond the current width survive in the recorded line across shrinks and grows; the history is unbounded", "anchors": ["src/agent/ConsoleLine.cc: detectChangeAndSetLine, setLine, blank, reset"]}
{"id": "C16", "title": "The terminal shows what the console shows", "statement": "For any sequence of line transmissions, resets, cursor moves and shows/hides the agent makes, a terminal that interprets the emitted bytes ends up with each transmitted line showing the characters of that line in their colours, blanks to the right of it, and no remains of what was shown before, and with its cursor at the position the agent believes; lines not addressed are untouched. This is claimed for lines of well-formed UTF-16 whose characters are printable and take as many terminal columns as console cells, and that are on the terminal's screen. Whatever the console holds, none of these operations fails.", "quantifier": "all sequences of output operations, all line contents and widths", "why_tests_cant": "the emitted byte stream depends on the whole history (incremental updates reuse what is on screen)", "anchors": ["src/agent/Terminal.cc: sendLine, moveTerminalToLine, showTerminalCursor, hideTerminalCursor, reset"]}
{"id": "C17", "title": "Console text cannot inject escape sequences", "statement": "Whatever characters a program puts into console cells, every ESC byte in the emitted stream is part of a sequence the agent itself generated; in plain-output mode no escape sequence is emitted at all, except colour sequences if those were requested.", "quantifier": "all cell contents, all operation sequences, all output modes", "why_tests_cant": "security-style universal claim over cell contents", "anchors": ["src/agent/Terminal.cc: fixSpecialCharacters, sendLine, hideTerminalCursor, enableMouseMode", "src/agent/Agent.cc: sendDsr, syncConsoleTitle, onPollTimeout"]}
{"id": "C18", "title": "Console colours map to the documented terminal colours", "statement": "For every console attribute word, the colour sequence emitted selects exactly the foreground/background/reverse rendition that the attribute denotes under the documented mapping, starting from a clean state each time, so the rendition never depends on earlier colours.", "quantifier": "all 2^16 attribute values and all previous renditions", "why_tests_cant": "history independence is a statement about all predecessors", "anchors": ["src/agent/Terminal.cc: outputSetColor, outputSetColorSgrParams"]}
{"id": "C19", "title": "Cursor visibility follows the console", "statement": "After the agent reports the console cursor as visible the terminal's cursor is visible and at the reported position; after it reports the cursor hidden the terminal's cursor is hidden; a redundant show or hide sends nothing. If a line is drawn whose text runs past the place where the cursor belongs, the cursor is switched off before the first cell of the screen changes, and is off when the line is complete. This is claimed for histories in which the agent does not reset the terminal while the cursor is hidden.", "quantifier": "all operation histories", "why_tests_cant": "history-dependent", "anchors": ["src/agent/Terminal.cc: showTerminalCursor, hideTerminalCursor, reset"]}
{"id": "C20", "title": "Output scraping never indexes outside its tables or fails an assertion", "statement": "For every history of polls and resizes, whatever other programs do to the console in between (buffer size, window, cursor, contents; sync marker found at any row, moved or lost), scraping performs only in-range reads of the console, only in-range accesses of its line table, and never fails an assertion, nor does the transmission of what it found, unless around a resize (i) the sync marker was found at row 0 with the window less than 432 rows down, (ii) the console reports, after the buffer has been resized, another height or a window above the sync marker, or (iii) before the new Windows 10 console, a full-screen program's window no longer fits the resized buffer. In each of the three the agent can fail. Histories of polls alone with a constant buffer height are never excluded.", "quantifier": "all histories of console states, resizes, mode switches and scrolls", "why_tests_cant": "the state space of histories is infinite and the failure is memory corruption", "anchors": ["src/agent/Scraper.cc: scrollingScrapeOutput, directScrapeOutput, findSyncMarker, createSyncMarker, resizeImpl", "src/agent/LargeConsoleRead.cc"]}
{"id": "C21", "title": "Scrolled-off output is transmitted completely, once and in order", "statement": "Take any history of polls of a console whose programs write lines, rewrite lines from the top of the window on, scroll the buffer and move the window down, at any moments between and during the agent's console calls, such that the sync marker stays in the buffer (before the first marker exists: such that nothing scrolls off). Then no poll fails; line numbers sent are consecutive from the first one on and nothing is cleared; whatever is sent as line n is what line n of the programs' output held at some time, so each line keeps its number for ever, and all that one poll sends shows the console at one moment; a line is sent only if it or a line above it is new or has changed; every line above the window when a poll begins has, after that poll, been transmitted in its final form; and after a poll in which the programs were quiet the whole window has been transmitted, except for blank lines never sent.", "quantifier": "all programs' output histories, poll timings and scroll amounts below the buffer limit", "why_tests_cant": "scroll amounts between polls are timing dependent and unbounded in number", "anchors": ["src/agent/Scraper.cc: scrollingScrapeOutput, scanForDirtyLines, findSyncMarker, createSyncMarker"]}
{"id": "C22", "title": "Full-screen mode transmits exactly the visible window", "statement": "When the program takes over the screen buffer (a buffer height other than the agent's own), the terminal is cleared and every line of the visible part of the window (as much of it as the terminal has rows and columns for) is sent. From then on each poll sends, in order and at most once each, the lines the terminal does not already show, with all their columns, and does not send a line unchanged since it was last seen; after every history of polls the terminal's row shows each line as it was last seen, and is blank beyond it. The cursor is reported relative to the window, inside the visible part, and otherwise hidden.", "quantifier": "all histories of polls and resizes in full-screen mode, with programs changing the screen buffer, the window and the cursor at any moment", "why_tests_cant": "history-dependent change detection", "anchors": ["src/agent/Scraper.cc: directScrapeOutput, syncConsoleContentAndSize"]}
{"id": "C23", "title": "Window geometry arithmetic is exact", "statement": "For rectangles and coordinates within console limits, intersection, containment, extension and size computations agree with the set-of-cells meaning; results never wrap around 16 bits.", "quantifier": "all rectangles within the 16-bit range under the stated size limits", "why_tests_cant": "2^64 rectangle pairs; wrap-around cases are rare", "anchors": ["src/agent/SmallRect.h", "src/agent/Coord.h"]}
{"id": "C24", "title": "Data pipes deliver bytes in order without loss or duplication", "statement": "The bytes a reader obtains from a pipe endpoint are always a prefix of the bytes written at the other end, in order; once writing stops and the peer keeps reading, all bytes arrive; 'nothing left to send' is reported exactly when every byte has been handed to the operating system and completed; a closed pipe never delivers more. This holds for every partial completion, pending operation and error the OS may report.", "quantifier": "all write/read/poll interleavings, all completion sizes, all error points", "why_tests_cant": "asynchronous completion order and sizes are chosen by the OS", "anchors": ["src/agent/NamedPipe.cc: service, OutputWorker, InputWorker, serviceIo, write, read, bytesToSend, closePipe"]}
{"id": "C25", "title": "Auto-shutdown does not lose output", "statement": "With the auto-shutdown spawn flag, after the child exits the agent does a final scrape, stops polling, and closes each output pipe only after a client has connected and every byte queued for it has been sent; with exit-after-shutdown it exits only after all output pipes are closed; without the flag it never closes the output pipes on its own. No order of polls, pipe events, resizes and cursor queries makes the agent fail an assertion.", "quantifier": "all timings of child exit, client connection and pipe drain", "why_tests_cant": "timing races between exit, connection and drain", "anchors": ["src/agent/Agent.cc: onPollTimeout, autoClosePipesForShutdown", "src/agent/NamedPipe.cc"]}
{"id": "C26", "title": "A failed RPC poisons the connection, and only then", "statement": "If a winpty_t RPC fails for any reason other than the agent reporting that process creation failed, then every later RPC on that object fails immediately without sending anything; if it succeeds or reports process-creation failure the connection stays usable, and the request/reply streams stay in step: the reply a call consumes is always the reply to its own request. A call that fails because an I/O operation failed reports the reason (agent died, agent timed out, connection lost, or unspecified); a call that meets no failure succeeds.", "quantifier": "all sequences of RPC calls, all failure points (timeout, broken pipe, agent death, malformed reply)", "why_tests_cant": "failure points are timing dependent and the claim is about all later calls", "anchors": ["src/libwinpty/winpty.cc: RpcOperation, writePacket, readPacket, winpty_spawn, winpty_set_size"]}
{"id": "C27", "title": "winpty_spawn output parameters", "statement": "winpty_spawn initialises all output parameters to zero; on success exactly the requested handles are duplicated from the agent and returned; on failure no handle is returned, an error object is set if requested, and *create_process_error is non-zero only when the agent's CreateProcess failed, in which case the error code is SPAWN_CREATE_PROCESS_FAILED.", "quantifier": "all replies and all failure points, all subsets of NULL out-parameters", "why_tests_cant": "failure-point enumeration", "anchors": ["src/libwinpty/winpty.cc: winpty_spawn, stealHandle, handleFromInt64", "src/include/winpty.h"]}
{"id": "C28", "title": "Error objects have a code and message and can be freed exactly once, always", "statement": "Every API call that fails stores an error object with a non-success code and a message; every call that succeeds stores NULL; freeing any returned error object (including the statically allocated ones, and NULL) once is safe and releases exactly what it holds; every exception kind maps to the documented error code. This holds whatever allocation fails while the error object is built, provided the temporary strings of the trace message can be allocated.", "quantifier": "all exceptions, including allocation failure while building the error object itself", "why_tests_cant": "allocation failure at every allocation point", "anchors": ["src/libwinpty/winpty.cc: winpty_error_code, winpty_error_msg, winpty_error_free, translateException, allocError"]}
{"id": "C29", "title": "Environment blocks are copied exactly", "statement": "For every well-formed environment block (any number of non-empty NUL-terminated strings followed by a NUL, including the empty block), the block reaching CreateProcess in the agent is identical, terminator included (the empty block gets the second NUL that CreateProcess requires), a null block stays null, and no character past the block's terminator is read.", "quantifier": "all environment blocks", "why_tests_cant": "reading past the end is invisible to tests; infinite domain", "anchors": ["src/libwinpty/winpty.cc: wstringFromEnvBlock, winpty_spawn_config_new", "src/agent/Agent.cc: handleStartProcessPacket"]}
{"id": "C30", "title": "Command-line quoting round trips", "statement": "For every argument vector passed to the console adapter (program path without quotes, arguments with any characters, including empty arguments, spaces, tabs, quotes and runs of backslashes), splitting the generated Windows command line with the documented Windows rules yields exactly the same arguments.", "quantifier": "all argument vectors of any length, all strings", "why_tests_cant": "quoting bugs hide in combinations of backslashes and quotes of unbounded length", "anchors": ["src/unix-adapter/main.cc: argvToCommandLine"]}
{"id": "C31", "title": "The adapter writes all output despite partial writes and interrupts", "statement": "For every pattern of partial writes and interrupted calls, the adapter either writes exactly the whole buffer, in order, or stops at the first real error having written a prefix; it never repeats or skips a byte; a copying thread reports a failed write only if a write failed.", "quantifier": "all OS result sequences", "why_tests_cant": "partial-write patterns are unbounded", "anchors": ["src/unix-adapter/Util.cc: writeAll", "src/unix-adapter/OutputHandler.cc", "src/unix-adapter/InputHandler.cc"]}
{"id": "C32", "title": "Console process list", "statement": "winpty_get_console_process_list returns the number of processes attached to the console and stores that many ids when the caller's buffer is large enough; when it is not, it stores nothing and fails (and, since the reply is then treated as malformed, the connection is closed: a user would expect it to stay usable). The agent's query ends however the process list changes meanwhile.", "quantifier": "all process counts and buffer sizes", "why_tests_cant": "process counts vary at run time; the too-small case is a retry path tests rarely reach", "anchors": ["src/libwinpty/winpty.cc: winpty_get_console_process_list", "src/agent/Agent.cc: handleGetConsoleProcessListPacket"]}
{"id": "C33", "title": "Window resizing is always within console limits", "statement": "Every window and buffer size the agent asks the OS for, at start and in any later history of polls and resizes, lies within the supported maximum (2500 x 2000 cells for windows) and the 16-bit range whatever 32-bit size was requested; the window fits in the buffer unless the console refused or undid an earlier buffer size the agent asked for; the cursor's line is in the requested window if it was in the old one. When nothing interferes or fails, the window ends up with exactly the requested size (capped by the maximum and by the screen), at the left edge and inside the buffer. Sizes below 1 are a caller's error that aborts before the console is touched.", "quantifier": "all 32-bit integer sizes, all prior window and cursor positions, all histories of polls and resizes, any behaviour of other programs and any failing console calls", "why_tests_cant": "32-bit sizes truncated to 16 bits", "anchors": ["src/agent/Agent.cc: resizeWindow, constructor", "src/agent/Scraper.cc: resizeWindow, resizeImpl"]}
{"id": "C34", "title": "The library refuses an impostor agent", "statement": "If the operating system can report the client of the control pipe, winpty_open succeeds only if that client is the agent process it started; on systems that cannot report it the check is skipped; a failing query is an error.", "quantifier": "all OS answers, all pids", "why_tests_cant": "adversarial scenario", "anchors": ["src/libwinpty/winpty.cc: verifyPipeClientPid"]}
{"id": "C35", "title": "Configuration validation", "statement": "winpty_config_new and winpty_spawn_config_new accept exactly the flag words made of documented bits, the setters exactly positive sizes, one of the three mouse modes and a positive timeout; anything else is an assertion failure. A configuration holds the value last set for each setting, else the default (80x25, automatic mouse mode, 30 s). Passed to winpty_open, it reaches the agent's command line and is parsed by the agent to the same values, together with the name of the control pipe; when the system does its part winpty_open succeeds and reports the pipe names the agent sent.", "quantifier": "all 64-bit flag words, all integers", "why_tests_cant": "2^64 flag words", "anchors": ["src/libwinpty/winpty.cc: winpty_config_new, winpty_config_set_initial_size, startAgentProcess, winpty_open", "src/agent/main.cc"]}
{"id": "C36", "title": "The console is never left frozen", "statement": "Whenever scraping or resizing returns (normally), the console is in the same frozen/unfrozen state as before, the agent's record of it agrees with the console, and no ESC key has been typed into a program; freezing guards restore the state they found, nested to any depth and with any code inside.", "quantifier": "all nestings of guards", "why_tests_cant": "nesting depth unbounded", "anchors": ["src/agent/Win32Console.h: FreezeGuard", "src/agent/Win32Console.cc: setFrozen"]}
{"id": "C37", "title": "Chunked console reads equal one large read", "statement": "On systems where large console reads are split, the concatenation of the split reads gives exactly the requested cells, no cell read twice or skipped, each chunk within the size limit (unless one line alone exceeds it), and the attribute mask applied to every cell exactly once.", "quantifier": "all rectangles within console limits", "why_tests_cant": "all widths and heights", "anchors": ["src/agent/LargeConsoleRead.cc: largeConsoleRead"]}
{"id": "C38", "title": "Font selection is total and sensible", "statement": "For every code page, column count and console kind the agent picks a font size from its table; if any listed size makes the window at least 160 pixels wide the picked one does, and among the equally suitable ones it is the smallest. With 80 columns or more the font is at most 8 pixels high and the window would be 160 pixels wide with half the columns. Each East Asian code page gets the font made for it, with the default font as fallback. On Windows XP the smallest listed font that the console accepts and that is at least 4 pixels wide is set. The listed fonts are those of the code page, and each has the proportions of its face.", "quantifier": "all code pages and column counts within console limits", "why_tests_cant": "infinite family of column counts", "anchors": ["src/agent/ConsoleFont.cc: selectSmallFont"]}
{"id": "C39", "title": "Debug flags are matched exactly", "statement": "A debug flag is considered set exactly when it is one of the comma-separated items of WINPTY_DEBUG; never on a partial match; a variable of 256 or more bytes is treated as unset. All threads of a process see the same flags, whatever happens to the variable meanwhile, and every query is answered after a bounded number of its own steps. Tracing is on exactly for the items 'trace' and '1'.", "quantifier": "all variable values and flag names", "why_tests_cant": "substring coincidences", "anchors": ["src/shared/DebugClient.cc: hasDebugFlag, getDebugConfig"]}
{"id": "C40", "title": "Adapter wake-ups are not lost", "statement": "After a resize signal or the completion of an I/O thread, the adapter's main loop always performs another check; in every interleaving of signals, thread completions and the main loop's reset, no notification that arrives is lost, and the main loop exits once a handler has completed. It exits only then. The adapter's input thread ends once asked to, and only then.", "quantifier": "all interleavings", "why_tests_cant": "race conditions", "anchors": ["src/unix-adapter/WakeupFd.cc: set, reset", "src/unix-adapter/main.cc: main"]}
{"id": "C41", "title": "Mouse mode is switched consistently", "statement": "The terminal's mouse reporting modes are off at first and change only when the agent switches them, to the value asked for; switching to the mode in effect sends nothing; nothing is sent in plain mode; when the output is about to be closed on shutdown mouse mode is switched off before the pipe is closed. Mouse reports are asked for exactly if the mode is forced, or it is automatic and the console program has enabled mouse input with quick-edit off and extended flags on; at start quick-edit is set in automatic mode, so they are off until the program asks.", "quantifier": "all histories of console modes, mouse modes and shutdowns", "why_tests_cant": "history-dependent", "anchors": ["src/agent/Terminal.cc: enableMouseMode", "src/agent/ConsoleInput.cc: updateInputFlags, shouldActivateTerminalMouse", "src/agent/Agent.cc: onPollTimeout"]}
{"id": "C42", "title": "Title changes are reported", "statement": "Each change of the console title observed at a poll is transmitted exactly once, and an unchanged title is not retransmitted; titles of any length are read completely.", "quantifier": "all title histories and lengths, all OS behaviours of the title query", "why_tests_cant": "title lengths unbounded; the OS query behaves differently by version", "anchors": ["src/agent/Agent.cc: syncConsoleTitle", "src/agent/Win32Console.cc: title"]}
{"id": "C43", "title": "Keys survive re-encoding for VT-input consoles", "statement": "When the console is in VT input mode, a recognised cursor, editing, function, Backspace or Tab key is re-encoded as a terminal sequence that, decoded with the built-in key table, gives the same key and modifiers back (unmodified cursor, Home and End keys are instead sent as window messages for that very key); every other recognised key delivers its character, after ESC if Alt is held. A character typed in VT input mode is delivered as its UTF-16 units, after ESC if typed with Alt. VT input mode is the console's as of the last poll.", "quantifier": "all keys and modifier states in the re-encoding tables", "why_tests_cant": "joint property of two tables with thousands of combinations", "anchors": ["src/agent/ConsoleInputReencoding.cc: reencodeEscapedKeyPress", "src/agent/ConsoleInput.cc: appendKeyPress"]}
{"id": "C44", "title": "OS handles are closed exactly once", "statement": "Across moves, releases, assignments, disposals and scope exits of handle owners, every OS handle owned is closed exactly once and never used after closing; released handles are never closed.", "quantifier": "all sequences of owner operations", "why_tests_cant": "ownership histories are unbounded", "anchors": ["src/shared/OwnedHandle.h", "src/shared/OwnedHandle.cc"]}
{"id": "C45", "title": "Concurrent API calls on one winpty_t are serialised", "statement": "Any interleaving of RPC calls by several threads on one winpty_t gives the same results as some sequential order of those calls, and request and reply bytes of different calls are never interleaved on the control pipe.", "quantifier": "all thread interleavings", "why_tests_cant": "schedules", "anchors": ["src/libwinpty/winpty.cc: winpty_spawn, winpty_set_size, LockGuard", "src/shared/Mutex.h"]}
{"id": "C46", "title": "Adapter option parsing", "statement": "The adapter treats everything after '--' or after the first non-option argument as the child's command, verbatim and in order; options before it set exactly their flags; unknown options are rejected; each test option has exactly its effect on the flags the agent is started with; '--showkey' takes precedence over a command.", "quantifier": "all argument vectors", "why_tests_cant": "infinite domain", "anchors": ["src/unix-adapter/main.cc: parseArguments"]}
{"id": "C47", "title": "Bounded string copies always terminate and never overrun", "statement": "Copying a wide string into a fixed buffer writes only inside the buffer, reads no source unit past the terminator or the buffer's size, always leaves the buffer NUL-terminated in the terminating variant, and copies the longest prefix that fits; the bounded length function returns the smaller of the bound and the text length; bounded formatting is always NUL-terminated and returns -1 exactly when the text did not fit, whatever the C library answered.", "quantifier": "all strings and buffer sizes", "why_tests_cant": "all size relations", "anchors": ["src/shared/StringUtil.h: winpty_wcsncpy, winpty_wcsncpy_nul", "src/shared/StringUtil.cc: winpty_wcsnlen", "src/shared/winpty_snprintf.h: winpty_vsnprintf"]}
{"id": "C48", "title": "Opening a session leaves nothing behind", "statement": "Whatever system call fails, winpty_open that reports an error has closed every handle, window station and desktop it created, each exactly once; when it succeeds only the session's event, control pipe and agent process remain open, and winpty_free closes them; in both cases the calling process is back on its original window station.", "quantifier": "all OS answers at every step, all configurations, with or without a background desktop made directly or by a helper agent", "why_tests_cant": "each of dozens of OS calls would have to be made to fail in every combination", "anchors": ["src/libwinpty/winpty.cc: winpty_open, createAgentSession, setupBackgroundDesktop, startAgentProcess", "src/shared/BackgroundDesktop.cc"]}
{"id": "C49", "title": "The new Windows 10 console is recognised", "statement": "At start-up on Windows 8 and later the agent concludes that it has the new Windows 10 console exactly if Mark does not move the cursor (a one-cell window is first enlarged); it leaves the console unfrozen, with no ESC typed, and freezing by Select All from then on. On earlier systems it concludes it has not and touches nothing.", "quantifier": "all console sizes, window positions and cursor positions", "why_tests_cant": "depends on the Windows version and on the initial console geometry", "anchors": ["src/agent/Agent.cc: detectNewWindows10Console", "src/agent/Win32Console.cc: setFrozen"]}
{"id": "C50", "title": "Background desktop", "statement": "On Windows 7 and later, or when the console is to be shown, winpty_open starts the agent on the default desktop and makes no desktop, window station or helper process. On earlier systems the agent is started on a background desktop: made by the calling process only if WINPTY_FLAG_ALLOW_CURPROC_DESKTOP_CREATION is given (falling back to the default desktop if that fails), otherwise by a helper agent, the caller's own window station then never being touched. The desktop is kept open until the agent has been started on it, and the programs run later are put on the caller's own desktop. The debug settings that force or suppress a background desktop override these rules.", "quantifier": "all configurations, all answers of the operating system", "why_tests_cant": "needs every Windows version and every failing call; a desktop released early is a race", "anchors": ["src/libwinpty/winpty.cc: winpty_open, setupBackgroundDesktop, shouldCreateBackgroundDesktop", "src/shared/BackgroundDesktop.cc"]}
{"id": "C51", "title": "The terminal shows the console", "statement": "A terminal that reads the agent's output shows what the programs have written to the console: each line that has left the console's window is shown in its own row, in the terminal's scrollback or screen, with the characters and colours it had when it left, blank to the right of it; what the terminal showed above the row it started in is unchanged. When the programs have been idle for one poll, the console's window is on the terminal's screen, and the terminal's cursor is where the console's is, or hidden if that is hidden or out of view. In full-screen mode, after every poll, the terminal's rows show the visible part of the console's window and the cursor is at its place in it.", "quantifier": "all programs' output that keeps within the limits of C21, all interleavings with the agent's polling, all terminals at least as large as the console's window, with any initial content, and changes of mouse reporting at any time", "why_tests_cant": "the claim composes change detection, line numbering, attribute masking and escape sequence generation over unbounded histories and all initial terminal states", "anchors": ["src/agent/Scraper.cc: scrapeBuffer, scrollingScrapeOutput, directScrapeOutput", "src/agent/Terminal.cc: sendLine, moveTerminalToLine, showTerminalCursor, reset", "src/agent/Agent.cc: scrapeBuffers"]}
{"id": "C52", "title": "Looking at the console leaves what it shows alone", "statement": "While winpty reads the console in order to transmit it, the console's contents, size, window, cursor and modes change only through the programs that use it. Exception: while output scrolls, winpty may write a marker of its own, but only over text more than 200 rows above the console's window. After a run of polls as in C21, the console therefore holds what the programs displayed last and is not left frozen. (With the new console of Windows 10 this asks that no program moves the window up between winpty's looking at it and its freezing the console: if one does, the marker can end up in the window. The poll that leaves full-screen mode, and resizing, are not covered.)", "quantifier": "all console contents and sizes, all states of the agent, all actions of programs at any of winpty's console calls, with and without a separate error output, all runs of polls", "why_tests_cant": "it concerns everything that can happen to the console at each point of an interleaving with arbitrary programs, and the position of the marker relative to a moving window", "anchors": ["src/agent/Scraper.cc: syncConsoleContentAndSize, scrollingScrapeOutput, createSyncMarker, directScrapeOutput, findSyncMarker", "src/agent/LargeConsoleRead.cc: largeConsoleRead", "src/agent/Agent.cc: scrapeBuffers"]}
{"id": "C53", "title": "winpty_open reports what went wrong first", "statement": "winpty_open fails exactly if one of its steps fails, and its error is that of the first step that failed: a missing agent executable is WINPTY_ERROR_AGENT_EXE_MISSING, a process that cannot be created WINPTY_ERROR_AGENT_CREATION_FAILED, an agent that dies or does not connect in time WINPTY_ERROR_AGENT_DIED or WINPTY_ERROR_AGENT_TIMEOUT, a lost connection while its first packet is read WINPTY_ERROR_LOST_CONNECTION, a malformed packet the bad-packet error, anything else an unspecified error. Where a helper agent makes the background desktop, its steps come first and count the same way; failing to make the desktop in the calling process is not an error. If no step fails the call succeeds.", "quantifier": "all configurations, system answers, Windows versions and debug settings", "why_tests_cant": "every combination of failing system calls, client identities and packet contents", "anchors": ["src/libwinpty/winpty.cc: winpty_open, createAgentSession, startAgentProcess, connectControlPipe, verifyPipeClientPid, setupBackgroundDesktop", "src/include/winpty_constants.h"]}
{"id": "C54", "title": "The adapter runs the first usable program of the PATH", "statement": "Given a plain program name, the adapter runs the file of the first PATH directory (an empty element is the current directory) that has a usable one, and reports an error exactly if no directory has: a batch file or a .com or .exe file of that name in any case of letters, or else the name with .exe appended, resolved through symbolic links, and executable (readable is enough for batch files under MSYS). It never runs a script. A name containing a slash or backslash means that file. The child sees the Windows form of the path, with backslashes only.", "quantifier": "all file systems, PATH values, program names and locales' lower-casing", "why_tests_cant": "unbounded PATH values, names and file systems", "anchors": ["src/unix-adapter/main.cc: findProgram, resolvePath, endsWith, convertPosixPathToWin"]}
{"id": "C55", "title": "Raw mode changes exactly the needed flags and is undone", "statement": "When the adapter makes the terminal raw it clears exactly echo, line editing, signals and extended input processing, the input translations, output post-processing, and sets eight-bit characters, on exactly the terminals of its standard input, output (and error with -Xconerr), whichever of them are the same terminal. When it leaves raw mode each of these terminals gets back exactly the mode it had before, whatever happened in between, and no other terminal changes. It refuses (status 1, nothing changed) exactly if a descriptor is not a terminal and that is not allowed. Exception (C55_failure_refuted): if setting a mode fails after another succeeded, the adapter exits without undoing the first.", "quantifier": "all terminal modes, flag values and assignments of descriptors to terminals", "why_tests_cant": "every mode and every sharing of terminals between descriptors", "anchors": ["src/unix-adapter/main.cc: setRawTerminalMode, restoreTerminalMode, debugShowKey"]}
{"id": "C56", "title": "The adapter's life: the child's status, and a terminal as it was", "statement": "A session opens the agent with the terminal's size (80x25 if unknown), starts the program before the terminal becomes raw, tells the agent every change of size once, and when an I/O thread ends frees the agent, joins the threads, closes the handles, restores the terminal and exits with the child's exit code (1 if it cannot be had). However the adapter exits, the terminal is as it was at the start. If no program was started, the status is 1 and the terminal was never touched; an agent that cannot be opened, a program that is not found or cannot be started give a message and status 1. It crashes only for the listed causes. Exceptions: a terminal that reports zero columns or rows makes it abort, leaving the terminal raw (C56_zero_size_refuted); with -Xallow-non-tty and no terminal on standard input an uninitialised size is used (C56_non_tty_refuted).", "quantifier": "all command lines, system answers, resize histories and exit codes", "why_tests_cant": "every combination of failing calls and sequence of resizes", "anchors": ["src/unix-adapter/main.cc: main", "src/libwinpty/winpty.cc: winpty_config_set_initial_size, winpty_set_size"]}
{"id": "C57", "title": "The agent's environment: debug variables in, TERM out", "statement": "The Win32 environment that the agent and the child inherit has WINPTY_DEBUG and WINPTY_SHOW_CONSOLE as in the Unix environment if they are set and not empty there, has no TERM, and is otherwise unchanged. Preparing it fails exactly if one of the two values is not text in the current locale.", "quantifier": "all environments and locales", "why_tests_cant": "all environments", "anchors": ["src/unix-adapter/main.cc: setupWin32Environment, heapMbsToWcs"]}
{"id": "C58", "title": "Only the user, administrators and the system can use a session's pipes", "statement": "The control pipe and the data pipes of a session give every right to the local system, to administrators and to the user the creating thread acts for, and no right to any other caller. The pipe of a debug server started for everyone lets others read and write but not create another end of the pipe, delete it or change its permissions. Every pipe is the only one of its name, has one client, and refuses remote clients from Windows Vista on. If any call needed to protect a pipe fails, the failure is reported and no pipe is created.", "quantifier": "all users and group memberships of the caller, all rights, all owners, all results of the Windows calls", "why_tests_cant": "a test runs as a few users on one machine and cannot make each security call fail", "anchors": ["src/shared/WindowsSecurity.cc: createPipeSecurityDescriptorOwnerFullControl, createPipeSecurityDescriptorOwnerFullControlEveryoneWrite, finishSecurityDescriptor, getOwnerSid, wellKnownSid, rejectRemoteClientsPipeFlag", "src/shared/WindowsVersion.cc: isAtLeastWindowsVista", "src/libwinpty/winpty.cc: createControlPipe", "src/agent/NamedPipe.cc: NamedPipe::openServerPipe", "src/debugserver/DebugServer.cc: main"]}
{"id": "C59", "title": "Trace messages arrive whole and disturb nothing", "statement": "With trace or 1 among the items of WINPTY_DEBUG when a process traces for the first time, every message it traces while the debug server can be reached is sent exactly once, under a heading with time, program, process and thread, cut only at 1023 bytes; otherwise nothing is ever sent. Tracing and asking for debug flags leave the calling thread's last error code unchanged. The debug server prints each message of up to 4096 bytes on its own line in order of arrival, never writes outside its buffer, and stops only if it cannot wait for clients.", "quantifier": "all messages, environments, clock readings, results of the Windows calls and sequences of clients", "why_tests_cant": "message lengths, clients and failures are unbounded", "anchors": ["src/shared/DebugClient.cc: trace, sendToDebugServer, isTracingEnabled, hasDebugFlag, getDebugConfig, PreserveLastError, unixTimeMillis", "src/debugserver/DebugServer.cc: main"]}
{"id": "C60", "title": "The agent is the program beside the library", "statement": "winpty_open starts exactly the file winpty-agent.exe in the directory of the winpty library, never one found elsewhere, with that path as its program and first argument; the caller's handles are not inherited; the agent gets a new console of its own (the desktop helper none), hidden unless WINPTY_SHOW_CONSOLE or the debug flags say otherwise, on the desktop chosen for it. If the file is missing nothing is started and the error names it; if the process cannot be created the error gives the command line and code. A library path that does not fit the buffer stops the program rather than being cut.", "quantifier": "all library paths, environments, desktops, pipe names and answers of the Windows calls", "why_tests_cant": "paths, environments and failures are unbounded", "anchors": ["src/libwinpty/AgentLocation.cc: findAgentProgram, getModuleFileName, dirname, pathExists", "src/libwinpty/winpty.cc: startAgentProcess, shouldSpecifyHideFlag, shouldShowConsoleWindow"]}
{"id": "C61", "title": "The desktop helper reports its desktop and keeps it while needed", "statement": "The helper agent that makes a background desktop sends exactly one packet, naming the desktop it made, and nothing if it could not make one. The desktop exists before the first byte goes out and is closed only after the library's end of the pipe is gone; then the helper ends with everything closed and back on its window station. While the pipe works and the library sends less than 64 KiB no assertion fails, and the report goes out whole.", "quantifier": "all results of the Windows calls, all interleavings of pipe progress, partial reads and errors", "why_tests_cant": "pipe schedules and failures are unbounded", "anchors": ["src/agent/AgentCreateDesktop.cc: handleCreateDesktop, CreateDesktopLoop", "src/agent/EventLoop.cc: run", "src/shared/BackgroundDesktop.cc"]}
{"id": "C62", "title": "The key table's memory pool uses the heap correctly", "statement": "However nodes are allocated and the pool is cleared or destroyed: every node is constructed once, inside its block, at a place not in use; nodes given out since the last clearing are distinct and stay; clearing destroys each exactly once and frees each block exactly once, leaving nothing; at most one block is partly unused; and the pool fails, by an assertion, only if malloc does.", "quantifier": "all chunk sizes above zero, all sequences of operations, all honest behaviours of malloc", "why_tests_cant": "operation sequences and allocator behaviours are unbounded", "anchors": ["src/agent/SimplePool.h: SimplePool::alloc, SimplePool::clear, SimplePool::~SimplePool"]}
{"id": "C63", "title": "The agent polls at a steady pace, serves all pipes alike and never waits with work left", "statement": "The agent scrapes the console at its polling interval (25 ms) however busy its pipes are: the periodic work never starts before the interval has passed since it last ended, it is not put off by traffic (if one pass over the pipes takes at most b ms and waits overrun by at most k ms, it is not later than interval + 2b + k), and this survives the 32-bit millisecond clock starting over after 49.7 days. Every turn goes through all pipes in order. The agent waits only when nothing can be done for any open pipe since the last handler ran (in particular all bytes written are with the system or a write is under way), and then for exactly the events that can change this. After a handler asks for the end the loop ends without another wait. No assertion fails. Exception, stated and proved: if the computer is suspended for 25 to 49 days during a wait, the loop does not poll on wake-up and asks for a wait of up to 24.8 days.", "quantifier": "every number and mode of pipes, every schedule of turns with any answers of the system, any operations of the handlers on any pipes, any durations and any start time of the clock", "why_tests_cant": "The clock wraps after 49.7 days, starvation depends on unbounded traffic, and a lost wake-up needs a particular interleaving of handlers and pipe service; a test sees a few of them.", "anchors": ["src/agent/EventLoop.cc: EventLoop::run, shutdown, setPollInterval", "src/agent/NamedPipe.cc: NamedPipe::serviceIo, getWaitEvent", "src/agent/Agent.cc: setPollInterval(25)"]}
{"id": "C64", "title": "--show-input shows every input event unambiguously and leaves the console mode as it was", "statement": "winpty-agent --show-input prints exactly one line for each key, mouse, resize, menu and focus record up to and including Ctrl-D (either Ctrl key, or the bare control character of escape-sequence input), in order, however the records are split over reads, and nothing after it. The lines tell what happened: two sessions printing the same text have seen the same events, except that of a key's state only the lower 16 bits are shown and that a record without virtual key looks like one of the key 0. Bits are shown by their names, bits without a name in hexadecimal. While it runs, processed input, line input and echo are off, window events on, mouse events (and not quick edit) as asked; at the end the original mode is back, bit by bit, except that quick edit and insert mode are switched on if the mouse was wanted and the extended flags were not in force. If the mode cannot be read or set nothing else is done. Exactly the documented options are accepted.", "quantifier": "every sequence of input records with any field values, every split into reads, every console mode and every combination of options", "why_tests_cant": "Unambiguity relates all pairs of sessions; flag words have 2^32 values, records come in any order and split; tests look at a few lines.", "anchors": ["src/agent/DebugShowInput.cc: debugShowInput, writeFlags, controlKeyStatePrefix, mouseEventToString", "src/agent/InputMap.cc: InputMap::Key::toString, getVirtualKeyString", "src/agent/main.cc: main (--show-input)"]}
{"id": "C65", "title": "--showkey shows every byte typed, unambiguously", "statement": "winpty --showkey prints, for each piece of input it reads, the bytes in caret notation (control characters as ^ and the letter 64 above, DEL as ^?, other bytes as they are) and then one line per byte with its value in decimal, octal and hexadecimal in fixed columns, up to and including the first piece that begins with Ctrl-D, and nothing after it. Two sessions that print the same text have read the same bytes in the same pieces. (A Ctrl-D that arrives in one piece behind another byte is shown but does not end the mode.)", "quantifier": "every sequence of pieces of input, of any bytes and any lengths", "why_tests_cant": "Unambiguity relates all pairs of inputs, and the text contains the raw bytes themselves, so it rests on no byte being able to imitate the columns.", "anchors": ["src/unix-adapter/main.cc: debugShowKey", "src/shared/UnixCtrlChars.h: decodeUnixCtrlChar"]}
{"id": "C66", "title": "The adapter's error messages are complete or absent and always tell the code", "statement": "When a program cannot be started, the adapter's message names the adapter and the command line and gives the reason: the system's text without trailing blanks followed by the code in hexadecimal in parentheses, or the code alone if there is no text; or, for failures other than that of creating the process, the library's message. From the message the code can be told, whatever the system's texts and the locale. A text that is converted for the terminal is shown whole or not at all, never in part, and whole whenever the locale can express it in three bytes per UTF-16 unit, which UTF-8 always does; texts converted for Windows are passed whole, and UTF-8 always fits. The same holds for the message of a failed winpty_open.", "quantifier": "every error code, system text, library message, command line and locale conversion", "why_tests_cant": "There are 2^32 codes, texts depend on the system's language and the locale, and the size of the conversion buffers rests on a bound for all texts.", "anchors": ["src/unix-adapter/main.cc: heapMbsToWcs, heapWcsToMbs, wcsToMbs, errorMessageToString, formatErrorMessage, main"]}
{"id": "C67", "title": "The Windows version is compared correctly and reported without side effects", "statement": "The tests for Vista, 7 and 8 or later compare the system's version number with the major number first, so that a later version never fails a test an earlier one passes. The version report written at start-up is silent and loads nothing unless tracing is on; with tracing it is always completed, whatever fails while file versions are looked up, and shows the version numbers, product type, architecture, and for each examined file its file and product version (if it has a valid version resource), that it is missing, or that there was an error. version.dll is loaded only by its full path in the system directory, so that a planted DLL is not picked up; every module loaded is used only while loaded and is freed once, also on failure. The dotted text of a version determines the version.", "quantifier": "every answer of the system: version numbers, system directory, which modules and functions exist, version resources, and every combination of failures", "why_tests_cant": "Tests run on one version of Windows where version.dll is present and complete; the failure paths and the other version numbers never occur.", "anchors": ["src/shared/WindowsVersion.cc: getWindowsVersion, isAtLeastWindowsVista, isAtLeastWindows7, isAtLeastWindows8, getSystemDirectory, getFixedFileInfo, versionToString, dumpWindowsVersion", "src/shared/OsModule.h: OsModule"]}
{"id": "C68", "title": "Random bytes come from the system's generator or not at all", "statement": "The random part of a pipe or object name is exactly what a successful call of the system's random generator delivered. If the generator is missing or fails there is no random part, never zeros or a partly filled buffer. The crypto context is acquired only when the faster generator is missing, used only if acquiring succeeded, and released exactly if it was acquired.", "quantifier": "every combination of present and missing functions, failing calls, buffer contents after a call, and number of bytes", "why_tests_cant": "On a real system the fast generator is always there and never fails, so that the fallback and the failures are never executed; predictability cannot be seen in samples.", "anchors": ["src/shared/GenRandom.cc: GenRandom::GenRandom, ~GenRandom, fillBuffer, randomBytes", "src/shared/OsModule.h: OsModule"]}
{"id": "C69", "title": "Making the console font small uses only functions that exist and confirmed requests", "statement": "Setting a small font never fails an assertion and never calls a font function the system lacks; kernel32 is the only module loaded and is freed as often as loaded. Where the documented functions of Vista exist they are used and the undocumented ones are not; otherwise, if complete, the older set is used; otherwise the font is left alone. With the newer functions the console is asked for exactly the selected font, by a well-formed request with the font's native name; the font counts as set only if the console itself then reports that name, and only if it does not, with an East Asian code page, it is asked for Lucida Console; nothing else is requested. With the older functions only fonts the console lists and that are at least four pixels wide are tried. Tracing does not change which fonts are asked for or tried; without it nothing is called but one call that sets each font and at most one that checks it.", "quantifier": "every set of functions present, every answer of the console to every request, every table of fonts, code page, version, number of columns from 1 to 49 million, with and without tracing", "why_tests_cant": "A test system has one set of functions and one set of installed fonts; a missing function or a console that ignores a request is never seen.", "anchors": ["src/agent/ConsoleFont.cc: XPFontAPI, UndocumentedXPFontAPI, VistaFontAPI, setFontVista, setSmallFontVista, setSmallFontXP, setSmallFont, dumpFontTable", "src/shared/OsModule.h: OsModule"]}
{"id": "C70", "title": "A failed internal check always ends the process", "statement": "An internal check that holds has no effect. One that fails is first reported by a trace line that tells the condition, the file and the line, and the process never continues behind it, in release builds as well. The agent ends without printing anything on its console (which may be frozen), asks the console window to close exactly if there is one before it waits, waits at most 30 seconds, and otherwise exits with a failure code after saying why; its normal end takes the same way. Elsewhere the process is aborted, which can wait only for a frozen console.", "quantifier": "all outcomes of the check, all files, lines and conditions, all consoles (with or without window, frozen or not, reacting to the close message or not), both kinds of build", "why_tests_cant": "A failing check ends the test process itself, and the states that make one fail are exactly those nobody foresaw.", "anchors": ["src/shared/WinptyAssert.h: ASSERT", "src/shared/WinptyAssert.cc: assertTrace, agentShutdown, agentAssertFail", "src/agent/Agent.cc: Agent::~Agent"]}
{"id": "C71", "title": "What a pipe's access control allocates is freed, and not too early", "statement": "Creating a pipe opens a security token and allocates SIDs, a buffer, an ACL and a descriptor. Whichever of the system calls fails, whatever was acquired is freed exactly once, by the function that belongs to it, and never used before it is acquired or after it is freed; the ACL outlives the descriptor that points to it and the pipe is created with both alive. The conversions between SIDs or descriptors and text leave nothing behind but the object the caller is given.", "quantifier": "all answers of the system calls (each may fail), both kinds of descriptors, the library, the agent and the debug server; a failed assertion ends the process, where only use after free is excluded", "why_tests_cant": "The calls fail on no ordinary system, and a leak or a use after free in such a path shows no symptom in a test.", "anchors": ["src/shared/WindowsSecurity.cc: localItem, allocatedSid, openSecurityTokenForQuery, getOwnerSid, wellKnownSid, finishSecurityDescriptor, createPipeSecurityDescriptorOwnerFullControl, createPipeSecurityDescriptorOwnerFullControlEveryoneWrite, sidToString, stringToSid, stringToSd, sdToString", "src/shared/WindowsSecurity.h: SecurityItem", "src/libwinpty/winpty.cc: createControlPipe", "src/agent/NamedPipe.cc: NamedPipe::openServerPipe", "src/debugserver/DebugServer.cc: main"]}
