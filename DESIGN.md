# A Rocq model of winpty: design

Source: rprichard/winpty, read as text from /repo (never built or run).
Tool: Coq 8.16.1, files in rocq/theories, logical name `Verif`.

## 1. Layout

Each component has up to four files:

* `X.v` - the model: total, computable Gallina, no proofs. Every definition cites the source lines it models.
* `XSpec.v` (or a section at the top of the properties file) - a small specification independent of the model.
* `XProofs.v` - lemmas.
* `XProps.v` - only property theorems, each closed by `exact`, a non-vacuity `Example`, and `Print Assumptions`.

Numbers are `Z`. Bytes are `Z` in [0,256), UTF-16 units `Z` in [0,65536). Where the C++ type matters the wrap is
written explicitly (`wrapu`, `wraps`). Undefined behaviour, failed ASSERTs, thrown exceptions and
fuel exhaustion are distinct result constructors. OS calls are explicit inputs (oracles): the model quantifies
over everything the OS may answer.

## 2. Plan per property

| id | what is modelled | how it is proved |
|----|------------------|------------------|
| C01 | Buffer.cc writer/reader, message layouts of winpty.cc/Agent.cc | round trip by induction over value lists |
| C02 | ReadBuffer with memory reads as checked accesses (UB outcome) | decoder never yields UB; each accepted field is a slice of the message |
| C03 | pollControlPipe over an input queue, arrivals in chunks | refinement: executed packets are a prefix of the sent list; equal when all arrived |
| C04 | UnicodeEncoding.h | arithmetic case analysis; both directions |
| C05 | gdecOfInt, ghexOfInt on a fixed buffer with checked stores | numeral value lemma and bound lemma |
| C06 | uniqueName | injectivity of the decimal-dash format |
| C07 | InputMap trie with tiny/branch nodes | refinement to a finite map of sequences |
| C08 | DefaultInputMap tables and expansion | whole-table sweep (finite domain) by vm_compute, lifted with forallb_forall |
| C09, C10 | ConsoleInput scanInput/doWrite | prefix-monotonicity of the scanner, then induction over chunks |
| C11, C12 | appendUtf8Char/appendKeyPress | induction over text; case analysis over modifier bits |
| C13, C14 | mouse and DSR matchers with integer overflow behaviour explicit | invariants |
| C15 | ConsoleLine with its grow-only vector | invariant: stored data = last line padded |
| C16-C19 | Terminal.cc output, independent terminal emulator spec | simulation between agent state and emulated screen; for drawing past the cursor, the output is split at the point where the cursor goes off (TerminalHideProofs) |
| C20 | Scraper on a console whose other programs act arbitrarily between any two calls | state invariant over all histories |
| C21 | the same, with programs that write, scroll and move the window down | simulation with ghost line numbers: the marker's row determines how far the buffer has scrolled |
| C22 | the same, full-screen mode | per-line invariant (C15) lifted to the window |
| C23 | Coord/SmallRect with 16-bit truncation | set-of-cells semantics |
| C24, C25 | NamedPipe workers and Agent shutdown logic against an OS that completes arbitrarily | invariants over all event sequences |
| C26-C28, C32, C45 | libwinpty RPC state machine, error objects, lock | invariants over all call sequences and schedules |
| C29 | wstringFromEnvBlock with checked reads | induction |
| C30 | argvToCommandLine; independent CommandLineToArgvW spec | induction over arguments with backslash-count invariant |
| C31 | writeAll and handlers over an oracle list | induction |
| C33 | resize arithmetic | lia |
| C34, C35, C46 | decision logic, flags, agent command line and parsing | case analysis; decimal parse/print round trip |
| C36 | FreezeGuard | induction over a nesting tree |
| C37 | largeConsoleRead | induction over chunks |
| C38 | selectSmallFont | fold invariant |
| C39 | hasDebugFlag as substring search | equivalence with comma splitting |
| C40 | WakeupFd and main loop as a transition system | invariant over interleavings |
| C41, C42 | mouse mode, titles | invariants over histories |
| C43 | reencodeEscapedKeyPress with the default table | finite sweep |
| C44 | OwnedHandle | invariant over operation sequences |
| C47 | winpty_wcsncpy etc. | induction |
| C48 | winpty_open with every OS answer an input | invariant: handles, processes, blocks at every exit |
| C49 | detection of the new console (Agent.cc:71-118) on the console of Console.v | case analysis on the console kind |
| C50 | BackgroundDesktop and its use by winpty_open/spawn | case analysis over OS answers |
| C51 | C21's and C22's runs composed with C16's terminal | the lines a poll asks for stay within the terminal's height; induction over the operations; trailing blanks compared by colour |
| C52 | every console call of a poll, with the programs' steps between them; C21's runs | each call only reads, freezes or writes rows far above the window (step relation closed under composition); stale window position as refuted case |
| C53 | winpty_open with every system answer an input (Open) | a list of steps with the error each would give (OpenSpec.open_steps); the first failing one decides, by cases on the answers |
| C54 | findProgram with the file system an input (AdapterMain) | PATH elements and usable files specified apart (AdapterMainSpec); induction on the rest of the PATH |
| C55 | termios, isatty/tcgetattr/tcsetattr over terminals that descriptors may share | effect of the loops as a fold; flags compared bit by bit |
| C56 | main from argument parsing to exit, every system answer an input, actions logged | outcome of each part, then composition; the whole log of a complete session |
| C57 | setupWin32Environment on environments as functions | cases |
| C58 | security descriptors, the access lists SetEntriesInAcl makes of them and the requests for pipes; a separate access check | the last entry of each trustee decides; cases on the failing call |
| C59 | trace() with the last-error value and the static variables; the debug server's loop with its buffer | invariant of the decided state; induction on calls and clients |
| C60 | findAgentProgram with its fixed buffer, and the arguments of CreateProcessW | the last separator by induction; cases on the answers; agreement with C34/C35's model of the step |
| C61 | the helper's event loop over NamedPipe's model, with a log of desktop and pipe events | pipe invariant carried through the loop; shape of the log |
| C62 | SimplePool's chunks with a log of heap events; a separate checker of heap rules | exact correspondence of chunks and blocks; induction on operations |
| C63 | EventLoop::run over any number of NamedPipe's pipes, true time with GetTickCount as its low 32 bits, handlers as arbitrary pipe operations | shape of one turn's log; invariants carried along the log; a witness for the suspended computer |
| C64 | DebugShowInput.cc, Key::toString with the table of key names, the options in main.cc; records and reads as inputs | the lines as words without separators in them, hence splitting is unique; reading words back; bits by testbit; a witness for virtual key 0 |
| C65 | debugShowKey's loop, decodeUnixCtrlChar and printf's three formats; what each read returns as input | all 256 bytes by computation; splitting at tab and newline, which neither the raw text nor the columns contain; a witness for Ctrl-D inside a piece |
| C66 | heapMbsToWcs, heapWcsToMbs, errorMessageToString, formatErrorMessage and the messages of main; the locale's conversion and FormatMessageW as functions | length of UTF-8 against UTF-16 by induction over code points; the last word of a message is unique; %#x by induction over digits |
| C67 | getWindowsVersion and the three tests, getFixedFileInfo with version.dll, versionToString, dumpWindowsVersion; all answers of the system as inputs; loading, calls in and freeing of modules as events | the comparison against a lexicographic order; each failure branch leaves a balanced list of events; the report against an independent description by cases; splitting at the points |
| C68 | GenRandom's constructor, destructor, fillBuffer and randomBytes; which functions exist and what each call does as inputs | by cases; the events run through a small automaton for the context's life |
| C69 | setFontVista, setSmallFont, the validity of the API classes, the dumps as calls; what functions exist and what the console answers as inputs | calls between a load and its free compose; each piece calls only what its validity test checked; wcsncmp by induction over the name; C38's lemmas for the selection |
| C70 | ASSERT in both forms, agentShutdown, Agent::~Agent as effects and the fate of the process; the console and the build as inputs | case analysis; the number by the lemma of C05 |
| C71 | the allocations of WindowsSecurity.cc as a trace of acquire, use and free with C++ scopes and unwinding; C58's answers of the system | every path through the calls; traces of well-treated objects compose; agreement of the endings with C58's model |

## 3. Trusted base

* Coq 8.16.1's kernel, including its `vm_compute` machine. `coqchk` rechecks every file without that machine.
* `Print Assumptions` stands below every property theorem. For each of them it prints
  "Closed under the global context": no axiom is used, of the standard library or of our own.
  (`coqchk -o` lists seven constants `Coq.ssr.ssrunder.Under_rel.*`. They belong to a module type of the
  standard library that is loaded by `lia`'s dependencies. No theorem here uses them.)
* The reading of /repo into the model. There is no extraction and no execution of the C++ code. Each
  definition cites its lines so that the two can be compared.
* The descriptions of what is outside winpty: Windows calls, the console, POSIX calls, the terminal, the C++
  standard library. Wherever possible these are arbitrary inputs; section 5 lists what is assumed of them.
* The specification files and the definitions at the top of the `XProps.v` files, which say what the English means.

## 4. What is modelled

| files in /repo/src | model | properties |
|---|---|---|
| shared/Buffer.{h,cc}, AgentMsg.h | Buffer | C01, C02 |
| agent/NamedPipe.{h,cc}, EventLoop.cc (service loop) | NamedPipe | C24 |
| agent/Agent.cc pollControlPipe, EventLoop.cc | Framing | C03 |
| agent/UnicodeEncoding.h | Unicode | C04 |
| shared/StringBuilder.h, StringUtil.{h,cc}, winpty_snprintf.h, GenRandom.cc (uniqueName) | Strings | C05, C06, C47 |
| unix-adapter/main.cc (argvToCommandLine, parseArguments) | CmdLine | C30, C46 |
| unix-adapter/Util.cc, InputHandler.cc, OutputHandler.cc, WakeupFd.cc, main.cc (main loop, signal handler) | Adapter | C31, C40 |
| unix-adapter/main.cc (findProgram, terminal modes, environment, main) | AdapterMain | C54-C57 |
| libwinpty/winpty.cc (spawn configuration), Agent.cc handleStartProcessPacket | Spawn | C29, C27 |
| libwinpty/winpty.cc (RPC calls: spawn, set_size, process list, lock) | Rpc | C26, C27, C32, C45 |
| libwinpty/winpty.cc (errors), LibWinptyException.h, WinptyException.cc | ErrorObj | C28 |
| libwinpty/winpty.cc (config, winpty_open), BackgroundDesktop.cc, agent/main.cc, Agent constructor, AgentCreateDesktop.cc (protocol) | Open | C34, C35, C48, C50, C53 |
| agent/InputMap.{h,cc} | InputMap | C07 |
| agent/DefaultInputMap.cc | DefaultInputMap | C08 |
| agent/ConsoleInput.{h,cc}, ConsoleInputReencoding.cc | ConsoleInput | C09-C14, C41, C43 |
| agent/ConsoleLine.{h,cc} | ConsoleLine | C15 |
| agent/Terminal.{h,cc} | Terminal | C16-C19, C41 |
| agent/SmallRect.h, Coord.h | SmallRect | C23 |
| shared/OwnedHandle.{h,cc} | Handles | C44 |
| Agent.cc (onPollTimeout, shutdown, titles, DSR), EventLoop.cc shutdown, Win32Console::title | AgentLoop | C17, C25, C41, C42 |
| shared/DebugClient.cc (flags) | DebugFlag | C39 |
| libwinpty/AgentLocation.cc, winpty.cc (startAgentProcess) | Location | C60 |
| agent/AgentCreateDesktop.cc, EventLoop.cc (one pipe, no polling) | Helper | C61 |
| agent/SimplePool.h | Pool | C62 |
| agent/EventLoop.cc (run, with polling and several pipes), NamedPipe::getWaitEvent | Loop | C63 |
| agent/DebugShowInput.cc, InputMap.cc (Key::toString), main.cc (--show-input) | ShowInput | C64 |
| unix-adapter/main.cc (debugShowKey), shared/UnixCtrlChars.h | ShowKey | C65 |
| unix-adapter/main.cc (conversions, error messages) | Messages | C66 |
| shared/WindowsVersion.cc, shared/OsModule.h | WinVersion | C67 |
| shared/GenRandom.cc (source of the bytes) | WinVersion | C68 |
| agent/ConsoleFont.cc (system calls) | FontApi | C69 |
| shared/WinptyAssert.h, WinptyAssert.cc, Agent::~Agent | Assertion | C70 |
| shared/WindowsSecurity.cc, .h (life times, conversions), its callers | SecLife | C71 |
| shared/DebugClient.cc (trace), debugserver/DebugServer.cc | Trace | C59 |
| shared/WindowsSecurity.cc, WindowsVersion.cc (isAtLeastWindowsVista), the calls of CreateNamedPipeW | Security | C58 |
| agent/ConsoleFont.cc (tables and selection) | ConsoleFont | C38 |
| agent/Win32Console.{h,cc}, Win32ConsoleBuffer.{h,cc} | Console | C36 |
| agent/LargeConsoleRead.{h,cc} | LargeRead | C37 |
| agent/Scraper.{h,cc} | Scraper | C20-C22, C51, C52 |
| Agent.cc (console setup, resizeWindow, scrapeBuffers) | AgentConsole, Freeze | C20, C33, C36, C49 |

Not modelled: getObjectSecurityDescriptor in WindowsSecurity.cc (used by tests only), the texts of the font dumps in
ConsoleFont.cc, TimeMeasurement.h, and everything in /repo/misc.

The main simplifications, each repeated at the definition it concerns:

* Memory allocation succeeds, except where its failure is the subject (C02 string sizes, C28).
* 64-bit line counters do not overflow. Where `int` arithmetic could overflow the model has an undefined
  outcome or an invariant that bounds the values.
* Console calls of the scraper that only query (GetConsoleScreenBufferInfo, ReadConsoleOutput on a valid
  rectangle) succeed; calls that change the console may fail (`w_fail`).
* Concurrency: an arbitrary interleaving of the steps between system calls. Other programs act on the console
  between any two calls of the agent, unless it is frozen.

## 5. What is assumed about the environment

* A console in selection mode blocks other programs' console calls; Mark/Select All and ESC take effect (C36).
* The read-console call returns the cells of the buffer (C37), on old systems only while frozen for split reads.
* A named pipe delivers the bytes written in order; overlapped calls complete, stay pending or fail arbitrarily (C24).
* CommandLineToArgvW follows one of its three published rules for doubled quotes (C30, C35).
* SetEntriesInAcl and the access check work as documented; the generic rights of a pipe are those of a file (C58).
* POSIX read/write/poll may return any result POSIX permits (C31, C40).
* The terminal is the emulator of TerminalSpec.v, given there independently of the agent (C16-C19, C22).
* C21: programs do not imitate the sync marker, do not move the window up and do not write above it.

## 6. Findings

Theorems with the suffix `_refuted` show, with a concrete witness, that the code does not do what one would
expect. The corresponding property statements exclude exactly these cases.

| theorem | finding |
|---|---|
| C02_oversize_string_refuted | a huge string length is an allocation failure, which the agent does not catch, not a decode error |
| C03_request_before_disconnect_refuted | a request received together with a pipe error is dropped |
| C13_wrap_refuted | mouse columns beyond 32768 wrap around |
| C14_f3_refuted, C14_escape_refuted, C14_lead_refuted | keys and cursor-position replies can be taken for each other |
| C16_control_refuted, C16_surrogate_refuted | control characters and halves of surrogate pairs make the terminal differ from the console |
| C19_reset_refuted | a reset while the cursor is hidden leaves it hidden for ever |
| C20_marker_refuted, C20_window_refuted, C20_stale_refuted | three circumstances around a resize in which the agent fails an assertion or reads out of range |
| C21_first_scroll_refuted | before the first sync marker exists scrolling is not noticed and lines are numbered wrongly |
| C28_trace_allocation_refuted | an allocation failure in the trace call lets std::bad_alloc leave the C API |
| C32_small_array_refuted | a too small array in the process-list call poisons the session |
| C33_fit_refuted | if the console refuses a buffer size, the agent asks for a window that does not fit |
| C40_resize_before_registration_refuted | a resize before the signal handler is installed is not noticed |
| C42_injection_refuted | a title with BEL or ESC injects escape sequences into the terminal |
| C55_failure_refuted | if setting one terminal's mode fails after another was made raw, the adapter exits leaving it raw |
| C56_zero_size_refuted | a terminal that reports zero columns or rows makes the adapter abort and leaves it raw |
| C56_non_tty_refuted | with -Xallow-non-tty and no terminal on standard input an uninitialised size is used |
| C43_ctrl_keypad_refuted | Ctrl with a keypad operator delivers nothing in VT input mode |
| C52_window_up_refuted | if programs move the window up while it is scraped, the sync marker can overwrite displayed text |
| C63_long_sleep_refuted | after the computer was suspended for 25 to 49 days the agent may not look at the console for up to 24 days |
| C64_vk_zero_refuted | --show-input shows a record without a virtual key (as --escape-input produces) like one of the key 0 |
| C65_ctrl_d_refuted | --showkey does not end at a Ctrl-D that is read together with an earlier byte |

## 7. Tests of the theorems against wrong programs

seeded/LOG.jsonl records edits of the model in a scratch copy, each the way a realistic bug would change the
program. For each edit a Coq proof of the negation of the affected theorem's statement was checked in the
edited copy, so the claim is really false there, and the files whose proofs then fail were recorded. Where a
theorem survived although its English claim was false, it was tightened or a theorem was added ("tightened").
