# Formal model of chzyer/readline in Rocq (Coq 8.16.1)

## 1. How the development is organised

`rocq/theories/` (logical name `Verif`). One area = up to four files:

* `XModel.v`  - Gallina transcription of the Go functions, one definition per function, each with a
  comment citing file and lines in /repo and naming any simplification. No proofs.
* `XSpec.v`   - small independent specification (what the property talks about), no reference to model helpers
  beyond the data types.
* `XProofs.v` - lemmas.
* `XProps.v`  - only the property theorems (each closed by `exact lemma`), a non-vacuity `Example` beside each one
  and `Print Assumptions`.

Outcomes: Go panics are modelled by `Panic`, divergence by `Hang` (fuel exhausted, with a separate theorem that no
fuel suffices). Runes are `Z` (int32 values, negative for the Meta keys). Line positions are `nat`; positions that can
go negative in the code (`candidateChoise`, offsets) are `Z`. No 63-bit overflow is modelled except in the remote
frame header (int32) and the window width (uint16).

## 2. Areas

| properties | model | proof technique |
|----|-------|-------|
| C01-C04 | `RunesModel` (runes.go, text helpers of utils.go) | induction on lists; rightmost/leftmost stated with an independent `occurs_at` |
| C05 | `Utf8Model`: Go's encode/decode tables | case analysis on ranges by lia, induction on the string |
| C06-C16 | `RuneBufModel` (runebuf.go), list level, with Panic | per-operation functional specs; invariant by induction over an operation list |
| C17-C21, C26, C65, C66 | `HistoryModel` (history.go): element store, order list, `current` pointer that may dangle | invariant by induction over operation list; refinement to a plain list of recorded lines |
| C22-C25 | `HistFileModel`: file = byte list, load/append/rewrite, crash points = prefixes of the syscall trace | round trip through C05; all prefixes; refutations by vm_compute |
| C27-C30, C37-C41, C74, C75, C93, C94, C95, C96, C97, C98 | `OpModel` (operation.go, search.go, complete.go, vim.go): one iteration of ioloop as a function | invariants over key sequences; refutations by vm_compute |
| C31-C33 | `CompleterModel`: rose tree of prefix completers, segments | induction on the tree, independent spec by splitting into words |
| C35, C36, C67 | `TerminalModel`: decoder state machine | induction over input |
| C41-C43, C76, C77, C79 | `SessionModel`: terminal, editor, caller and closer as a transition system over their channels | inductive invariant over all schedules (a "token" that is in exactly one place), well-founded measure for termination, progress at rest; witness schedules run by a verified executor |
| C44-C46, C80-C82, C90 | `LifeModel`: configuration objects, history objects and files of an instance; SetConfig, password mode, SetHistoryPath, composed with the editor of `OpModel` | invariant over all call sequences (`reach_wf`); two-run comparison of password entries |
| C47-C51, C64, C73 | `RenderModel` + `ScreenModel` (xterm-like screen with deferred wrap) | arithmetic on linear positions, induction over edit sequences |
| C52, C53, C55, C68, C69 | `RemoteModel` codec, handshake, server reaction | round trip by byte arithmetic, induction on message list |
| C54, C55, C83 | `RemoteConc`: read loop and Read, write loop and any number of writers, as transition systems | invariants over all schedules, measures, witness schedules |
| C56 | `StdinModel` | induction |
| C57, C84, C85 | `StdinConc`: pump, Read and Close of CancelableStdin | invariants over all schedules, measure, witness schedules |
| C58, C59, C70 | `TtyModel` (termios words, RawMode, ReadPassword) | bit arithmetic |
| C34, C60-C62, C86-C88 | `HeapModel`: slices sharing arrays; the editing operations with in-place append and copy | refinement to the list model, with a frame condition on which arrays an edit writes; refutations by vm_compute |
| C61, C74, C78 | `OpAliasModel`: the editor of `OpModel` with the array under the line and the history entry it is shared with | lock step with `OpModel` while nothing is searched for; invariant over key sequences (which entry may be written, that the entry of the line being edited is among them) |
| C63, C71, C72, C89 | `AnsiWinModel` | invariant; refutation |
| C91, C92 | `WinReaderModel` (rawreader_windows.go), composed with the UTF-8 decoder and `TerminalModel` | induction over console events |
| C58, C99 | `WinTtyModel` (term_windows.go: console modes, ReadPassword) | bit arithmetic, induction over reads |
| C78, C101 | `StdModel` (std.go package functions, Config.Clone) on `LifeModel` | invariant over keys, from a history without entries or a file |
| C102 | `DefaultModel` (ReadlineWithDefault) on `OpModel` | equality of runs: recording a line again replaces what was recorded |
| C103 | `LoopModel` (Result, CanContinue, CanBreak, ReadSlice and the loop around Line) on `OpModel` | induction over prompts |
| C104 | `CliModel` (RemoteCli: readLoop, ServeBy, copying the input) on `RemoteModel`, `TtyModel` | induction over messages and reads |
| C105 | `WidthModel` (DefaultOnWidthChanged and its one callback, NewOperation, SetConfig) | invariant over all sequences of instances, configurations, resizes |
| C106 | `PaintModel` (Painter of NewEx, SetConfig, password mode) on `RenderModel` | simulation by the list of painters |
| C107 | `TreeModel` (PrefixCompleter.Print) on `CompleterModel` | structural induction; the printed text is read back |
| C108 | `SuspendModel` (SleepToResume, WaitForResume) on `TtyModel` | induction over suspensions and ticks |
| C109 | `BgModel` (wrapWriter) on `RenderModel`, `OpModel` | composition of C51's drawing with C95, C96 |
| C110 | `OpModel` (`oc_filter` in `op_step`) | run with the filter = run without it on the runes passed on |
| C111 | `OpModel` (`oc_listen` in `after_switch`) | step with the listener = step without, then the answer; induction over the runes typed |
| C112 | `ClearModel` (Ctrl-L, ClearScreen) on `RenderModel`, `ScreenModel` | the screen in view, whatever it held, is erased and redrawn |
| C113 | `ShareModel` (history.go over names and files) on `HistoryModel` | invariant: file = book of the recorded lines, for all interleavings |
| C114 | `OffsetModel` (GetOffset, sizeChan) on `TerminalModel` | invariant over all schedules; induction over conversations |
| C115, C116 | `LockModel`: lock operations and field accesses of all methods, no values; tests are free choices; channels, atomics and user locks left out | invariant over all interleavings (who holds what, increasing rank); strong induction on the rank waited for |
| C117 | `RenderModel`, `ScreenModel` with double-width runes and tabs; one row only | induction over the sequence of redraws |
| C118 | `FillModel`: FillableStdin with its goroutine and io.Pipe (after its documentation), Read, Write and both Closes interleaved | conservation invariant over all executions; measure for termination |
| C119 | `AppendSpec`: keys mixed with the calls concerning the history, over `OpModel` | every key acts on the history through four calls (`hpath`); induction on it |
| C120–C122 | `CfgModel`: one instance, any number of configurations: Config.Init, the three SetConfig, raw mode, WriteStdin, Close | ghost record of what was read from where; invariants over all sequences of calls; counting with `Permutation` |
| C123 | `OutModel`: OpModel and RenderModel run together, key by key | C49's agreement of drawing state and screen, extended to keys; all texts in memory stay of width-one characters |
| C124 | `SeekModel`: C123's sessions with history searches | a redraw over a status is a clean from the cursor position followed by a redraw from a free screen; keys acting on the line are reduced to the same key without the search |
| C125 | `CompModel`: C124's sessions with a completer, the candidates and the choice among them | line and cursor on the screen with anything below is enough to redraw (`overlaid`); menus are C95; keys acting on the line are reduced to the same key without candidates |
| C126 | `OutModel` with a mask | two runs in lock step: a relation on lines (same shape), kept by every step (`orel`) |
| C127 | `PipeModel` (not interactive), `OutModel`, `OpModel` | no draw writes without a terminal; bells of the drawing = bells reported; `op_step` does not read the width in these modes |
| C128 | `ViewModel`: a terminal of H rows that scrolls (ESC[H, up and down stay in view), C123's sessions with Ctrl-L | output split into parts that only go up and parts that only go down; on each the view follows exactly; invariant: prompt and line are in view |
| C129 | `RaceModel`: goroutines of `SessionModel` with the drawing of `OutModel` and the flag isReading | invariant over all interleavings: the screen agrees with log and editor up to the draws still to come; executable scheduler for the refutations |
| C130 | `CompModel` on `ViewModel`: C125's sessions on a terminal of H rows | each redraw, status and table split as for C128; invariant: everything shown below the prompt is in view too |
| C131 | `OutModel`: C123's sessions with double-width characters, every text on one row | `op_step` and `key_draws` do not depend on the width tables (`step_u`, `draws_u`): which draws are made is taken from C123's proof for the tables that make every character narrow; their effect is computed with the real widths |
| C132 | `SwapModel`: SetPrompt, Refresh and Clean in C123's sessions | a redraw is an erasing followed by the redraw of the erased state (`dstep_clean`); while the prompt shown is not the one set, the invariant keeps only that erasing gives a free row (`loose`) |
| C133 | `RenderModel` (`output` with a mask), `OutModel`: C131's sessions with EnableMask | erasing does not look at the mask, so it is that of the unmasked line (`bare`, `veil_clean`); the rows shown are kept apart from those of the unmasked session (`hide`, `hide_texts`); no key prints text of the application (`key_quiet`) |
| C134 | `MixModel`: calls with different configurations (ReadPassword, SetConfig) on one drawing state | C131 and C133 with the state at the end of the call (`still`, `broad_ends`, `veil_ends`); between calls the drawing state only has an empty line on a free row (`between`), which no configuration disturbs |
| C135 | none new (`PassSpec`: prompts without completer and vim mode, any history limit) | invariants `calm` and, with searches, `poised`: the history is well formed (its current element may be removed from the list) and while searching its source exists; the search lemmas of C74 are used with a twin configuration that differs in the limit only |
| C136 | none new (`OffSpec`: a negative history limit) | the paths of the history that the proofs of C119 give for every key: without an added line they keep `blank`, and Enter, the one key that adds a line, is followed by the update that removes it again; `BoundProps`: with calls of the history functions mixed in, also for C17 |
| C137 | none new (`AppendSpec.f_run`: keys and history calls) | invariant `few` along the paths of C119: the entries are at most the lines since the reset and the one being edited, and a history with entries has a current one |
| C100 | `WinConModel` (ansi_windows.go 125-144, 213-249: moving the cursor, erasing) | arithmetic on cells |

## 3. Trusted base

* The Coq 8.16.1 kernel (with its vm). No axioms: every `Print Assumptions` in the `*Props.v` files (one after each
  theorem) prints "Closed under the global context"; no axiom of the standard library is used either.
* The reading of the Go code into Gallina, cited definition by definition, and Go semantics as transcribed (append,
  copy, integer division truncating toward zero, channels, select, container/list).
* `ScreenModel.v` as the behaviour of the terminal (deferred wrap, CR/LF/BS, CSI A/B/C/D/J/K, rune widths agreeing with
  the code's tables), with rows without end; `ViewModel.xexec` for a terminal with a given number of rows.
* The Windows console functions used by term_windows.go and ansi_windows.go (mode words, cursor position kept on a position
  outside the buffer, fills that stop at the end of the buffer, line input) as documented; see `WinTtyModel.v`, `WinConModel.v`.
* Unicode tables (`unicode.Mn/Me/Cc/Cf/Han/...`, `unicode.IsNumber`) are parameters of the definitions; theorems
  quantify over them.

## 4. What is modelled and what is not

* runes.go, complete_helper.go, complete_segment.go, history.go, search.go, complete.go, vim.go, operation.go, password.go, runebuf.go (text and drawing), terminal.go ioloop, remote.go codec and handshake, FillableStdin,
  ansi_windows.go, rawreader_windows.go (console records as events), term_windows.go, term.go/term_linux.go, RawMode: function by function.
* `SessionModel`: channels outchan/errchan/kickChan/stopChan with their capacities, one transition per channel
  operation. Readline is called by one goroutine at a time; the configuration is constant; writing to the terminal does not
  block; SleepToResume is a no-op; `Close` may run concurrently with everything.
* `LifeModel`: calls of the application run one after the other, each until the editor is idle (the schedule that differs,
  ReadPassword returning before the editor stores the line, is `exit_early`). The search history pointer after SetHistoryPath
  is in `PathModel`; the goroutines Config.Init starts are in `CfgModel`.
* Lines and buffers are lists in all models but `HeapModel`, where they are slices (array, offset, length, capacity) into a
  memory, and `append` writes in place or moves to a new array whose capacity is an arbitrary function (the growth policy).
  C60 shows that editing on slices computes what editing on lists does, whatever the growth policy.
* `OpModel` treats the line and the history as separate values. They share an array after a search (search.go:67-92,
  115-125). `OpAliasModel` adds this; `C61_without_search_partial` says the two models agree on sessions without search
  keys. The theorems about the session, the screen and the life of an instance use `OpModel`.
* `OutModel` says which redraws and bells each key at the prompt causes (vim mode included), `SeekModel` adds the status of a
  search, `CompModel` the candidates (Enter with candidates shown: the terminal goroutine is assumed to have cleared its
  reading flag before the editor looks at it, terminal.go:133-140,208-213, operation.go:503-507); Ctrl-L is added to `OutModel` by `ViewModel`, Ctrl-Z is in `SuspendModel`. `PipeModel` is `OutModel` without a terminal.
* `RaceModel` runs the goroutines together with the drawing. One redraw and one Write are one step (runebuf.go locks; a Write outside
  a Readline call is not locked, so it could also fall into the middle of a redraw); Close, search, completion, Ctrl-L, Ctrl-Z
  and UniqueEditLine are not in it.
* `SwapModel`: SetPrompt, Refresh and Clean are one step each (runebuf.go locks), between the steps of `OutModel`; they do not fall between
  the redraws of one key.
* Integer overflow is only modelled in the remote frame header (int32) and the window width (uint16).
* Signals other than a change of width (an event of `WidthModel`) and Ctrl-Z (`SuspendModel`: times of ticks), `debug` helpers, the bindings in windows_api.go
  and reading of environment are not modelled.
* A history file is the bytes in it; permissions, other processes and unsynced kernel buffers are not modelled.

## 5. Findings (statements shown false)

Every `_refuted` theorem has a concrete witness. The more surprising ones:

* Enter during reverse search on a line loaded from the file records an empty line and writes it to the file
  (`C78_search_refuted`); in vim mode a recalled line changed in command mode is returned but the old text recorded
  (`C78_vim_refuted`).
* ReadPassword can write the password to the history file (`C45_race_refuted`), leaves killed text for the next prompt
  (`C80_kill_refuted`), loads a history file again (`C44_history_refuted`), overwrites MaskRune and the prompt.
* Over a remote connection Read can miss a wake-up, report EOF although the connection is open, or report it before the
  last data (`C54_*_refuted`); after a disconnect Write, ExitRawMode (and with it Readline) wait forever.
* After io.EOF for the end of the input the next Readline hangs (`C41_again_refuted`); NUL typed on an empty line ends the
  session (`C41_nul_refuted`).
* A line returned just before Close can be missing from the history file (`C43_last_line_refuted`).
* Close hangs while a Readline is pending without input (`C76_pending_refuted`), and with a rune-dropping filter even
  when none is pending (`C76_filter_refuted`); closing an idle instance leaks the editor goroutine
  (`C79_editor_refuted`); a third Readline after Close hangs (`C77_third_call_refuted`).
* A rune-dropping filter or a NUL makes results overtake each other (`C42_filter_refuted`, `C42_nul_refuted`).
* Windows: `ESC[0;31m` and `ESC[1;31m` set white whatever the colour; two colours in one sequence are mixed (`C89_*_refuted`).
* Windows: a character outside the basic plane arrives as two replacement characters (`C91_surrogates_refuted`); AltGr with `[`
  swallows the next key (`C92_bracket_refuted`).
* The candidate menu moves the cursor when the line wraps, fills its row or has wide runes before the cursor, when a candidate is as wide as the
  screen, and at the start of a line without prompt (`C95_*_refuted`); the search status when the match or the status goes over the row's end (`C96_*_refuted`).
* An older line submitted while recording is off is shown empty afterwards (`C97_unchanged_refuted`); with DisableAutoSaveHistory a submitted
  line can be brought back at the next prompt (`C97_forgotten_refuted`) and Ctrl-P does not start at the newest line (`C97_first_up_refuted`).
* After Ctrl-Z the editor waits forever if the process was stopped for less than about 100 ms or not at all (`C108_resumes_refuted`).
* After SetHistoryPath Ctrl-R searches the history from before (`C46_search_refuted`).
* A configuration without Painter given to SetConfig makes the next redraw panic (`C106_nil_refuted`).
* The second key of a vim command goes round the input filter (`C110_vim_refuted`); a filter that drops rune 0 drops the end of the input (`C110_end_dropped`).
* A Listener's answer to the call after Enter stays on the next line (`C111_next_refuted`); it is not told of the keys of the candidate menu (`C111_menu_refuted`) and of vim's commands (`C111_vim_refuted`); a cursor beyond the line panics on the next rune (`C111_cursor_refuted`).
* Instances that share a HistoryFile: when one opens it and finds more lines than HistoryLimit, the lines the others record afterwards are lost
  (`C113_refuted`): rewriteLocked renames a new file over it, and their descriptors still refer to the old one.
* Ctrl-L after Instance.Clean clears nothing (`C112_cleaned_refuted`).
* GetOffset: a report nobody asked for shifts all later answers (`C114_stale_refuted`), two questions at once can lose one (`C114_dropped_refuted`),
  in vim mode the report is typed into the line (`C114_vim_refuted`).
* A Painter that calls `rl.Stdout()` (or anything asking for the configuration) deadlocks with SetConfig (`C115_painter_refuted`); Stdout and
  FuncGetWidth have similar limits. The line, the width, the history list, the configuration pointer and mask, vim mode, menu and
  search state are used without a common lock (`C116_exact`).
* The cursor is moved back one column per rune, so in front of tabs and wide characters it is shown too far right (`C117_tab_cursor_refuted`).
* A prompt that sets the window title (ESC ] 0 ; ... BEL) is measured too long (`C04_title_refuted`).
* Text given to WriteStdin is missed by a Readline called right after it, until a key is pressed (`C118_missed_refuted`).
* Text given to WriteStdin after SetConfig is never read (`C120_after_set_refuted`); SetConfig right after NewEx races with the reader for the input (`C120_race_refuted`).
* SetConfig while Readline is pending leaves the terminal in raw mode, even after Close (`C121_changed_refuted`).
* Every ReadPassword leaves two goroutines behind; Close leaves one (`C122_password`, `C122_close_refuted`).
* A second instance takes the width changes of the first (`C105_second_refuted`); a resize during a password prompt does not reach
  the search of the main configuration (`C105_password_refuted`).
* SetAutoComplete empties a history without a file (`C101_auto_refuted`): Config.Clone forgets it.
* Text offered with ReadlineWithDefault is lost by up and down, or by a search begun and cancelled (`C102_*_refuted`).
* ReadSlice loses the text given up with Ctrl-C (`C103_slice_refuted`). A remote client goes on reading its input after a
  disconnect (`C104_after_refuted`).
* Taking back a character of a search does not return to the entry shown before (`C98_backspace_returns_refuted`).
* Windows: an escape sequence the translator does not know swallows the text after it (`C71_after_other_sequence_refuted`).
* Windows: a password of 15 letters makes the next ReadPassword return an empty one (`C99_rest_refuted`); moving the cursor past the
  screen's edge does nothing instead of stopping at it, erasing below leaves or takes cells (`C100_*_refuted`).
* Meta-T puts the rune -5 on the line (`C93_meta_t_refuted`); vim `r` Enter puts a carriage return on it (`C94_replace_refuted`).
* Ctrl-T on one rune, first-key search without history, Ctrl-K while choosing a candidate, and some vim commands panic
  (`C74_*_refuted`).
* A line brought by search is the history entry itself: editing it changes the entry (`C61_slice_refuted`, `C61_keys_refuted`). Completing can
  overwrite the application's candidates and their neighbours (`C34_refuted`, `C86_refuted`, `C88_refuted`); Backup keeps no
  copy (`C62_refuted`).
* Tab during a search leaves complete mode on with nothing shown, Ctrl-R over candidates a search without its status
  (`C125_search_tab_refuted`, `C125_menu_search_refuted`); Enter with candidates shown can draw the prompt once more
  (`C125_enter_race_refuted`).
* At a password prompt Ctrl-R shows in clear what is typed after it (`C126_search_refuted`); Ctrl-W and the other word keys
  give away where the words of the password end (`C126_word_refuted`).
* When prompt and line take more rows than the screen has, every redraw leaves a copy of the first rows behind
  (`C128_tall_refuted`). A table of candidates that does not leave a row free, or a search with the line on all rows, does the same to short
  lines (`C130_menu_refuted`, `C130_status_refuted`).
* SetPrompt during a Readline call: if the cursor would be on another row with the new prompt, Refresh leaves rows of the old
  prompt behind (`C132_shorter_refuted`) or erases a line above (`C132_longer_refuted`); calling Clean first avoids it.
* With EnableMask the way back to the cursor is written twice (`runebuf.go:489-491` and `506-508`): the cursor moves two columns for
  each character behind it (`C133_cursor_refuted`). The branch for masks lacks the " \b" of `runebuf.go:501-503`: once the masks fill a row, the
  next key erases the row above, be it output of the application (`C133_full_row_refuted`). InterruptPrompt and EOFPrompt are masked too.
* What is erased with Ctrl-U at a password prompt is shown in clear by Ctrl-Y at the next prompt (`C134_secret_refuted`).
* Ctrl-R and then Ctrl-G or Ctrl-C as the first keys at a password prompt crash the program (`C135_first_search_refuted`): the history of a password prompt has no current line yet.
* With the cursor before a double-width character it is shown too far right, one column for each such character behind it: the
  way back is counted in runes (`C131_cursor_refuted`).
* Reading from a pipe with no output on a terminal (width -1, `utils_unix.go:31-45`), a Ctrl-R in the input, or a tab when
  the completer has several candidates, crashes the application (`C127_search_refuted`, `C127_tab_refuted`); with a width
  the search status is written although the input is not a terminal (`C127_status_refuted`).
* What is printed through Instance.Stdout right after Readline returns can leave a prompt on the screen though no call is pending, and
  further output is written behind that prompt (`C129_stray_refuted`, `C129_two_refuted`); what another goroutine prints just
  after Readline is called is written behind the prompt (`C129_early_refuted`), just after Ctrl-D into the line
  (`C129_ctrl_d_refuted`).
