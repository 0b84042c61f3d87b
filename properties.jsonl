{"id": "C01", "title": "Substring search is exact", "statement": "Backward search returns the largest position at which the needle occurs in the text and -1 iff it occurs nowhere; forward search returns the smallest such position and -1 iff it occurs nowhere in a non-empty text, both for exact and for case-folded comparison.", "quantifier": "all texts, all needles, both fold settings", "why_tests_cant": "a test samples finitely many pairs; overlap, empty and boundary positions range over all lengths", "anchors": ["runes.go:IndexAllBckEx", "runes.go:IndexAllEx", "runes.go:EqualRune"]}
{"id": "C02", "title": "Case folding is ASCII-only equivalence", "statement": "Folded comparison of two runes or rune strings holds exactly when they are equal after mapping A-Z to a-z, hence is an equivalence relation and never equates non-ASCII letters.", "quantifier": "all pairs/triples of runes and rune strings", "why_tests_cant": "the domain is all int32 pairs and all lengths", "anchors": ["runes.go:EqualRune", "runes.go:EqualFold", "runes.go:HasPrefixFold"]}
{"id": "C03", "title": "Aggregate is the longest common prefix", "statement": "For a non-empty candidate list the aggregation returns the longest common prefix of all candidates and strips exactly it from every candidate, so prefix ++ remainder gives back each original candidate.", "quantifier": "all non-empty candidate lists of any lengths", "why_tests_cant": "maximality is a statement about all other prefixes and all list shapes", "anchors": ["runes.go:Aggregate"]}
{"id": "C04", "title": "Prompt colour sequences do not count as width", "statement": "For a prompt made of visible runes and complete SGR colour sequences, the measured prompt width is the sum of the widths of the visible runes only; a prompt that ends in a bare ESC makes measuring panic.", "quantifier": "all prompts of that shape, any number and length of colour sequences", "why_tests_cant": "unbounded prompt shapes; the panic depends on the last rune only", "anchors": ["runes.go:ColorFilter", "runes.go:WidthAll", "runebuf.go:promptLen"]}
{"id": "C05", "title": "UTF-8 conversion is lossless on valid runes", "statement": "Converting a rune string to bytes and reading the bytes back yields the same runes, with every invalid rune (negative, surrogate, > 10FFFF) replaced by U+FFFD; decoding always consumes at least one byte, so decoding of any byte string terminates.", "quantifier": "all rune strings, all byte strings", "why_tests_cant": "2^21 code points times every concatenation", "anchors": ["operation.go:String", "operation.go:Slice", "history.go:Update", "history.go:historyUpdatePath"]}
{"id": "C06", "title": "Cursor stays inside the line", "statement": "After any sequence of editing operations starting from an empty line the cursor position is between 0 and the line length, provided transposition is not applied to a one-rune line; transposing a one-rune line breaks this (cursor = length + 1).", "quantifier": "all sequences of all editing operations with all arguments", "why_tests_cant": "reachability over unbounded histories", "anchors": ["runebuf.go:RuneBuffer", "runebuf.go:Transpose"]}
{"id": "C07", "title": "Cursor motion never changes the text", "statement": "Every movement command (start, end, forward, backward, word motions, find-character) leaves the text and the kill buffer unchanged and only moves the cursor.", "quantifier": "all lines, cursor positions and target characters", "why_tests_cant": "all inputs", "anchors": ["runebuf.go:MoveToLineStart", "runebuf.go:MoveForward", "runebuf.go:MoveToPrevWord", "runebuf.go:MoveToNextWord", "runebuf.go:MoveToEndWord", "runebuf.go:MoveTo"]}
{"id": "C08", "title": "Insertion happens exactly at the cursor", "statement": "Writing runes s inserts s between the text left and right of the cursor and moves the cursor behind s; nothing else changes.", "quantifier": "all lines, positions and inserted strings", "why_tests_cant": "all inputs", "anchors": ["runebuf.go:WriteRunes", "runebuf.go:WriteString", "runebuf.go:WriteRune"]}
{"id": "C09", "title": "Deletions remove exactly one rune", "statement": "Backspace removes exactly the rune left of the cursor, Delete exactly the rune right of it (and puts it in the kill buffer); at the respective edge both leave the line unchanged, and Delete reports success iff a rune was removed.", "quantifier": "all lines and positions", "why_tests_cant": "all inputs", "anchors": ["runebuf.go:Backspace", "runebuf.go:Delete"]}
{"id": "C10", "title": "Kill and yank are inverse", "statement": "Ctrl-K, Ctrl-U, Meta-D and dd/Erase remove a contiguous range containing the cursor edge and put exactly that range into the kill buffer; an immediately following yank restores the original text.", "quantifier": "all lines and positions", "why_tests_cant": "all inputs; involves the composition of two operations", "anchors": ["runebuf.go:Kill", "runebuf.go:KillFront", "runebuf.go:DeleteWord", "runebuf.go:Erase", "runebuf.go:Yank"]}
{"id": "C11", "title": "Cut previous word only touches text left of the cursor", "statement": "Ctrl-W / Meta-Backspace removes the word before the cursor, keeps the text right of the cursor and makes the removed word available to yank.", "quantifier": "all lines and positions", "why_tests_cant": "the failing case (word starts at column 0 and text right of the cursor) must be separated from all others for every line", "anchors": ["runebuf.go:BackEscapeWord"]}
{"id": "C12", "title": "Word motions land on the nearest word boundary", "statement": "Backward word motion moves to the largest word start left of the cursor (0 if none), forward word motion to the smallest word start right of the cursor (end of line if none), where a word start is an alphanumeric rune preceded by a non-alphanumeric one.", "quantifier": "all lines and positions", "why_tests_cant": "nearest is a statement about all positions in between", "anchors": ["runebuf.go:MoveToPrevWord", "runebuf.go:MoveToNextWord", "utils.go:IsWordBreak"]}
{"id": "C13", "title": "Delete word stops at the next word boundary", "statement": "Meta-D deletes from the cursor to just before the separator preceding the next word start, or to the end of the line when there is none; it keeps everything left of the cursor and everything from that boundary on.", "quantifier": "all lines and positions", "why_tests_cant": "all inputs", "anchors": ["runebuf.go:DeleteWord"]}
{"id": "C14", "title": "Transpose swaps two adjacent runes", "statement": "On a line of at least two runes Ctrl-T exchanges two adjacent runes (the ones around the cursor, or the last two at end of line) and is a permutation of the line; on shorter lines the text is unchanged.", "quantifier": "all lines and positions", "why_tests_cant": "all inputs", "anchors": ["runebuf.go:Transpose"]}
{"id": "C15", "title": "Find-character motion goes to the nearest occurrence", "statement": "vim f/F/t/T move to the nearest occurrence of the character right/left of the cursor (one short of it for t/T) and report failure, leaving the cursor, iff there is none.", "quantifier": "all lines, positions, characters, both directions", "why_tests_cant": "all inputs", "anchors": ["runebuf.go:MoveTo", "vim.go:handleVimNormalMovement"]}
{"id": "C16", "title": "Editing operations do not panic", "statement": "With the cursor inside the line no editing operation panics, except Replace with the cursor at the end of the line and end-of-word motion with the cursor on a final alphanumeric rune, which always panic.", "quantifier": "all lines, positions and operations", "why_tests_cant": "the absence of a panic must hold for every state", "anchors": ["runebuf.go:Replace", "runebuf.go:MoveToEndWord"]}
{"id": "C17", "title": "History is bounded", "statement": "After any sequence of history operations the number of stored entries never exceeds max(HistoryLimit,0)+1 (the extra one is the line being edited) for histories without loaded file.", "quantifier": "all operation sequences, all limits", "why_tests_cant": "unbounded histories", "anchors": ["history.go:Compact", "history.go:Update", "history.go:Push", "history.go:New"]}
{"id": "C18", "title": "Submitting a line records it once, in order", "statement": "Starting from an empty history, after submitting lines l1..ln at the prompt the recorded entries are exactly those lines in order, with empty lines and immediate repetitions dropped, truncated to the newest HistoryLimit ones.", "quantifier": "all lists of lines, all positive limits", "why_tests_cant": "unbounded lists", "anchors": ["history.go:New", "history.go:Update", "history.go:Push", "history.go:Compact"]}
{"id": "C19", "title": "Up then Down returns to the same entry", "statement": "Browsing k entries up and then k entries down ends at the starting entry and shows the same text; Prev fails exactly at the oldest entry and Next exactly at the newest, without changing anything.", "quantifier": "all histories, positions and k", "why_tests_cant": "all histories", "anchors": ["history.go:Prev", "history.go:Next", "history.go:showItem"]}
{"id": "C20", "title": "Browsing and editing do not alter committed entries", "statement": "Any sequence of navigation and uncommitted edits leaves the committed text of every entry unchanged; edits are visible when coming back to the entry until the next submit or abort, after which all entries show their committed text again.", "quantifier": "all histories and all sequences of Prev/Next/Update(false)/Revert", "why_tests_cant": "unbounded sequences", "anchors": ["history.go:Update", "history.go:Revert", "history.go:showItem"]}
{"id": "C21", "title": "History operations never dereference a missing entry", "statement": "No sequence of history calls (submit, update, browse, revert, reset, load, compact) with any limit panics.", "quantifier": "all call sequences, all limits including 0 and negative", "why_tests_cant": "needs an invariant over pointers that may refer to removed list elements", "anchors": ["history.go:New", "history.go:Update", "history.go:Compact", "history.go:Reset"]}
{"id": "C22", "title": "Saved history reloads unchanged", "statement": "If every recorded line is non-empty, has no newline and no leading or trailing white space, then writing the lines to the history file and loading it yields exactly the newest HistoryLimit lines in order.", "quantifier": "all lists of such lines, all limits >= 0", "why_tests_cant": "unbounded lists and all unicode text", "anchors": ["history.go:historyUpdatePath", "history.go:Update", "history.go:rewriteLocked"]}
{"id": "C23", "title": "History rewrite is crash atomic", "statement": "If the process stops at any point during compaction of the history file, the file at HistoryFile contains either the complete old contents or the complete new contents, provided the writes to the temporary file succeed; a failing write is not noticed and a truncated file replaces the history.", "quantifier": "all contents, all crash points, all write failures", "why_tests_cant": "crash points cannot be enumerated by running the code", "anchors": ["history.go:rewriteLocked"]}
{"id": "C24", "title": "An unterminated last line is not lost", "statement": "Loading a history file keeps every line; in particular a last line without newline (torn write) is loaded or at least preserved, and the next saved entry does not merge with it.", "quantifier": "all file contents", "why_tests_cant": "all torn writes", "anchors": ["history.go:historyUpdatePath", "history.go:Update"]}
{"id": "C25", "title": "Disabling history keeps the history file", "statement": "With HistoryLimit -1 the existing history file is not modified.", "quantifier": "all file contents", "why_tests_cant": "all contents", "anchors": ["history.go:historyUpdatePath", "history.go:Compact", "history.go:rewriteLocked"]}
{"id": "C26", "title": "Incremental search finds the nearest matching entry", "statement": "Reverse search from the current entry returns the first entry, going to older ones, whose shown text contains the search text (restricted to the part before the cursor in the current entry) with the rightmost position; forward search symmetrically; it fails iff no entry qualifies.", "quantifier": "all histories, search texts, positions", "why_tests_cant": "nearest and completeness quantify over all entries", "anchors": ["history.go:FindBck", "history.go:FindFwd"]}
{"id": "C27", "title": "Cancelling a search restores the line", "statement": "Ctrl-G or Ctrl-C in search mode leaves search mode and restores the entry that was current when the search started.", "quantifier": "all histories and all key sequences typed during the search", "why_tests_cant": "all histories; failing for an instance without history and after repeating Ctrl-R", "anchors": ["search.go:SearchMode", "search.go:ExitSearchMode"]}
{"id": "C28", "title": "Selected completion index stays in range", "statement": "While choosing among candidates, after any sequence of selection keys the highlighted index denotes an existing candidate, and accepting inserts exactly that candidate at the cursor.", "quantifier": "all candidate counts, column counts > 0 and key sequences", "why_tests_cant": "all sequences and all matrix shapes", "anchors": ["complete.go:HandleCompleteSelect", "complete.go:nextCandidate", "complete.go:getMatrixSize"]}
{"id": "C29", "title": "Completion never panics", "statement": "Pressing keys in completion mode never panics, for any terminal width and candidates.", "quantifier": "all widths, candidates and key sequences", "why_tests_cant": "division by zero column count and negative padding depend on widths", "anchors": ["complete.go:CompleteRefresh", "complete.go:HandleCompleteSelect", "operation.go:ioloop"]}
{"id": "C30", "title": "Tab inserts the unambiguous part", "statement": "With one candidate Tab inserts it; with several it inserts their longest common prefix if non-empty and otherwise inserts nothing and shows the candidates.", "quantifier": "all candidate lists returned by the completer", "why_tests_cant": "all candidate lists", "anchors": ["complete.go:OnComplete"]}
{"id": "C31", "title": "Prefix completer walks the command tree", "statement": "For a static tree whose sibling names are distinct, non-empty and contain no white space, completing the text before the cursor yields exactly the completions of the last word among the children of the node reached by the preceding words, and the reported length is the length of that word.", "quantifier": "all trees of any depth and width, all lines and positions", "why_tests_cant": "unbounded trees and lines", "anchors": ["complete_helper.go:doInternal"]}
{"id": "C32", "title": "Segment splitting is a partition", "statement": "Splitting the text before the cursor into segments gives segments without blanks whose join by single blanks is that text; the returned offset is the length of the last segment.", "quantifier": "all lines and positions", "why_tests_cant": "all lines", "anchors": ["complete_segment.go:SplitSegment"]}
{"id": "C33", "title": "Segment completion offers exactly matching candidates", "statement": "Each offered completion appended to the last segment is a candidate followed by one blank, in candidate order, and every candidate that extends the last segment is offered.", "quantifier": "all lines, positions and candidate lists", "why_tests_cant": "all lists", "anchors": ["complete_segment.go:RetSegment", "complete_segment.go:Do"]}
{"id": "C34", "title": "Segment completion does not modify the caller's candidates", "statement": "Completing leaves the candidate strings returned by the application unchanged.", "quantifier": "all candidate slices, including ones sharing one backing array", "why_tests_cant": "depends on slice capacity and aliasing", "anchors": ["complete_segment.go:Do"]}
{"id": "C35", "title": "Plain text passes the terminal unchanged", "statement": "Input runes other than ESC reach the editor one by one, in order and unchanged.", "quantifier": "all input without ESC", "why_tests_cant": "all inputs", "anchors": ["terminal.go:ioloop"]}
{"id": "C36", "title": "Escape sequences decode to the documented keys and nothing leaks", "statement": "ESC b/f/d/DEL map to the Meta keys, CSI and SS3 sequences with any numeric parameters map arrows/Home/End/Delete to their keys, every other complete CSI or SS3 sequence produces no key at all, and decoding resumes in the ground state directly after the sequence.", "quantifier": "all parameter strings and all surrounding input", "why_tests_cant": "unbounded parameter strings, arbitrary following input", "anchors": ["terminal.go:ioloop", "utils.go:readEscKey", "utils.go:escapeExKey", "utils.go:escapeSS3Key", "utils.go:escapeKey"]}
{"id": "C37", "title": "Reading resumes after every pause", "statement": "Whenever the terminal stops reading after Enter, Ctrl-J, Ctrl-C or Ctrl-D, the editor either delivers a result to the caller or asks the terminal to go on, so input is never stuck.", "quantifier": "all key sequences, all modes", "why_tests_cant": "a liveness property over all reachable states; fails in vim normal mode", "anchors": ["terminal.go:ioloop", "operation.go:ioloop", "vim.go:HandleVimNormal"]}
{"id": "C38", "title": "Typed lines are returned exactly and in order", "statement": "For any list of lines of ordinary runes, each followed by Enter, successive Readline calls return exactly these lines in order, and then io.EOF at end of input; unterminated trailing text is returned as a last line.", "quantifier": "all lists of lines", "why_tests_cant": "unbounded input", "anchors": ["operation.go:ioloop", "operation.go:Runes", "runebuf.go:Reset"]}
{"id": "C39", "title": "Interrupt returns the pending text", "statement": "Ctrl-C outside search and completion makes Readline return ErrInterrupt together with exactly the text typed so far, and the next Readline starts with an empty line.", "quantifier": "all pending lines, cursor positions and interrupt prompts", "why_tests_cant": "all lines", "anchors": ["operation.go:ioloop", "operation.go:Runes"]}
{"id": "C40", "title": "Ctrl-D on an empty line is EOF", "statement": "While editing (outside vim command mode, search and completion) Ctrl-D on an empty line returns io.EOF; on a non-empty line it deletes the rune under the cursor and returns nothing.", "quantifier": "all lines", "why_tests_cant": "all states", "anchors": ["operation.go:ioloop"]}
{"id": "C41", "title": "Only end of input ends the session", "statement": "Readline keeps working until the input ends; after io.EOF was reported for end of input, further Readline calls return io.EOF again.", "quantifier": "all inputs containing any rune, any number of Readline calls", "why_tests_cant": "refuted by a NUL rune and by calling Readline again after EOF", "anchors": ["operation.go:ioloop", "terminal.go:ReadRune"]}
{"id": "C42", "title": "Delivery does not depend on scheduling", "statement": "For every interleaving of the terminal goroutine, the editor goroutine and the caller, the results of successive Readline calls are a prefix of the same sequence determined by the input alone.", "quantifier": "all schedules, all inputs", "why_tests_cant": "tests run a handful of schedules", "anchors": ["terminal.go:ioloop", "operation.go:ioloop", "operation.go:Runes", "terminal.go:KickRead"]}
{"id": "C43", "title": "A line returned before Close is in the history", "statement": "Every line returned by Readline before Close is called is in the history file afterwards.", "quantifier": "all schedules", "why_tests_cant": "depends on the interleaving of the editor goroutine with Close", "anchors": ["operation.go:ioloop", "operation.go:Close", "history.go:Close"]}
{"id": "C44", "title": "Password entry leaves history and configuration alone", "statement": "After ReadPassword returns, the configuration (prompt, mask, completer, ...) and the history entries are those from before the call.", "quantifier": "all configurations and histories", "why_tests_cant": "all histories; fails with a history file", "anchors": ["password.go:EnterPasswordMode", "password.go:ExitPasswordMode", "operation.go:SetConfig", "history.go:Init"]}
{"id": "C45", "title": "Passwords are never stored in the history", "statement": "Text submitted in password mode never reaches the normal history or its file.", "quantifier": "all passwords, histories and key sequences", "why_tests_cant": "all sequences", "anchors": ["operation.go:SetConfig", "password.go:PasswordConfig"]}
{"id": "C46", "title": "Changing the history path at run time takes effect", "statement": "After SetHistoryPath(p) submitted lines are persisted to p.", "quantifier": "all paths and lines", "why_tests_cant": "state-dependent", "anchors": ["operation.go:SetHistoryPath", "history.go:newOpHistory"]}
{"id": "C47", "title": "Line splitting is a partition into screen rows", "statement": "Splitting a line by screen width concatenates back to the line; every row but the last is filled and no proper prefix of a row is; for runes of width one the number of rows is (start+length)/width+1.", "quantifier": "all lines, widths and start columns", "why_tests_cant": "all lines", "anchors": ["utils.go:SplitByLine", "utils.go:LineCount"]}
{"id": "C48", "title": "Redrawing terminates", "statement": "Redrawing the line terminates exactly if the cursor is at the end of the line, or the visible line is empty, or the screen width is positive and the prompt width is 0 or not a multiple of it.", "quantifier": "all lines, prompts, widths", "why_tests_cant": "non-termination cannot be observed by a test; the condition covers all widths", "anchors": ["runebuf.go:getBackspaceSequence"]}
{"id": "C49", "title": "The screen shows prompt and line with the cursor in place", "statement": "For single-width text, a prompt shorter than the screen and any screen width, after any sequence of edits the rows starting at the prompt show exactly prompt ++ line, nothing stale remains below, rows above are untouched, and the screen cursor is at the cell of the editing cursor.", "quantifier": "all edit sequences, lines, widths > 0", "why_tests_cant": "needs a terminal model; all wrap positions", "anchors": ["runebuf.go:Refresh", "runebuf.go:output", "runebuf.go:cleanOutput", "runebuf.go:getBackspaceSequence", "runebuf.go:idxLine"]}
{"id": "C50", "title": "Masked input reveals only its length", "statement": "With the mask enabled what is drawn depends only on the length of the line, its total display width, the cursor position and whether it ends in a newline.", "quantifier": "all pairs of lines", "why_tests_cant": "a two-run property over all pairs of secrets", "anchors": ["runebuf.go:output"]}
{"id": "C51", "title": "Background output does not damage the input line", "statement": "Writing complete lines through Instance.Stdout while a line is being edited prints them where the prompt was and redraws prompt and line below them.", "quantifier": "all lines, cursor positions, output texts", "why_tests_cant": "needs a terminal model; all wrap positions", "anchors": ["operation.go:wrapWriter", "runebuf.go:Refresh"]}
{"id": "C52", "title": "Remote messages round-trip in a stream", "statement": "Reading a concatenation of encoded messages yields exactly these messages in order and consumes exactly their bytes, for every payload shorter than 2^31-2; a truncated stream yields an error after the complete messages.", "quantifier": "all message sequences, all truncation points", "why_tests_cant": "all sequences and cut points", "anchors": ["remote.go:ReadMessage", "remote.go:WriteTo"]}
{"id": "C53", "title": "Malformed remote frames are rejected", "statement": "Reading a frame with any header returns a message or an error and never panics.", "quantifier": "all byte streams", "why_tests_cant": "panics exactly for declared lengths below 2", "anchors": ["remote.go:ReadMessage"]}
{"id": "C54", "title": "Remote server delivers all received data", "statement": "Every byte received by the server is eventually returned by Read in order; a blocked Read is woken when data or EOF arrives.", "quantifier": "all schedules of reader and network goroutine", "why_tests_cant": "lost wake-up exists only in a particular interleaving", "anchors": ["remote.go:Read", "remote.go:readLoop"]}
{"id": "C55", "title": "Remote Write honours the io.Writer contract", "statement": "Write(b) returns 0 <= n <= len(b) and returns even when the connection has been closed.", "quantifier": "all payloads, all schedules", "why_tests_cant": "hang only after the write loop has ended", "anchors": ["remote.go:Write", "remote.go:writeLoop"]}
{"id": "C56", "title": "Prefilled stdin data is delivered before stdin", "statement": "All bytes written with WriteStdin are returned by subsequent reads, in order, before bytes of the real stdin.", "quantifier": "all prefills, all read buffer sizes", "why_tests_cant": "lost bytes only when the prefill exceeds the read buffer", "anchors": ["std.go:FillableStdin.Read"]}
{"id": "C57", "title": "Cancelable stdin ends after Close and never reorders", "statement": "Every Read that starts after Close returns io.EOF; the data returned by reads before that is a prefix of the underlying stream in order.", "quantifier": "all schedules of reader, pump goroutine and closer", "why_tests_cant": "schedules", "anchors": ["std.go:CancelableStdin"]}
{"id": "C58", "title": "Raw mode is undone", "statement": "Any sequence of enter/exit pairs restores the terminal settings present before the first enter; entering changes only the documented flags.", "quantifier": "all initial settings, all balanced sequences", "why_tests_cant": "all flag words", "anchors": ["utils.go:RawMode", "term.go:MakeRaw"]}
{"id": "C59", "title": "ReadPassword(fd) returns the whole line", "statement": "Reading a password from a terminal in canonical mode returns the line without its newline whatever its length.", "quantifier": "all line lengths", "why_tests_cant": "chunk boundary at multiples of 16", "anchors": ["term.go:ReadPassword"]}
{"id": "C60", "title": "In-place slice editing equals list editing", "statement": "The editing operations implemented with in-place appends and copies on a shared backing array compute the same line as the corresponding list operations for every capacity and growth policy.", "quantifier": "all lines, capacities, growth policies, operations", "why_tests_cant": "depends on append capacity decisions of the runtime", "anchors": ["runebuf.go:RuneBuffer"]}
{"id": "C61", "title": "Editing a recalled line never changes the recorded entry", "statement": "After a history entry was brought to the line by search, editing the line leaves the recorded entry unchanged.", "quantifier": "all histories and edits", "why_tests_cant": "depends on slice aliasing", "anchors": ["search.go:search", "runebuf.go:SetWithIdx", "history.go:showItem"]}
{"id": "C62", "title": "Restore brings back the backed-up line", "statement": "Backup, any edits, then Restore gives back the text and cursor at the time of Backup.", "quantifier": "all lines and edit sequences", "why_tests_cant": "depends on slice aliasing", "anchors": ["runebuf.go:Backup", "runebuf.go:Restore"]}
{"id": "C63", "title": "Windows colour sequences never panic", "statement": "The Windows ANSI translator processes every rune sequence without panicking.", "quantifier": "all outputs", "why_tests_cant": "out of range colour index depends on parameter values", "anchors": ["ansi_windows.go:ioloopEscSeq"]}
{"id": "C64", "title": "Submitting a line found by search records that line", "statement": "After an incremental search has brought an older entry to the prompt, pressing Enter adds that line to the history (unless it repeats the last one).", "quantifier": "all histories, search texts and entries", "why_tests_cant": "which text is recorded depends on the whole session state", "anchors": ["history.go:New", "search.go:search", "operation.go:ioloop"]}
{"id": "C65", "title": "SaveHistory records its argument", "statement": "SaveHistory(content) adds content to the history, whatever entry the user was browsing when the previous line was returned.", "quantifier": "all contents, histories and browsing positions", "why_tests_cant": "depends on the browsing state left behind by the previous line", "anchors": ["operation.go:SaveHistory", "history.go:New"]}
{"id": "C66", "title": "Lines saved after ResetHistory are persisted", "statement": "After ResetHistory, lines added to the history are written to the history file like before.", "quantifier": "all histories and lines", "why_tests_cant": "depends on call order", "anchors": ["history.go:Reset", "history.go:Update"]}
{"id": "C67", "title": "Arrow and editing keys work in vim mode", "statement": "With VimMode enabled the escape sequences of the arrow, Home, End and Delete keys act like the keys they name, as they do without vim mode.", "quantifier": "all escape sequences of these keys, insert and normal mode", "why_tests_cant": "depends on the interplay of the decoder with a mode flag changed elsewhere", "anchors": ["terminal.go:ioloop", "vim.go:HandleVim", "operation.go:ioloop"]}
{"id": "C68", "title": "The remote server sees the client's terminal and input", "statement": "After connecting, the remote side knows whether the client is a terminal and its width, and receives exactly the bytes the client typed, in order, followed by EOF exactly when the client closed.", "quantifier": "all widths, inputs and ways of cutting the input into chunks", "why_tests_cant": "all chunkings and widths, including an unknown width", "anchors": ["remote.go:init", "remote.go:reportWidth", "remote.go:readLoop"]}
{"id": "C69", "title": "No client can crash the remote server", "statement": "Whatever messages a connected client sends, the server returns an error or ignores them; it does not panic.", "quantifier": "all message sequences", "why_tests_cant": "arbitrary peer input", "anchors": ["remote.go:GotIsTerminal", "remote.go:GotReportWidth", "remote.go:ReadMessage"]}
{"id": "C70", "title": "ReadPassword(fd) hides input and restores the terminal", "statement": "While ReadPassword(fd) reads, the terminal does not echo; afterwards it has the settings it had before.", "quantifier": "all initial settings and inputs", "why_tests_cant": "needs a terminal; depends on pointer aliasing of the saved settings", "anchors": ["term.go:ReadPassword"]}
{"id": "C71", "title": "Windows output shows text unchanged", "statement": "On Windows every rune outside escape sequences is written to the console unchanged.", "quantifier": "all outputs", "why_tests_cant": "depends on sticky decoder state", "anchors": ["ansi_windows.go:process"]}
{"id": "C72", "title": "Windows colour reset", "statement": "On Windows the reset sequences ESC[0m and ESC[m restore the normal colours.", "quantifier": "all decoder states", "why_tests_cant": "only on Windows consoles", "anchors": ["ansi_windows.go:ioloopEscSeq"]}
{"id": "C73", "title": "Setting the title leaves the screen text alone", "statement": "SetTitle changes no character cell of the screen.", "quantifier": "all titles", "why_tests_cant": "needs a terminal model; all titles", "anchors": ["operation.go:SetTitle"]}
{"id": "C74", "title": "No key sequence crashes the editor", "statement": "In a sane configuration (terminal wide enough for the candidates, limit >= 1) no sequence of keys makes the editor goroutine panic or loop.", "quantifier": "all key sequences, all histories, completers and vim mode", "why_tests_cant": "the state space is unbounded; the failing sequences are rare combinations of modes", "anchors": ["operation.go:ioloop", "search.go", "complete.go", "vim.go"]}
{"id": "C75", "title": "Typing never starts choosing a candidate", "statement": "While candidates are displayed, typing an ordinary rune inserts it and refreshes the candidates; it never starts choosing among them.", "quantifier": "all lines, completers and preceding keys", "why_tests_cant": "depends on the stale line remembered from an earlier Tab", "anchors": ["complete.go:OnComplete", "operation.go:ioloop"]}
{"id": "C76", "title": "Close returns", "statement": "Close returns in every schedule, whether or not a Readline is pending, so that a program can shut down.", "quantifier": "all schedules, inputs and states at the time of the call", "why_tests_cant": "depends on the interleaving of four goroutines and on input that never comes", "anchors": ["readline.go:Close", "operation.go:Close", "terminal.go:Close", "terminal.go:ioloop"]}
{"id": "C77", "title": "Close wakes a pending Readline", "statement": "A Readline that is pending when Close is called, or is called afterwards, returns.", "quantifier": "all schedules and states at the time of Close", "why_tests_cant": "depends on the interleaving and on the capacity of channels", "anchors": ["operation.go:Runes", "operation.go:Close"]}
{"id": "C78", "title": "The history holds the lines returned", "statement": "The history (and the history file, as the next session reads it) holds the lines Readline returned, in order, without empty lines and immediate repetitions, the newest ones up to the limit.", "quantifier": "all key sequences, initial histories and limits", "why_tests_cant": "any combination of browsing, searching, completing and editing precedes a submission", "anchors": ["operation.go:ioloop", "history.go:New", "history.go:Update", "search.go"]}
{"id": "C79", "title": "Close leaves no goroutine behind", "statement": "When Close has returned, the terminal and the editor goroutine of the instance end.", "quantifier": "all schedules and states at the time of Close", "why_tests_cant": "goroutine leaks are invisible to functional tests", "anchors": ["readline.go:Close", "operation.go:ioloop", "terminal.go:ioloop"]}
{"id": "C80", "title": "Password text cannot be retrieved at a later prompt", "statement": "Nothing typed at a password prompt can be brought back at a later prompt, by any keys (history, search, yank).", "quantifier": "all passwords, all later key sequences", "why_tests_cant": "an editor register shared between prompts; nobody enumerates the ways of bringing text back", "anchors": ["password.go:EnterPasswordMode", "operation.go:ioloop", "runebuf.go:Yank"]}
{"id": "C81", "title": "Password prompts use the instance's terminal functions", "statement": "During ReadPassword the functions of the configuration decide whether input is a terminal and how wide it is, as for a normal prompt.", "quantifier": "all configurations", "why_tests_cant": "needs an instance whose terminal is not the process's", "anchors": ["password.go:PasswordConfig", "readline.go:Init"]}
{"id": "C82", "title": "A typed password is returned exactly", "statement": "ReadPassword returns exactly the runes typed before Enter, whatever configuration, history or earlier password prompts the instance had.", "quantifier": "all passwords without editing keys, all earlier calls", "why_tests_cant": "unbounded inputs and call sequences", "anchors": ["password.go:ReadPassword", "operation.go:PasswordWithConfig"]}
{"id": "C83", "title": "Concurrent writes to a remote client are not mixed up", "statement": "However many goroutines write to a remote client, it receives whole messages, exactly those of the calls that returned, and each caller gets the result of its own message.", "quantifier": "all schedules of any number of writers", "why_tests_cant": "the number of interleavings is unbounded", "anchors": ["remote.go:writeLoop", "remote.go:Write", "remote.go:writeMsg"]}
{"id": "C84", "title": "Reading from CancelableStdin keeps no reference to the buffer", "statement": "Read does not write to its buffer after it has returned (io.Reader).", "quantifier": "all schedules of reader, pump and closer", "why_tests_cant": "only a particular schedule around Close shows it", "anchors": ["std.go:CancelableStdin"]}
{"id": "C85", "title": "Closing CancelableStdin loses no input", "statement": "Input that no Read returned stays in the underlying reader for whoever reads it next.", "quantifier": "all schedules and inputs", "why_tests_cant": "only visible to a later reader of the same input", "anchors": ["std.go:CancelableStdin"]}
{"id": "C86", "title": "Inserting a completion leaves the application's memory alone", "statement": "Inserting a completion candidate changes neither the candidates the application returned nor other data of the application.", "quantifier": "all candidates, capacities, lines and cursor positions", "why_tests_cant": "depends on spare capacity of the application's slices", "anchors": ["complete.go:OnComplete", "runebuf.go:WriteRunes"]}
{"id": "C87", "title": "The line given by a listener stays the application's", "statement": "A line returned by a Listener is not modified by later editing.", "quantifier": "all lines, capacities and edits", "why_tests_cant": "depends on slice aliasing", "anchors": ["operation.go:ioloop", "runebuf.go:SetWithIdx"]}
{"id": "C88", "title": "Completion does not modify the completer's list", "statement": "The list returned by AutoCompleter.Do still holds the same candidates after the completion.", "quantifier": "all candidate lists", "why_tests_cant": "only a completer that keeps its list notices", "anchors": ["complete_helper.go:Aggregate", "runes.go:Aggregate", "complete.go:OnComplete"]}
{"id": "C89", "title": "Colour sequences set the colours they name (Windows)", "statement": "On Windows, a sequence ESC[...m naming an ANSI foreground colour (30-37), a background colour (40-47), or both, sets the console attribute whose red, green and blue bits are those of the named colours, whatever was written before it; the last colour named wins and a leading reset or bold parameter does not change the colour.", "quantifier": "all colours, both orders, all writer states", "why_tests_cant": "64 combinations times unbounded preceding output; no unit test runs on Windows consoles", "anchors": ["ansi_windows.go:ColorTableFg", "ansi_windows.go:ColorTableBg", "ansi_windows.go:ioloopEscSeq"]}
{"id": "C90", "title": "Configuration fields left zero mean the documented defaults", "statement": "After NewEx or SetConfig with a new Config the editor works with exactly the options set in it; HistoryLimit 0 means 500, an empty InterruptPrompt or EOFPrompt means ^C or ^D and a single newline means none, no FuncGetWidth or FuncIsTerminal means those of the process, and without AutoComplete the Tab key types a tab.", "quantifier": "all configurations, all reachable instances", "why_tests_cant": "every combination of options, and SetConfig in every state", "anchors": ["readline.go:Init", "readline.go:useInteractive", "operation.go:SetConfig", "complete.go:TabCompleter"]}
{"id": "C91", "title": "Keys typed in a Windows console reach the editor", "statement": "Whatever console events come in between, the editor gets exactly the characters and arrow keys pressed, in order.", "quantifier": "all event sequences, all characters", "why_tests_cant": "no unit test runs on a Windows console; unbounded sequences of records", "anchors": ["rawreader_windows.go:Read", "terminal.go:ioloop"]}
{"id": "C92", "title": "Alt and Ctrl combinations in a Windows console", "statement": "Alt with b, f, d, t or Backspace is the Meta key of that name and Ctrl with a letter the control character; what is typed before and after is not affected.", "quantifier": "all keys, all event sequences before and after", "why_tests_cant": "modifier state is kept between reads; no unit test runs on a Windows console", "anchors": ["rawreader_windows.go:Read", "rawreader_windows.go:writeEsc", "terminal.go:ioloop"]}
{"id": "C93", "title": "The shortcuts do what the table of shortcuts says", "statement": "At the prompt each key of doc/shortcut.md makes the edit the table says, on any line, and nothing else.", "quantifier": "all lines, cursor positions, cut texts, histories", "why_tests_cant": "all editor states; the decoder, the switch and the buffer have to agree", "anchors": ["operation.go:ioloop", "doc/shortcut.md"]}
{"id": "C94", "title": "The commands of vim mode", "statement": "In vim mode Esc leads to command mode, where each command of one or two keys (h l 0 ^ $ x p b w e j k, i I a A s S, r d c f F t T and their second keys) makes its edit, stays in command mode or returns to typing as in vim, and any other key does nothing.", "quantifier": "all lines, cursor positions, keys", "why_tests_cant": "commands of two keys read the second key past the main loop; all editor states", "anchors": ["vim.go:HandleVimNormal", "vim.go:handleVimNormalMovement", "vim.go:handleVimNormalEnterInsert", "operation.go:ioloop"]}
{"id": "C95", "title": "Candidates are shown below the line", "statement": "While candidates are shown they appear in columns below the line, each after the text already typed, the chosen one marked; the line, its cursor and what is above it do not change, and the next change of the line takes the menu away.", "quantifier": "all lines, candidates, widths and screens", "why_tests_cant": "needs a terminal emulator; all combinations of widths and lengths", "anchors": ["complete.go:CompleteRefresh", "runebuf.go:CursorLineCount"]}
{"id": "C96", "title": "The search status is shown below the line", "statement": "During a history search the row below the line shows what is searched, in which direction and whether it fails; the line, its cursor and what is above it do not change.", "quantifier": "all lines, search texts, widths and screens", "why_tests_cant": "needs a terminal emulator; all combinations of widths and lengths", "anchors": ["search.go:SearchRefresh", "runebuf.go:SetStyle", "runebuf.go:CursorLineCount"]}
{"id": "C97", "title": "Nothing is recorded while recording is off", "statement": "Between HistoryDisable and HistoryEnable no submitted line enters the history or its file, and with DisableAutoSaveHistory none ever does; lines submitted while recording is on are all recorded, and switching off and on loses nothing.", "quantifier": "all keys, histories, moments of switching", "why_tests_cant": "switching may come at any moment of editing or browsing; unbounded sessions", "anchors": ["readline.go:HistoryDisable", "readline.go:HistoryEnable", "history.go:New", "operation.go:ioloop"]}
{"id": "C98", "title": "A search shows the nearest matching line", "statement": "During a history search every character, Backspace and repeated search key leads to the nearest entry that contains the text sought, in the direction of the search, with the cursor at the match; when there is none the search is shown as failing and the line does not change.", "quantifier": "all histories, search texts, positions", "why_tests_cant": "all histories and key sequences; several components have to agree on positions", "anchors": ["search.go:search", "search.go:SearchMode", "search.go:SearchBackspace", "history.go:FindBck", "history.go:FindFwd"]}
{"id": "C99", "title": "ReadPassword(fd) on Windows returns the line", "statement": "On Windows ReadPassword(fd) returns the line typed without its end of line, leaves later lines unread, reads without echo and sets the console mode back.", "quantifier": "all lines, console modes and later input", "why_tests_cant": "reads come in pieces of sixteen bytes; no unit test has a console", "anchors": ["term_windows.go:ReadPassword"]}
{"id": "C100", "title": "Cursor movement and erasing on a Windows console", "statement": "ESC[nA to ESC[nD move the cursor by n, stopping at the edge; ESC[J clears from the cursor to the end of the buffer and nothing else; ESC[2K clears the cursor's row and ESC[K the rest of it.", "quantifier": "all console sizes, cursor positions, contents and numbers", "why_tests_cant": "all sizes and positions, in 16-bit arithmetic; no unit test has a console", "anchors": ["ansi_windows.go:ioloopEscSeq", "ansi_windows.go:killLines", "ansi_windows.go:eraseLine"]}
{"id": "C101", "title": "A program using Line and AddHistory keeps a history", "statement": "A program that reads lines with the package functions and adds each line with AddHistory has them, and only them, in its history, up to the limit; with SetHistoryPath a later program finds them in the file; SetAutoComplete and SetHistoryPath may be called at any time without losing lines.", "quantifier": "all keys, prompts, files, moments of the calls", "why_tests_cant": "unbounded programs; the effect of a configuration copied in the middle shows only in later prompts", "anchors": ["std.go:Line", "std.go:AddHistory", "std.go:SetHistoryPath", "std.go:SetAutoComplete", "readline.go:Clone"]}
{"id": "C102", "title": "A line offered with ReadlineWithDefault can be accepted and edited", "statement": "ReadlineWithDefault puts the given text on the line with the cursor at its end: Enter returns exactly it, text typed is added at the end, Ctrl-C returns it with ErrInterrupt, and with any other keys everything goes as if the text had been typed (the same results, the same history).", "quantifier": "all texts offered, all keys, all histories and configurations without callbacks", "why_tests_cant": "the offered text and the history interact over arbitrary key sequences; tests only press Enter", "anchors": ["readline.go:ReadlineWithDefault", "operation.go:SetBuffer", "runebuf.go:Set", "history.go:Update"]}
{"id": "C103", "title": "A loop around Line handles the lines entered", "statement": "The loop with CanContinue and CanBreak handles, in order, exactly the lines entered, skips lines given up with Ctrl-C, and ends at Ctrl-C or Ctrl-D on an empty line or at the end of the input, an unfinished last line included; ReadSlice returns the same as Readline.", "quantifier": "all sequences of prompts and texts", "why_tests_cant": "unbounded sessions mixing entered, interrupted and empty lines", "anchors": ["readline.go:CanContinue", "readline.go:CanBreak", "readline.go:Line", "readline.go:ReadSlice", "operation.go:Slice"]}
{"id": "C104", "title": "The remote client shows what the server writes and gives the terminal back", "statement": "The client writes to its standard output exactly what the server wrote, in order, wherever the connection breaks; sends its input whole and in order and reports the end of it once; and leaves the terminal in the mode it found it in.", "quantifier": "all sequences of server calls, all cuts of the stream, all ways input arrives", "why_tests_cant": "arbitrary fragmentation, disconnection inside a message, repeated ends of file", "anchors": ["remote.go:readLoop (RemoteCli)", "remote.go:ServeBy", "remote.go:Write", "utils.go:RawMode"]}
{"id": "C105", "title": "An instance follows the width of the terminal", "statement": "After every change of the terminal's width the line, the candidate menu and the search status of an instance are laid out for the new width, in whatever order SetConfig, password prompts and further instances come.", "quantifier": "all sequences of resizes, configuration changes and instances", "why_tests_cant": "depends on arbitrary interleavings of resizes with SetConfig and NewEx; the callback is one global variable", "anchors": ["utils_unix.go:DefaultOnWidthChanged", "operation.go:NewOperation", "operation.go:SetConfig", "runebuf.go:OnWidthChange", "search.go:OnWidthChange", "complete.go:OnWidthChange"]}
{"id": "C106", "title": "The line is drawn by the painter of the configuration in use", "statement": "Every redraw shows the line as the Painter of the configuration chosen last paints it, the line itself when it has none; a password prompt uses its own and the earlier one is back afterwards.", "quantifier": "all sequences of SetConfig, SetPainter and password prompts, all lines", "why_tests_cant": "arbitrary sequences of configurations, some with and some without a Painter", "anchors": ["runebuf.go:output", "readline.go:NewEx", "readline.go:SetPainter", "operation.go:SetConfig", "password.go:PasswordConfig"]}
{"id": "C107", "title": "PrefixCompleter.Tree prints the outline of the commands", "statement": "Tree prints every command word once, before the words below it, one line each, with a branch whose length gives the depth; completers with different commands print different outlines.", "quantifier": "all completer trees, all prefixes", "why_tests_cant": "trees of unbounded depth and width", "anchors": ["complete_helper.go:Tree", "complete_helper.go:Print"]}
{"id": "C108", "title": "Ctrl-Z gives the terminal back and the prompt goes on after resuming", "statement": "A prompt suspended with Ctrl-Z shows the other programs the terminal settings from outside the prompt, is in raw mode again when it goes on, goes on as soon as the process is resumed, and at its end leaves the terminal as the last program left it.", "quantifier": "all numbers of suspensions, all changes of settings meanwhile, all durations", "why_tests_cant": "needs a process that is stopped and resumed, with real time passing; the detection is by gaps between ticks", "anchors": ["terminal.go:SleepToResume", "utils.go:WaitForResume", "utils_unix.go:SuspendMe", "utils.go:RawMode", "operation.go:Runes"]}
{"id": "C109", "title": "Output from elsewhere appears above the prompt, whatever is open below it", "statement": "Lines written through Stdout() or Stderr() while candidates or a search status are shown appear above the prompt; the line, the cursor, the candidates with the chosen one, or the status are shown again below; nothing of the editor's state changes; while no line is read the output passes unchanged.", "quantifier": "all lines, candidates, searches and outputs of single-width text that fit", "why_tests_cant": "the screen after arbitrary combinations of output, wrapped lines and menus", "anchors": ["operation.go:wrapWriter", "runebuf.go:Refresh", "complete.go:CompleteRefresh", "search.go:SearchRefresh"]}
{"id": "C110", "title": "The input filter decides every rune", "statement": "With FuncFilterInputRune the editor does exactly what it would do, without a filter, on the runes the filter passes on; a dropped rune changes nothing and leaves the prompt open; a filter passing everything is no filter.", "quantifier": "all filters, all key sequences, all editor states", "why_tests_cant": "filters are arbitrary functions, and every key of every mode goes through them", "anchors": ["operation.go:ioloop", "readline.go:Config.FuncFilterInputRune"]}
{"id": "C111", "title": "The listener is told every change and its answer becomes the line", "statement": "Config.Listener is told the line, the cursor and the key after every key; an answer replaces line and cursor and nothing else; a listener that only watches changes nothing; Enter returns the line the listener gave last.", "quantifier": "all listeners, all typed lines, all editing keys, all states at the prompt", "why_tests_cant": "listeners are arbitrary functions consulted after every key", "anchors": ["operation.go:ioloop", "operation.go:Listener", "runebuf.go:SetWithIdx"]}
{"id": "C112", "title": "Ctrl-L clears the screen", "statement": "Whatever is on the screen, Ctrl-L leaves the prompt and the line from the first row on, the cursor in place and nothing else in view; line and cursor do not change.", "quantifier": "all screens, cursor positions, lines and widths", "why_tests_cant": "the result depends on every cell of the screen and on how the line wraps", "anchors": ["operation.go:ioloop", "utils_unix.go:ClearScreen", "runebuf.go:Refresh", "runebuf.go:clean"]}
{"id": "C113", "title": "Instances sharing a history file keep each other's lines", "statement": "Any number of instances with the same HistoryFile: every line any of them records is in the file afterwards, whole and in order of submission, and is seen by whoever opens the file next.", "quantifier": "all interleavings of opening, editing and submitting by any number of instances", "why_tests_cant": "interleavings of several instances over one file cannot be enumerated", "anchors": ["history.go:historyUpdatePath", "history.go:rewriteLocked", "history.go:Update", "history.go:New"]}
{"id": "C114", "title": "GetOffset gets the position that was asked for", "statement": "Every call of Terminal.GetOffset is answered once, with the cursor position the terminal reports to that question; what is typed meanwhile reaches the editor and the reports do not.", "quantifier": "all interleavings of questions, goroutines, keys and reports", "why_tests_cant": "the goroutine of the question races with the reader that passes on the report", "anchors": ["terminal.go:GetOffset", "terminal.go:ioloop", "utils.go:Get2"]}
{"id": "C115", "title": "Goroutines sharing an instance never deadlock on its locks", "statement": "Any number of goroutines call the methods of one instance (Write, SetPrompt, Refresh, SetConfig, SaveHistory, password prompts, ...) while lines are edited and the window changes size, and the callbacks of the configuration call them too: every goroutine can always go on to the end of its call.", "quantifier": "all numbers of goroutines, all calls, all interleavings", "why_tests_cant": "a deadlock needs one particular interleaving of two lock acquisitions", "anchors": ["operation.go:SetConfig", "operation.go:GetConfig", "operation.go:ioloop", "operation.go:wrapWriter.Write", "runebuf.go:Refresh", "history.go:Update", "terminal.go:GetConfig"]}
{"id": "C116", "title": "Fields shared by goroutines are used under their lock", "statement": "In no execution are two goroutines about to use the same field of an instance while one of them writes it.", "quantifier": "all numbers of goroutines, all calls, all interleavings, all fields", "why_tests_cant": "races need a particular interleaving and rarely show", "anchors": ["runebuf.go:Reset", "runebuf.go:CursorLineCount", "runebuf.go:Refresh", "operation.go:GetConfig", "history.go:New", "search.go:SearchRefresh", "terminal.go:Write"]}
{"id": "C117", "title": "Tabs and wide characters in a line that fits one row", "statement": "Whatever lines follow each other at a prompt, each fitting into the row with tabs and double-width characters in line and prompt: the row shows prompt and the last line, tabs as TabWidth blanks, nothing of the earlier lines is left, nothing above has changed, and the cursor stands behind the runes before it.", "quantifier": "all prompts of printable runes with colours, all sequences of lines of printable runes and tabs, all cursor positions, all painters that only colour", "why_tests_cant": "widths come from Unicode tables and the effect is only visible on a terminal", "anchors": ["runebuf.go:output", "runebuf.go:getBackspaceSequence", "runebuf.go:refresh", "runebuf.go:cleanOutput", "runes.go:Width"]}
{"id": "C118", "title": "Text given to WriteStdin is read before further input", "statement": "In every schedule of the copying goroutine, the callers of WriteStdin and the reader: WriteStdin returns though nobody reads; what was written is returned by Read in order, each byte once, and the keyboard's bytes too; once WriteStdin has returned, the next Read returns the text; Close ends the goroutine.", "quantifier": "all schedules, all numbers and sizes of writes and reads", "why_tests_cant": "the outcome depends on whether the goroutine gets to append before Read looks", "anchors": ["std.go:FillableStdin.ioloop", "std.go:FillableStdin.Read", "std.go:FillableStdin.Close", "readline.go:WriteStdin", "terminal.go:WriteStdin"]}
{"id": "C119", "title": "A session only appends to the history file", "statement": "Whatever keys are pressed, and whatever calls of SaveHistory, ResetHistory, HistoryDisable and HistoryEnable are mixed in, the history file keeps everything it had; what is added are whole lines, at most one for each line returned and each call of SaveHistory. Recorded entries in memory are never changed: old ones may fall off, new ones come last. Nothing is written while recording is off.", "quantifier": "all key sequences, all configurations (vim mode, filter, listener, completer, case folding, limits), all editor states", "why_tests_cant": "a search, a vim command or a completion in an odd state could take another path to the file", "anchors": ["history.go:New", "history.go:Update", "history.go:Compact", "operation.go:ioloop", "search.go:search", "readline.go:SaveHistory"]}
{"id": "C120", "title": "An instance given other configurations: whose input and whose WriteStdin", "statement": "The terminal goroutine reads the input of the configuration in force when it begins and no other; of the texts given to WriteStdin it reads, in order and completely, those given while a configuration with that input was in force; text given under any other is never read. With clones of the first configuration nothing is lost.", "quantifier": "all sequences and interleavings of SetConfig, password prompts, WriteStdin, reads and Close; any number of configurations", "why_tests_cant": "depends on when the goroutine begins and on every configuration used before", "anchors": ["readline.go:SetConfig", "terminal.go:SetConfig", "terminal.go:getStdin", "terminal.go:WriteStdin", "readline.go:Config.Init", "readline.go:Config.Clone"]}
{"id": "C121", "title": "An instance given other configurations: the terminal's settings", "statement": "Whenever no Readline or password prompt is pending the terminal has the settings from before, and after Close too; while one is pending it is in raw mode; for programs that do not change the configuration while a call is pending (or only to one with the same functions).", "quantifier": "all sequences of calls, suspensions and changes of configuration; all terminal settings", "why_tests_cant": "each configuration has its own place for the saved settings; needs a real terminal", "anchors": ["operation.go:Runes", "terminal.go:EnterRawMode", "terminal.go:ExitRawMode", "terminal.go:Close", "readline.go:Config.Init", "utils.go:RawMode", "password.go:EnterPasswordMode"]}
{"id": "C122", "title": "Goroutines started for configurations", "statement": "The goroutines reading ahead are exactly: one for the text of WriteStdin for each configuration ever used, until Close ends that of the configuration in force, and one for the keyboard for each that has no Stdin of its own, never ended. So every ReadPassword leaves two more behind, and one configuration kept for all password prompts leaves none.", "quantifier": "all sequences of calls, any number of prompts and configurations", "why_tests_cant": "a leak shows only over an unbounded number of calls", "anchors": ["readline.go:Config.Init", "std.go:NewCancelableStdin", "std.go:NewFillableStdin", "std.go:FillableStdin.Close", "readline.go:Close", "operation.go:GenPasswordConfig", "password.go:PasswordConfig"]}
{"id": "C123", "title": "The screen follows the editor", "statement": "After any Readline calls, key presses at the prompt and lines printed through Instance.Stdout, in any order that can occur, a terminal that interprets the bytes written shows, from the row the session started on: every entered line behind its prompt, every interrupted line with InterruptPrompt, EOFPrompt after Ctrl-D, every printed line, in the order they happened, and below them the prompt with exactly the line the editor holds and the cursor where the editor has it; nothing above that row changes. With UniqueEditLine, entered lines and Ctrl-D leave nothing on the screen. Covers all editing, motion, kill, yank and history keys, all commands of vim mode, bells, listener and input filter; prompt at least two columns narrower than the screen, characters of width one, no search, completion menu, Ctrl-L or Ctrl-Z, no Ctrl-C with UniqueEditLine.", "quantifier": "all sequences of Readline calls, keys and printed lines, all widths, prompts with colours, painters that only colour, listeners, filters and starting histories", "why_tests_cant": "A test compares the screen after a few fixed key sequences; wrapped lines, history recall, background output and hints combine without bound.", "anchors": ["operation.go:107-401", "runebuf.go:450-547", "terminal.go:216-218"]}
{"id": "C124", "title": "The screen during a history search", "statement": "In a session of Readline calls, key presses (Ctrl-R and Ctrl-S among them) and whole lines printed through Instance.Stdout, the terminal shows at every moment: the lines left so far, the prompt and the line being edited with the cursor at its place, and while a search is on, in the row below the line, exactly 'bck-i-search: ' or 'fwd-i-search: ' and the text sought, preceded by 'failing ' after a failed attempt; as soon as the search is over (Enter, Ctrl-G, Ctrl-C or any other command key) the status row is blank again. No key of such a session crashes the editor. Without vim mode, listener, input filter and completer; characters of width one; Ctrl-T not on a line of one character; while searching the status fits its row, prompt and line are not both empty, the line does not end at the screen's edge with the cursor behind it, a marked match is in the cursor's row.", "quantifier": "every prompt, painter, width, history and every order of Readline calls, keys and printed lines", "why_tests_cant": "the redraw after a search must erase a status row the drawing code does not know about; every key reaches this by a different path, in search mode some redraw twice, some once, and printed text erases and repeats the status", "anchors": ["search.go:53-164", "operation.go:47-67", "operation.go:165-357", "runebuf.go:468-540"]}
{"id": "C125", "title": "The screen while completing", "statement": "In a session of Readline calls, key presses (Tab, the keys choosing a candidate, searches among them) and whole lines printed through Instance.Stdout, the terminal shows at every moment: the lines left so far, the prompt and the line being edited with the cursor at its place, and below it, while completing, all candidates (what is typed of them and the rest) in a table with as many columns as the arrow keys count with, every candidate followed by a blank; while searching the status of the search; otherwise nothing. As soon as the completion is over (Enter taking the candidate, Ctrl-G, Ctrl-C, a command key, no candidate left) the table is gone. No key of such a session crashes the editor. Without vim mode, listener and input filter; characters of width one; the prompt is not empty; candidates fit their row; Ctrl-T not on a line of one character, Ctrl-K neither while choosing nor in the middle of the line while completing; the cursor is in the first row while completing; no search is started while completing and no completion while searching.", "quantifier": "every prompt, painter, width, history, completer and every order of Readline calls, keys and printed lines", "why_tests_cant": "the table is drawn by code that the line drawing code does not know about; it must be erased by whatever comes next, and every key in either of the two completion modes takes a different path with one to four redraws", "anchors": ["complete.go:49-242", "operation.go:47-67", "operation.go:137-357", "operation.go:503-507", "runebuf.go:468-540"]}
{"id": "C126", "title": "What is typed at a password prompt does not show", "statement": "Two people using the same masked prompt and pressing the same keys, except that they type other characters of the same width, see the same: the bytes written to the terminal are identical for whole sessions, whatever the lines, the text killed before and the histories contain, background output included. (Not so for the keys acting on words and for searches, which show something of the text.)", "quantifier": "every mask, prompt, width, painter, session and pair of secrets", "why_tests_cant": "a statement about pairs of executions; a test compares the output for one secret with what its author expects", "anchors": ["password.go:20-33", "runebuf.go:468-540", "runebuf.go:591-629", "operation.go:107-366", "search.go:127-164"]}
{"id": "C127", "title": "Input from a pipe: nothing but the program's own output is written", "statement": "If the input is not a terminal (Config.FuncIsTerminal returns false), then for any input (lines of any length, any characters, editing keys, end of input) and output written through Stdout() at any time, what is written is exactly that output and one bell for each key that has no effect: no prompt, no echo, no escape sequence. The lines of a piped file are returned one by one, an unterminated last one too, then io.EOF, with nothing written. What the editor does does not depend on the width of a terminal, even if there is none. Search, completion, Ctrl-L and Ctrl-Z in the input are excepted; with no terminal at all Ctrl-R or a tab with several candidates in the input crashes the application (refuted).", "quantifier": "all configurations without vim mode (any filter, listener, history, prompt), all sessions of keys and prints, all widths including -1", "why_tests_cant": "A test pipes a few lines; the claim is about every input and every interleaving with background output, and tests run with some width", "anchors": ["runebuf.go:450-466", "runebuf.go:619-629", "readline.go:88-93", "operation.go:47-67", "operation.go:107-366", "utils_unix.go:31-45"]}
{"id": "C128", "title": "The screen of a terminal with few rows, and Ctrl-L", "statement": "On a terminal of any number of rows, after any Readline calls, keys at the prompt (Ctrl-L included) and lines printed through Instance.Stdout: as long as prompt and line with the cell for the cursor take no more rows than the terminal has, the screen shows the lines entered, interrupted and printed (after a Ctrl-L only those since then), below them prompt and line as the editor holds them with the cursor in place; scrolling never leaves remains or damages lines above; prompt and line are always in view as a whole; what was there before the last Ctrl-L is out of sight. With a line longer than the screen every redraw leaves a copy of its first rows behind (refuted).", "quantifier": "all numbers of rows and columns, all sequences of Readline calls, keys and printed lines, prompts with colours, painters that only colour, listeners, filters, vim mode, starting rows and histories", "why_tests_cant": "tests look at the bytes or at a screen that does not scroll; whether the cursor is kept inside the screen depends on all lines drawn before", "anchors": ["operation.go:107-401", "operation.go:503-507", "utils_unix.go:47-50", "runebuf.go:450-547", "runebuf.go:591-629"]}
{"id": "C129", "title": "The screen whatever the order in which the goroutines run", "statement": "An application calls Readline, prints through Instance.Stdout and to the terminal between calls, other goroutines print through Instance.Stdout while Readline waits, and the user types at any speed, also ahead. Whatever the order in which the goroutines of the instance run, each time Readline waits and the editor is ready for a key, the screen shows what was returned and printed so far in the order of the application, below it the prompt and the line resulting from a beginning of the keys typed, whose results are those returned; between calls the same without prompt, except that output through Instance.Stdout right after Readline may be followed by a prompt. No order breaks the editor. (Not so for two prints after one another between calls, and for prints of other goroutines just after Readline is called, just after Ctrl-D, or as Enter is handled: refuted.)", "quantifier": "all interleavings of application, editor and terminal goroutines and printing goroutines, all inputs of keys as in C123, prompts, widths, painters, listeners, histories, without UniqueEditLine", "why_tests_cant": "a test runs one interleaving; the races are between storing isReading, drawing and returning", "anchors": ["terminal.go:133-211", "operation.go:46-67", "operation.go:107-366", "operation.go:377-401", "readline.go:164-178"]}
{"id": "C130", "title": "Searching and completing on a terminal with few rows", "statement": "On a terminal of any number of rows, in any session of Readline calls, keys (Tab, choosing a candidate and searches among them) and lines printed through Instance.Stdout in which the line with what is drawn below it never takes more rows than there are: the screen shows at every moment what it would show on an endless one (lines left, prompt, line and cursor, status of the search or table of candidates), scrolling leaves no remains and damages nothing above, and prompt, line and what is shown below it are in view as a whole. A table of candidates filling the screen, or a search with a line that does, leaves copies of the line behind (refuted).", "quantifier": "all numbers of rows and columns, prompts, painters, histories, completers, and every order of Readline calls, keys and printed lines", "why_tests_cant": "the cursor is moved back up over rows that may have scrolled; whether it arrives depends on everything drawn before", "anchors": ["complete.go:175-242", "search.go:127-164", "operation.go:47-67", "operation.go:107-366", "runebuf.go:468-540"]}
{"id": "C131", "title": "The screen of a session with double-width characters", "statement": "After any Readline calls, keys at the prompt and lines printed through Instance.Stdout, with characters of one or two columns in prompt, lines, history, kill buffer and output, as long as every line with its prompt fits one row: the screen shows the lines entered, interrupted and printed, one row each, below them prompt and line exactly as the editor holds them and nothing after it, nothing above changes, and the cursor is behind the characters before it exactly when those behind it take one column each (one column too far right for each that takes two). No such session breaks the editor. (With double-width characters behind the cursor it is shown too far right: refuted.)", "quantifier": "all width tables, all sequences of Readline calls, keys and printed lines, prompts with colours, painters that only colour, starting rows and histories, terminal widths", "why_tests_cant": "tests use ASCII; erasing depends on the columns of everything drawn before, so a miscount shows only after particular sequences of edits", "anchors": ["runebuf.go:450-547", "runebuf.go:591-629", "operation.go:47-67", "operation.go:107-366", "runes.go:117-165"]}
{"id": "C132", "title": "Changing the prompt", "statement": "An application calls SetPrompt, Refresh and Clean at any moment, between and during Readline calls, while keys are typed and lines printed: after Refresh, the next output through Instance.Stdout, the next Readline call or the end of a line, the screen shows the last prompt set with the line and the cursor in place, every line entered keeps the prompt it was entered at, and nothing else on the screen changes; after Clean prompt and line are gone and the rest is as before. While a prompt is on the screen the new one must leave the cursor in its row, after Clean it may be any. Without that, Refresh leaves rows of the old prompt behind or erases a line above (refuted).", "quantifier": "all prompts with colours at least two columns narrower than the screen, all sequences of calls, keys and printed lines, widths, painters, listeners, filters, vim mode, histories", "why_tests_cant": "whether the right number of rows is erased depends on both prompts, the line and the width together", "anchors": ["runebuf.go:450-466", "runebuf.go:585-589", "runebuf.go:591-629", "operation.go:92-94", "operation.go:503-511"]}
{"id": "C133", "title": "What is shown at a masked prompt", "statement": "With EnableMask, after any Readline calls, keys at the prompt and lines printed through Instance.Stdout, with characters of one or two columns, as long as every line with its prompt fits one row: the screen shows behind the prompt one mask for each character typed (nothing for the mask NUL), so two lines of the same length look the same; the lines entered and interrupted stay on the screen masked, the application's output unmasked, one row each; nothing above changes; the cursor is behind the masks when it is at the end of the line, and otherwise two columns further left, not one, for each character behind it (refuted). No such session breaks the editor. (Once the masks fill a row, the next key erases the row above: refuted.)", "quantifier": "all masks of one column or NUL, all width tables, all sequences of Readline calls, keys and printed lines, prompts with colours, starting rows and histories, terminal widths", "why_tests_cant": "a test looks at the bytes of a single redraw; whether the line is erased in full depends on what was drawn before and on columns that are not those of the line", "anchors": ["runebuf.go:82-86", "runebuf.go:450-547", "runebuf.go:591-629", "operation.go:47-67", "operation.go:107-366", "readline.go:64-65"]}
{"id": "C134", "title": "A program that asks for lines and passwords", "statement": "A program calls Readline and ReadPassword (or gives the instance other configurations between calls) in any order, each call with its own prompt, mask, painter, hints and history, prints through Instance.Stdout during and between calls, every text fitting one row: during each call the screen shows what all calls before left, each with the prompt and the mask it had, then this call's prompt and the line, in clear or masked as this call's configuration says; between calls the same and free rows below; nothing above changes. Neither prompt, mask nor painter of one call shows in another. (What is erased at a password prompt can be inserted in clear at the next: refuted.)", "quantifier": "all sequences of calls with any configurations as in C131 and C133, keys and printed lines, starting rows, histories, terminal widths and width tables", "why_tests_cant": "a test checks one order of calls; whether the erasing at the start of a call fits what the call before left depends on both configurations", "anchors": ["operation.go:403-424", "operation.go:458-490", "password.go:1-34", "runebuf.go:75-86", "runebuf.go:450-547", "runebuf.go:585-629"]}
{"id": "C135", "title": "No key crashes a password prompt", "statement": "At a prompt of ReadPassword (or any prompt without completer and vim mode, whatever the history limit) every key sequence is handled without a panic, except: Ctrl-R or Ctrl-S pressed as the first key of a call (then Ctrl-G or Ctrl-C crashes the program), and Ctrl-T on a line of a single character. A Listener that puts the cursor inside the line it returns does not change that, as long as no search is used.", "quantifier": "all key sequences, all histories reachable by the history's own operations with any limit including -1, all listeners that stay inside their line, any number of calls", "why_tests_cant": "Tests press a few keys at a prompt whose history keeps lines; a password prompt's history keeps none, so that its current element is nil or removed from the list, a state that only some key orders reach.", "anchors": ["password.go:23-34", "operation.go:107-366", "operation.go:403-424", "search.go:99-125", "history.go:98-103"]}
{"id": "C136", "title": "A history limit of -1 disables the history at the prompt", "statement": "With HistoryLimit -1 nothing is kept at any moment of a session, neither submitted lines nor what is in the history file: Ctrl-P and Ctrl-N (and the arrow keys) ring the bell and leave the line and the cursor as they were, and a search finds nothing but the entry being edited.", "quantifier": "all key sequences (vim mode, completion, searches, listener, filter and automatic saving included), all contents of the history file", "why_tests_cant": "Tests submit a line and press the up key once; lines enter the history at several places (start, Enter, every edit, leaving a candidate list) and each has to remove them again.", "anchors": ["readline.go:35-37", "history.go:65-103", "history.go:195-226", "history.go:246-324", "operation.go:107-366"]}
{"id": "C137", "title": "ResetHistory forgets what was recorded", "statement": "After ResetHistory, called at any time, the history never holds more lines than have been entered or saved since (beside the line being edited); until one is, Ctrl-P and Ctrl-N (and the arrow keys) ring the bell and leave the line and the cursor as they were.", "quantifier": "all key sequences and calls of SaveHistory, ResetHistory, HistoryDisable and HistoryEnable before and after, all limits, completers, listeners and filters, vim mode (the recall keys outside vim mode, searches and candidate lists, without listener and filter)", "why_tests_cant": "A reset leaves the editor without a current entry while a search or an edited line still points to a removed one; whether an old line can come back depends on the order of keys and calls.", "anchors": ["readline.go:184-186", "history.go:42-45", "history.go:195-226", "history.go:246-324", "operation.go:107-366"]}
