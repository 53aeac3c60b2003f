{
 "C68": "Violated: WithFilter does not reset the focus (refuted); proved: never a crash, repaired by the next query. The scoped claim that holds is C290.",
 "C34": "sort.SliceStable enters through its documented contract (permutation; stable sorted result for strict weak orders), which is shown to be satisfiable and to determine the result.",
 "C71": "Violated: Proved when sizes are changed only while the first row is selected; Height/ShowHeader do not rescroll and height 0 with a header panics (refuted). The scoped claim that holds is C260.",
 "C72": "Violated: widths count bytes: proved for ASCII cells; the sort marker and any non-ASCII text misalign, the header costs two lines but one is deducted, and the mark overwrites the first character (refuted).",
 "C73": "Violated: comparison through formatted strings is cyclic for mixed types; always a permutation (proved). The scoped claim that holds is C291.",
 "C74": "Violated: the disabled flag is only rendered (refuted for Select and MultiSelect).",
 "C76": "Violated: The components quit exactly on KeyCtrlC (proved), but the input parser never yields that key for any input (proved): refuted. The scoped claim that holds is C261.",
 "C78": "Violated: Proved: at a submission every field whose name has a value passes on the value stored under its name; refuted for selects without a selection (skipped) and for fields sharing a name. The scoped claim that holds is C262.",
 "C80": "Violated: no input is ever delivered as a shifted key (proved for all inputs), ESC [ Z is swallowed.",
 "C83": "Violated: the component cancels on KeyCtrlC (proved), which input never yields; byte 3 is ignored and Ctrl-Y answers Yes (refuted).",
 "C86": "Violated: int64 wrap-around at extreme deltas refutes it; proved for all deltas not within 807 of the int limits. The scoped claim that holds is C292.",
 "C88": "Violated: both arguments are ignored.",
 "C89": "Violated: proved for one spinner; for k spinners the number of pending ticks after n ticks is k + n(k-1) (refuted). The scoped claim that holds is C293.",
 "C90": "Violated: the SGR decoder has no motion case: motion reports become presses of no button, which restart the drag at the new position; proved that no byte stream ever produces a Drag or Motion event and that every release is a click.",
 "C91": "Violated: for releases (always reported as presses of no button); presses and wheel up to column/row 222 proved. The scoped claim that holds is C263.",
 "C92": "Violated: urxvt adds 32 to the code, the decoder does not subtract it, so every button and wheel event becomes a press of no button; positions and modifiers are right. The scoped claim that holds is C264.",
 "C93": "Violated: beyond column 222 (byte conversion wraps); proved up to 222. The scoped claim that holds is C265.",
 "C94": "Violated: drag out and back to the press point, then release: Drag events and a Click. Proved when the pointer ends at least the threshold away. The scoped claim that holds is C294.",
 "C97": "Writes either succeed entirely or send nothing (no partial writes).",
 "C98": "Violated: stretch is the same as start, for every container; only the position at the near edge is right.",
 "C100": "Violated: the renderer pads by UTF-8 bytes (len), so a line falls short by its continuation bytes; exact formula proved for all texts. The scoped claim that holds is C295.",
 "C101": "Violated: for all boxes: the renderer never reads the size. Measuring and placing respect it. The scoped claim that holds is C266.",
 "C103": "Violated: Render stores the measured size as the box's exact size. Rendering again, measuring and placing the unmodified box are unaffected. The scoped claim that holds is C267.",
 "C126": "Violated: character references are replaced after the tags are removed, so &lt;script&gt; becomes a tag. Partial: proved for documents without references. The scoped claim that holds is C276.",
 "C127": "Violated: non-ASCII characters, backslashes, braces, line breaks and outer white space do not come back; C56 proves exactly which texts do. Partial: what every decoded text is like. The scoped claim that holds is C296.",
 "C128": "Violated: ClearLine emits \\r first, so the cursor goes to column 0 (refuted for every cursor not already there). Proved: exactly the cursor's line is blanked. The scoped claim that holds is C297.",
 "C129": "Violated: ClearLines clears the n lines ENDING at the cursor and everything below (refuted twice). What it does is C58. Proved here: the case n=1 on the last row, where both readings agree.",
 "C130": "Violated: The code violates the stack claim (ESC[s has one slot): nested pairs are refuted. Proved: a single pair around any calls without a second Save or a screen switch. The scoped claim that holds is C268.",
 "C131": "Violated: The code violates the error claim: no position is ever reported (refuted for all). Proved: exactness on the screen. The scoped claim that holds is C269.",
 "C133": "Violated: the code compares TERM with three names only, so e.g. rxvt-256color is refuted. Proved: everything else in the statement. The scoped claim that holds is C298.",
 "C134": "Violated: holds for non-character keys; refuted in general: Ctrl with any letter other than A, E, U inserts the letter. The scoped claim that holds is C299.",
 "C135": "Violated by the code: height content lines are wrapped, so more than height rows are returned (counterexample proved); the partial theorem says exactly which rows are shown and that none overflow when the lines fit.",
 "C136": "Violated by the code: a resize keeps the old offset (counterexample proved); the partial theorem shows the bottom is reached again on the next content change or ScrollToBottom, and that growing the window is safe.",
 "C137": "Violated by the code for ScrollToBottom, which silently turns follow mode on (counterexample proved); proved for ScrollToTop, SetYOffset and for ScrollToBottom followed by FollowMode(false).",
 "C138": "Violated: Proved when the typed character stands alone; false for a combining mark typed in the middle, which moves the cursor past the next cluster (counterexample proved). The scoped claim that holds is C270.",
 "C139": "Violated by the code: byte slices cut characters of several bytes (counterexample proved); proved for any content that fits the width.",
 "C140": "Violated: proved for ASCII; in general bytes are counted (counterexample proved). The scoped claim that holds is C300.",
 "C141": "Violated: HasChanges says true while Diff is empty for an absent old frame or a resize to a blank frame (counterexamples proved). Proved: when HasChanges says false, Diff is empty.",
 "C142": "Violated: an incremental update writes the blank continuation cell over the glyph (counterexample proved). The single-column case is C03.",
 "C143": "Violated: no reset is emitted when a cell has fewer attributes than the one before (counterexample proved). The uniform case is C04.",
 "C144": "Violated: ESC alone in a read is delivered as the Escape key and the rest as text (counterexample proved). Text without ESC is C09.",
 "C145": "Violated for each of them: the sequence is dropped and its last byte is typed (proved for every SS3 key).",
 "C146": "Violated: up to five characters after ESC are swallowed (counterexample proved).",
 "C147": "Violated: the erase-to-end-of-line after a full line erases its last column (counterexamples proved). Narrower lines are C11.",
 "C148": "Violated when the last line is unchanged: it is erased with the rows below (counterexample proved). Other histories are C11.",
 "C149": "Violated: an empty view right after Repaint is skipped as unchanged (counterexample proved).",
 "C150": "Violated for overlong encodings of ESC (counterexample proved); all other byte strings are C12_width_bound.",
 "C151": "Violated: unpacking a batch into a full queue blocks the loop for ever; proved that no later schedule without a Stop timeout can make progress. At most 100 messages: C14.",
 "C152": "Violated: with the loop busy the non-blocking send is dropped (schedule proved). The idle loop is C15.",
 "C153": "Violated: a command goroutine waiting to deliver its message can consume the quit signal (schedule proved).",
 "C154": "Violated: Stop clears the running flag on timeout and a second Start runs a second loop (schedule proved). Without a timeout: C16.",
 "C155": "Violated after Resume or ExecProcess, which hide the cursor and nothing shows it again (history proved); proved for histories without them.",
 "C156": "Violated: Resume after a suspended program ended re-enters raw mode and the alternate screen (history proved).",
 "C157": "Violated: Proved unless the alternate screen had already been entered; in that case no retry ever succeeds (proved for every number of retries). The scoped claim that holds is C272.",
 "C158": "Violated: forward kills reset the cursor to the start of the text (proved for every non-empty kill), so the yank inserts there.",
 "C159": "Violated: it removes and stores the text after the line start, i.e. the whole line (counterexample proved).",
 "C160": "Violated (counterexample proved); every other key is C25.",
 "C161": "Violated: the limit is stored but never consulted; proved that any text can be typed under any limit.",
 "C162": "Violated for every bordered box: the measured height is the rendered one plus two (proved). Boxes without a border, and widths: C48.",
 "C163": "Violated: the call resumes the program (history proved). Not suspended: C60.",
 "C164": "Violated: forward kills reset the cursor without asking (counterexample proved). Movements and Backspace: C61.",
 "C165": "Violated by each of them (counterexamples proved). Movement and editing keys: C62.",
 "C166": "Violated: each character replaces the query (counterexample proved). One character: C67.",
 "C167": "Violated: letters bound to actions (k, j, g, ...) are not typed (counterexample proved).",
 "C168": "Violated: the bindings for sorting exist but the key handler never consults them, so both keys do nothing (C168_sort_keys_do_nothing_refuted). Nothing is missing from the model.",
 "C169": "Violated: WithDefault ignores its argument and returns the component unchanged, so nothing is selected (C169_default_not_selected_refuted, for every option list and value).",
 "C170": "Violated: Options builds a fresh domain with the default height and filter and an empty selection, so WithHeight, WithFilterFunc or Selected called before it are lost (C170_options_resets_height_refuted). Proved: the other setters commute (C170_other_setters_commute_partial).",
 "C171": "Violated: k, j, g and G move the cursor instead of being typed, and Backspace removes one byte, leaving a broken encoding after a multi-byte character. The positive part is C75.",
 "C172": "Violated: out-of-range preselected indices are counted towards the minimum, so an empty list can be confirmed. The positive part is C77.",
 "C174": "Violated: a field that was only left with Tab is drawn Valid without having been validated, and complaints stay on screen after the value is corrected (two refutations). Proved: the status is right immediately after Enter (C275_marks_true_after_enter). The scoped claim that holds is C275.",
 "C175": "Violated: before any validation IsValid is true whatever the values. Proved: right immediately after Enter (C275_isvalid_after_enter). The scoped claim that holds is C275.",
 "C176": "Violated: the reset action exists but no key is bound to it; proved for every key: touched and dirty marks survive (C176_no_key_resets_refuted).",
 "C177": "Violated: lengths are counted in bytes. The positive part is C79.",
 "C178": "Violated: append reuses spare capacity of the shared array, so the second extension overwrites the first one's new field. The positive part is C81.",
 "C180": "Violated: a negative button labelled Yes answers Yes; two labels with the same first letter share the first one's answer; DefaultNo with custom labels and a Cancel button focuses Cancel; a label starting outside ASCII is reached by the character of its first UTF-8 byte.",
 "C181": "Violated: a hidden modal drops the resize message, so shown again it is placed for the old size.",
 "C182": "Violated: the last row of the rectangle is never drawn, rows without content have no sides, with buttons the last content line is overwritten, sizes below 2 panic.",
 "C183": "Violated: widths are counted in bytes, so rows come out short and a cut can fall inside a character.",
 "C186": "Violated: a report cut before its final letter is decoded as a release at whatever number was read so far; zero or negative coordinates and low X10 bytes give negative positions; the ESC [ prefix is optional, so typed text such as 1;2;3M is a mouse press. C185 states exactly what is decoded.",
 "C188": "Violated: every setter assigns the receiver's domain value and returns the receiver itself, so boxes derived from a base are one and the same object (C188_*_refuted, for every setter that does not panic). C187 states what the setters do.",
 "C189": "Violated: AlignRight, AlignTop, AlignMiddle and AlignBottom build a whole alignment with the other direction reset to left or top. C189_named_direction_partial: the direction named is set.",
 "C190": "Violated: Width and Height of a container are stored and read by nothing; C190_own_size_ignored_refuted holds for every container and size.",
 "C191": "Violated: Render places one character per cell whatever its width, so rows with wide characters are wider than asked. C102 proves the picture for plain ASCII text.",
 "C104": "Violated: the grey ramp index is rounded down, so for every grey 6 to 9 above its step the next step is nearer. C192 states how close the entry is.",
 "C105": "Violated: cube greys 59, 102, 145, 188 and the sixteen basic colours change (C105_palette_roundtrip_refuted). C192_palette proves it for all others.",
 "C106": "Violated: borders use another, coarser conversion than texts. C192_border_codes states it exactly.",
 "C107": "Violated outside ASCII: the text is cut at a byte count. C51_cut_prefix proves ASCII.",
 "C108": "Violated: Width and Height do nothing without an alignment, and with only one of them a text of several lines is aligned as one line. C51_rendered_size proves the case alignment + width + height.",
 "C110": "Violated: the resets after the frame's pieces switch off the style of the content. C193_coloured_frame proves it for a plain style.",
 "C111": "Violated: a border colour still writes reset sequences. C193_no_colour_plain proves it without border colour and decorations.",
 "C112": "Violated: a text that misses the bounds is returned unstyled and unbounded. C194 states exactly when.",
 "C113": "Violated before a border is chosen: switching a side off is undone by Border, switching one on makes Render return the text unstyled. C195 proves it afterwards.",
 "C116": "Violated: black colours, hidden borders and spacing 0 count as not set. C115_replaces proves it for themes without them.",
 "C118": "Violated with a border colour: the frame's escape sequences are counted as width. C50_margin proves it without.",
 "C119": "Violated: an empty text is returned without padding and margin. C50_nonempty proves all others.",
 "C199": "Violated: the Wayland tools are preferred whenever they are installed, also in an X11 session where they cannot reach a clipboard and xclip could. Partial: proved if every installed tool works.",
 "C200": "Violated: only providers that declare themselves unavailable are skipped; after a failed write the next one is not tried. Partial: proved if the available providers work.",
 "C203": "Violated: expired entries stay listed until RemoveExpiredHistory is called. Partial: right after that call none is listed.",
 "C204": "Violated: room for all entries is allocated at once, so a limit above 2^45 (for example math.MaxInt) panics. Partial: exactly these limits do.",
 "C205": "Violated: entries recorded within one clock tick are listed oldest first. C120 has the positive statements (distinct times; any times).",
 "C206": "Violated: with the default builder, and with New over SSH, OSC 52 comes first and cannot be read. C121 has the positive statements.",
 "C207": "Violated: after a reported timeout the sequence can still be written, and a failed flush is reported after everything was written. Partial: what a reported failure means.",
 "C208": "Violated: fsync fails on terminals (EINVAL on Linux), so every OSC 52 write is reported as a failure although it was sent. Partial: where the output can be flushed, a timely write is a success.",
 "C209": "Violated: the zero Builder has both providers switched off and Build returns an error. Partial: it works once a provider is added or switched on.",
 "C211": "Violated: characters above 65535 are written as one number that does not fit the 16 bits of RTF. Partial: C210 for texts up to 32767.",
 "C212": "Violated: font names become text, paragraphs run together, \\u characters become their substitutes. Partial: agreement on documents the library writes for safe texts.",
 "C213": "Violated: paragraphs run together, a '>' in an attribute or comment ends the tag, style sheets become text, a style of a part becomes the style of all. Partial: C125's documents.",
 "C216": "Violated: an empty text area without placeholder is drawn as the empty string, and one with a placeholder as just the placeholder, whatever ShowCursor says (C216_empty_refuted); with text exactly one cell is reversed (C216_with_text_partial).",
 "C217": "Violated: the renderer uses neither Width, nor Wrap, nor the horizontal scroll offset it maintains; a line longer than the width is drawn in full (C217_overflow_refuted, for every width and either wrap setting). Rows of fitting text fit (C217_fitting_text_partial).",
 "C218": "Violated: with a negative height View panics in a slice expression (C218_negative_height_refuted, for every negative height); C218_height_partial covers all other sizes.",
 "C220": "Violated: NewRawMode is the only public constructor of a RawMode and starts disabled; Enable is internal, so no program can ever see IsRawModeEnabled() = true.",
 "C222": "Violated: with NO_COLOR set the detector returns the minimal capabilities: ANSI, mouse, alternate screen and cursor control are reported missing as well.",
 "C223": "Violated: a macOS build reports the platform as unix, so detectMacOS is never called; COLORTERM=truecolor makes Terminal.app a true colour terminal. Proved without a COLORTERM claim.",
 "C224": "Violated: NO_COLOR, FORCE_COLOR and TERM_PROGRAM are known to core only, and plain terminals have 8 colours in one and 16 in the other. Proved for the shared cases.",
 "C225": "Violated: NewTerminal calls core.NewTerminal, which has the minimal capabilities (no ANSI, no colour), in every environment.",
 "C227": "Violated for NewCapabilities(false, depth, ...) with a colour depth; proved for detected capabilities.",
 "C228": "Granularity: Lock, read of Calls, store of the appended slice, flag test and update, Unlock with return. Reading the exported field Calls while other goroutines run is outside the claim.",
 "C229": "%q is a parameter; the third theorem assumes it is one-to-one. Undocumented styles share the name Unknown.",
 "C231": "Violated by both doubles: true colour with a depth of 256, readback reported missing but succeeding, the cursor always at (0, 0). Proved: the answers are constant and the two doubles agree. (The package documentation also advertises WasCalled, GetCalls, SetError and fluent assertions, which do not exist.)",
 "C232": "Violated: after a successful EnterAltScreen or EnterRawMode the queries answer false, entering twice and exiting without entering succeed. Proved: no call fails.",
 "C236": "Violated: Write uses os.Stdout, the original buffer's handle, so everything written in the alternate screen goes to the hidden original screen (C236_alt_screen_refuted, for every text and every reached state in the alternate screen). Proved in part: outside the alternate screen Write and WriteAt print on the visible screen (C277_write). The scoped claim that holds is C277.",
 "C237": "Violated: ClearLine moves the cursor to column 0 (C237_cursor_refuted, for every cursor not in column 0). What it does clear is C234_clear_line.",
 "C238": "Violated: Size returns the screen buffer's size, scrollback included (C238_size_refuted). Proved in part: where window and buffer agree, as in the alternate screen (C235_enter), it is the window's (C238_size_partial).",
 "C239": "Violated: there is one saved position, shared by all terminal objects of the process (C239_stack_refuted, C239_other_object_refuted). Proved in part: a save followed by anything but a save, then a restore, brings the cursor back (C278_restore). The scoped claim that holds is C278.",
 "C240": "Violated: coordinates are converted to 16 bits, so a position 65536 columns or rows too far is accepted and goes to the wrapped cell (C240_out_of_bounds_refuted). Proved in part: within the 16-bit range exactly the positions out of bounds are refused (C279_in_range). The scoped claim that holds is C279.",
 "C241": "Violated: ClearLine, ClearFromCursor and ClearLines change no attribute (C241_colours_refuted). Proved in part: Clear resets all (C241_clear_partial).",
 "C243": "Violated: the number of 16-bit units copied is the number of UTF-8 bytes plus one, so for every text with a character beyond ASCII memory behind the converted text is read: a crash if it is not readable (C243_fault_refuted), and otherwise foreign memory on the clipboard behind the terminating 0 (C243_leak_refuted). Proved in part: for ASCII texts nothing depends on other memory (C243_ascii_partial).",
 "C244": "Violated: when EmptyClipboard or SetClipboardData fails the allocated memory is never freed (C244_leak_refuted), and in the second case the previous contents are gone (C244_lost_refuted). Proved in part: a failure before the clipboard is opened changes nothing (C280_early). The scoped claim that holds is C280.",
 "C245": "Violated: a text is cut at its first NUL, without an error (C245_nul_refuted, for every such text). For texts without NUL see C242_round_trip.",
 "C248": "Violated: if the relay goroutine is still blocked in its read of the input when WaitForShutdown's 50 ms are over (always so for an input without read deadlines, as on MSYS or a non-*os.File reader), it takes the next bytes typed - meant for the external command or the next reader - and throws them away (C248_refuted). Proved part: at most one more read, of at most 4096 bytes, and none if the relay has ended. The scoped claim that holds is C274.",
 "C249": "Violated: bytes the relay has already taken from the input but that no Read has returned yet are discarded by Cancel (C249_refuted). Proved part: what was not taken stays in the input in order, and at most the pipe's capacity plus 4608 bytes are lost. The scoped claim that holds is C273.",
 "C251": "Violated when the 200 ms pass before the goroutine is scheduled: Suspend returns with the reader still reading, and when that reader ends it runs close() on the field Suspend has set to nil: the program panics (C251_refuted). Without the timeout it holds for every schedule (C251_partial).",
 "C252": "Violated: neither the end of Run nor Stop stops the reader goroutine, which goes on taking input from the terminal (C252_refuted). It holds if the reader was stopped by Suspend or the input had ended (C252_partial).",
 "C253": "Violated: the reader of the first Run is still there; a second Run starts another one and overwrites the done channel, both readers share the input, and when both end the second close panics (C253_refuted). Safe if the earlier reader was stopped or had ended (C253_partial).",
 "C254": "Violated. Suspend checks the flag and acts later, and there is one saved state for all callers: with two overlapping ExecProcess calls the second child still runs when the first call puts the terminal back into raw mode (C254_child_in_raw_mode_refuted); if both pass the check before either acts, the second saves the already restored modes and the program ends up without raw mode and alternate screen although both calls returned nil (C254_not_restored_refuted). Proved part: one command at a time. The scoped claim that holds is C271.",
 "C256": "Violated: renderView writes the view as it is, without moving the cursor home or clearing: each frame is written behind the previous one (C256_frames_pile_up_refuted, for all printable views), and in raw mode each line of a view starts below the end of the previous one (C256_staircase_refuted). Proved part: the very first view, if it is one line.",
 "C257": "Violated: the event loop does not look at the suspended flag when it renders, so any message that changes the view writes into the external command's screen (C257_refuted, both modes). Proved part: in inline mode messages that do not change the view write nothing.",
 "C259": "Violated: execWithTTYControl switches ENABLE_VIRTUAL_TERMINAL_INPUT off before the command and Resume's EnterRawMode then records that mode as the original, so the bit stays off after exit. Proved: exact when the bit was off at the start or no command was run (_partial); never restored otherwise (_refuted).",
 "C282": "Violated: Repaint keeps the count of rendered lines, so Resume moves the cursor up over the last n-1 rows, which hold the command's output, and overwrites them (witness C282_output_erased_refuted). Proved (_partial) for one-line views.",
 "C286": "Violated: nothing in the library creates a WindowSizeMsg (no call of the terminal's size, no SIGWINCH handler in the event loop), so Update sees one only if the application or a command sends it (C286_never_told, over all executions); C286_told_the_size_refuted is an execution with three updates and none. The declared MouseMsg is in the same position: WithMouseAllMotion sets a field nobody reads.",
 "C288": "Violated: the reader takes at most ten bytes after ESC, and a report such as ESC [<0;100;50M is twelve bytes long, so a left click in column 100, row 50 gives the key M (C288_mouse_reports_no_text_refuted, C288_case). Proved for every report of at most 11 bytes (C301_short_mouse_reports). The scoped claim that holds is C301.",
 "C304": "Violated: Stop's signal is offered once, without blocking; if Update is running (or the loop is expanding a batch) it is lost, Stop gives up after one second, marks the program as stopped, and the event loop goes on calling Update (C304_stop_stops_refuted). What holds when Stop did not run into the limit is C303.",
 "C307": "Violated: a text as long as the width with the cursor at its end is drawn in full, followed by the cursor's blank, one column too many (C307_width_exceeded_refuted). C306 shows that for ASCII text this is the only case.",
 "C309": "Violated: what is still queued when a run ends stays in the channel. After two quit messages (q pressed twice) the second one ends the next run before it handles anything (C309_fresh_start_refuted).",
 "C310": "Violated: the form passes messages only to components with a method Update(tea.Msg) (value.FieldModel, tea.Cmd), an internal type; no component of the library has it (and none outside could), so every component in a form stays as it was put in, whatever is typed (C310_components_never_change, C310_component_works_refuted). The form's own example has the same fault.",
 "C312": "Violated: a command runs in a goroutine without deferred cleanup or recover, so its panic kills the process with the terminal in raw mode and on the alternate screen (C312_panic_in_command_refuted). C311 is what holds.",
 "C314": "Violated: the arrow of the focused item replaces its check mark, so pressing space on the focused item changes the selection and nothing on the screen (C314_selection_visible_refuted). C313 is what holds.",
 "C316": "Violated: the keys that edit (typing, Enter, Backspace, Delete, kill, yank) move the cursor without calling OnCursorMoved (C316_enter_unobserved_refuted; C316_editing_keys_unobserved shows it for every such key), although the documentation says the observer is called after each successful movement. For movement keys the claim holds (C315).",
 "C318": "Violated: View is a line per drawn row, each moved to its place with a cursor address; closing the modal moves up by the number of drawn rows from the box's bottom and clears from there, so when rows of the rectangle are not drawn (less content than fits) the top of the box stays on the screen (C318_closed_modal_gone_refuted).",
 "C320": "Violated: PrintlnMsg is delivered to Update like any other message and nothing prints it; a program that does not draw it writes the same bytes whatever the text.",
 "C321": "Violated: no code of the program produces a MouseMsg, the option WithMouseAllMotion is stored and never read, and the reader turns mouse reports into no key (or wrong keys, C288); Update sees a mouse message only if the application sends one itself.",
 "C324": "Violated: the address o'brien@example.com is refused and a..b@-..example.com, which has empty atoms and labels, is accepted (C324_addresses_refuted). Proved: addresses whose name uses only letters, digits and . _ % + - and whose last label is two or more letters are accepted (C324_plain_addresses_partial).",
 "C327": "Violated: Write hands the text to the provider before it takes the history's lock, so of two concurrent writes one can reach the clipboard last and the other the history last (C327_newest_entry_refuted). The package comment says concurrent writes are supported; the comment on the type says they are not. What does hold under concurrency is C326.",
 "C329": "Violated: Render updates its state only after a successful write, but the terminal's cursor has already moved by the part that was written; the next frame moves up once more and is drawn over the rows above (C329_partial_write_refuted). The case that nothing was written is C328.",
 "C331": "Violated: the bufio.Writer inside the renderer keeps its first error for good, so after one failed write every later call fails and nothing reaches the screen (C331_retry_refuted; C330_silent_after_error says so for every history).",
 "C332": "Violated: Batch collects the results of all its commands before it returns one BatchMsg, so a message waits for the slowest command; Batch(LoadData(), Tick(5*time.Second)), the documented periodic refresh, shows its data five seconds late.",
 "C334": "Violated: the names of the arrows are the characters ↑ ↓ ← →, F1 is \"F1\", Shift+Tab is not decoded (C80), Ctrl+I and Ctrl+J are \"tab\" and \"enter\": no input ever gives one of the tutorials' names, so e.g. the counter of tutorial 01 does not react to the arrow keys, although the tutorial documents String() as returning \"up\".",
 "C336": "Violated: Render passes the text on unchanged, so \"\\x1b[2J\" in user content clears the screen. Proved for text without ESC (C336_text_without_escape_partial).",
 "C337": "Violated: the parsers never see the terminal's size and accept any int64; a report with coordinate 0 gives a negative position.",
 "C341": "Violated: joining two lines of \"a\", \"b\", \"c\", \"c\" leaves the text \"ab\", \"c\", \"c\" on a terminal that shows only \"ab\" and \"c\": the inline renderer erases the last line when it equals the one it drew at that place before (C148 reached through a component). Proved for texts whose lines never get fewer; C340 has the exact condition.",
 "C342": "Violated: with the README's own buttons, Esc closes the modal without pressing Cancel (no ButtonPressedMsg), and Enter presses whichever button has the focus; a button whose key is Esc, Tab, Shift+Tab or an arrow is never pressed by it. Proved: every key other than those six presses its button.",
 "C345": "Violated: without a validator, or with one that accepts the row outside the text, nothing is told (C345_edges_are_told_refuted); C345_edges_are_told_partial: with a validator that refuses that row the handler is called once with it and nothing changes. The reason string is not part of the model: each event's reason is the constant its call site passes.",
 "C347": "Violated: none of these components' View reads the theme (C347_refuted: no two histories differing in themes give different views, for any of the five). For text inputs and lists the theme is seen: C338, C339.",
 "C349": "Violated: C349_resized_buffer_refuted: a buffer released before Resize is handed out again with its old size (Resize replaces only the pool's New); C349_buffer_renderer_size_refuted: after a standalone buffer of another size is rendered, Width()/Height() follow it and Buffer() does not. The partial theorems: Buffer() has the size of the last Resize if no buffer got before it is ever released, and the size the renderer was made with if it is only resized to that.",
 "C350": "Violated: C350_double_release_refuted: the pool then holds the same buffer twice and Buffer() hands it out twice; drawing in one draws in the other. C350_standalone_partial: releasing a NewBuffer buffer any number of times changes nothing.",
 "C352": "Violated: C352_concurrent_update_refuted: a cell drawn after the frames were compared and written, but before Render copies the buffer, is remembered as shown: rendering again writes nothing and the screen never shows it. C352_other_buffer_partial: drawing in another buffer meanwhile disturbs nothing. (The type's own comment says that buffers are not safe for concurrent use; the package's says that they are.)",
 "C354": "Violated: with TransferForeground and CreateProcessGroup, the documented example, nobody notices that the command has stopped: the program waits for it to end (cmd.Wait is not told of stops), the command's stopped group keeps the terminal, so that neither the TUI nor the shell ever comes back and no key has an effect (C354_ctrl_z_refuted, from every state in which the command has the terminal). C354_own_group_partial: for a command in the program's own group the key stops both and the shell's fg continues both.",
 "C355": "Violated: with both options the command is started before the terminal is handed over; one that reads in between is stopped by SIGTTIN, is never continued, and the terminal is locked as in C354 (C355_early_read_refuted). C355_after_transfer_partial: once the program waits, no read stops the command; C355_own_group_reads_partial: without the options it reads whenever it likes.",
 "C356": "Violated: CreateProcessGroup alone leaves the command without the terminal: it never reads anything, and if it tries, the call never returns (C356_group_only_refuted). TransferForeground alone names a group that does not exist: if the kernel refuses, the command is killed at once; if it accepts, the first read stops the command and the program (C356_transfer_only_refuted). The other two combinations: C355_after_transfer_partial and C355_own_group_reads_partial.",
 "C357": "Violated: when the hand-over of the terminal is refused the command is killed but not waited for: a zombie stays as long as the program runs (C357_zombie_refuted). C357_reaped_partial: in all other cases nothing is left.",
 "C358": "Violated: a command started with ExecProcess shares the program's process group, the terminal is in its normal mode and the program does not catch SIGINT: Ctrl-C at a Python prompt ends the whole program (C358_ctrl_c_refuted). C358_own_terminal_partial: with both options, once the command has the terminal, no key ends or stops the program.",
 "C360": "Violated: the drawing calls read the object's handle without the lock; if another goroutine's ExitAltScreen runs between the lines of Clear, the user's own screen is blanked (C360_clear_race_refuted). Without such an overlap the user's screen comes back as it was: C235_round_trip."
}