import json
P=[]
def p(title, statement, quant, why, anchors):
    P.append(dict(id="C%02d"%(len(P)+1), title=title, statement=statement, quantifier=quant, why_tests_cant=why, anchors=anchors))
R="render/internal/"
p("Frame diff applied to the old frame gives the new frame",
  "For two frames of equal size, patching the old frame cell by cell with the operations the differ returns yields exactly the new frame: every changed cell (character, style, width) is updated and no other cell is touched.",
  "all frame sizes and all pairs of frame contents",
  "Frames are unbounded 2-D arrays; a test samples a few pairs.",
  [R+"domain/service/diff.go: DiffService.Diff", R+"domain/model/buffer.go: Buffer", R+"domain/model/cell.go: Cell.Equals"])
p("Frame diff is minimal and in reading order",
  "The differ returns one operation for each position whose cell differs (and none for a position whose cell is equal), sorted by row then column, and HasChanges/CountChanges agree with it; for a resized frame it repaints exactly the non-blank cells.",
  "all pairs of frames, including absent or differently sized old frames",
  "Minimality and order are universally quantified over positions and contents.",
  [R+"domain/service/diff.go: Diff, diffFullBuffer, HasChanges, CountChanges"])
p("The renderer keeps the terminal screen equal to the last rendered frame (characters)",
  "After any sequence of Render, Clear and Resize calls on one renderer, a VT100 terminal that interprets exactly the bytes emitted shows, at every position of the last rendered frame, that frame's character, provided every cell is a single-column character.",
  "all sequences of renderer calls, all frame contents and sizes",
  "The correctness of a differential renderer depends on the whole history of frames and on cursor-position caching.",
  [R+"application/renderer.go: Render, Clear, Resize", R+"infrastructure/ansi/writer.go: MoveCursor, WriteCell", R+"infrastructure/ansi/codes.go"])
p("The renderer keeps the terminal screen equal to the last rendered frame (styles)",
  "Under the same conditions, and if all cells switch on the same attributes and kinds of colour, every cell on the terminal also has the style (colours and attributes) of the frame's cell.",
  "all sequences of renderer calls, all frame contents and styles",
  "Attribute leakage between neighbouring cells depends on which cells a diff happens to touch, i.e. on the history.",
  [R+"infrastructure/ansi/writer.go: WriteCell", R+"domain/value/style.go: ToANSI"])
p("Rendering an unchanged frame writes nothing",
  "Rendering a frame equal to the frame currently displayed emits no bytes at all.",
  "all frames and all renderer histories leading to them",
  "Needs every frame content and every history.",
  [R+"application/renderer.go: Render", R+"domain/service/diff.go"])
p("Frame buffer reads back what was written",
  "Set/Get/Fill/SetLine/SetString/Resize obey the array laws: a write is read back at its position when in bounds, changes nothing elsewhere, out-of-bounds accesses are ignored, Resize keeps the overlapping region and blanks the rest, SetString touches only its row, from its column, within the frame.",
  "all buffer sizes, positions (including negative and out of range), strings",
  "Positions and contents are unbounded.",
  [R+"domain/model/buffer.go"])
p("Style to ANSI is faithful",
  "Interpreting the escape sequence produced for a style, starting from default attributes, gives exactly that style, and two styles give the same sequence only if they are equal.",
  "all 2^8 attribute sets times all 24-bit foreground and background colours",
  "2^8 * 2^50 styles.",
  [R+"domain/value/style.go: ToANSI, Equals", R+"domain/value/color.go"])
T="tea/internal/"
p("Key decoding is exact",
  "The key decoder maps each documented byte sequence to its key, maps no other sequence to a special key, decodes every printable ASCII byte to itself and every control byte to Ctrl+letter (except Tab, Enter, Backspace, Esc), and never decodes two different keys from one sequence.",
  "all byte sequences of every length",
  "The input space is all byte strings.",
  [T+"infrastructure/ansi/parser.go: ParseKey"])
p("Typed text reaches the program whole, in order and independently of read chunking",
  "For any input that contains no ESC byte, the key messages delivered are exactly the decoded characters in order, whatever way the bytes are split into reads.",
  "all byte streams and all ways of splitting them into chunks",
  "Chunking is decided by the kernel scheduler; there are exponentially many splits.",
  [T+"infrastructure/input/reader.go: Read", T+"infrastructure/input/cancelable_reader.go"])
p("Function and navigation keys reach the program",
  "A CSI escape sequence that the key decoder documents, arriving in one read, is delivered as exactly that key and consumes exactly its bytes.",
  "all documented sequences followed by any further input",
  "The composition of the reader's framing with the decoder must hold for every following byte string.",
  [T+"infrastructure/input/reader.go: Read", T+"infrastructure/ansi/parser.go: ParseKey"])
p("The inline renderer shows exactly the last view",
  "After any sequence of Render/Repaint/Resize calls, the rows from the top of the rendered region show exactly the lines of the last view (clipped to the last terminal height, cut to the width), rows below it are blank, and the cursor is at the start of the region's last row; for histories whose shown lines are narrower than the terminal, that never shrink onto an unchanged last line and never render an empty view right after a repaint.",
  "all sequences of views and resizes",
  "Line-diffing correctness depends on the whole history.",
  [T+"infrastructure/renderer/inline.go: Render, Repaint, Resize"])
p("Line truncation never exceeds the terminal width and keeps escape sequences",
  "A truncated line (of bytes without overlong encodings) has visual width at most the limit, keeps a prefix of the line's visible text, keeps every escape sequence before the cut intact, and a line that fits is returned unchanged.",
  "all byte strings and widths",
  "All byte strings, including malformed UTF-8 and unterminated escapes.",
  [T+"infrastructure/renderer/inline.go: truncateLine, stripANSI, visualWidth, decodeRune"])
p("Messages are delivered once, in order",
  "In every schedule, the model's Update is called with the messages accepted into the program's queue, each exactly once, in the order in which they entered the queue, with batches and sequences replaced by their members appended in order; none is dropped while the program runs.",
  "all interleavings of senders, commands, the input reader and the event loop",
  "Interleavings are unbounded.",
  [T+"application/program/program.go: Run, Start, Send, executeCommand"])
p("The event loop never blocks on itself",
  "Whenever at most 100 messages are outstanding (batches counted at every nesting level) and the queue is non-empty the event loop can take a step, and it drains the queue: handling a message never waits for room in the queue that only the loop itself could make.",
  "all batch sizes and queue occupancies, all interleavings",
  "Deadlock depends on queue occupancy at the moment of the expansion.",
  [T+"application/program/program.go: Run (BatchMsg, SequenceMsg)"])
p("Quit stops the program",
  "After a quit message is taken from the queue Update is never called again and Run returns; a call to Quit() while the loop is idle and no command waits makes the loop exit.",
  "all interleavings",
  "Whether a non-blocking send on an unbuffered channel is received depends on the schedule.",
  [T+"application/program/program.go: Run, Quit, Stop, executeCommand"])
p("At most one event loop runs per program",
  "Whatever the interleaving of Run, Start, Stop and Quit, at most one event loop of a program is active at a time, and a second Run/Start returns an error while one is active, as long as no Stop() timed out.",
  "all interleavings and timeouts",
  "Depends on scheduling and timeout expiry.",
  [T+"application/program/program.go: Run, Start, Stop"])
p("The terminal is restored when the program ends",
  "However Run ends (quit message, external quit, alt-screen failure), the terminal is left out of raw mode and out of the alternate screen, provided the terminal's own exit operations do not fail; and it is in its normal state whenever the program is stopped, as long as Resume is not called on a program that has ended.",
  "all executions including Suspend/Resume/ExecProcess calls and failures of individual terminal operations",
  "Failure points times call histories.",
  [T+"application/program/program.go: Run, Suspend, Resume", "terminal/internal/infrastructure/unix/ansi.go"])
p("Suspend and Resume are inverse",
  "Suspend leaves raw mode and the alternate screen; a following successful Resume brings back exactly the modes that were active; both are idempotent; a failed Suspend leaves the program unsuspended.",
  "all initial terminal states and all patterns of terminal-operation failures",
  "All failure points.",
  [T+"application/program/program.go: Suspend, Resume, ExecProcess"])
p("Command combinators",
  "Batch and Sequence drop nil commands, return nil for none and the command itself for one; otherwise Batch runs each exactly once and reports a permutation of the results for every completion order, and Sequence runs them in order and reports the results in order.",
  "all command lists and all completion orders",
  "n! completion orders.",
  [T+"domain/model/cmd.go: Batch, Sequence", "tea/tea.go: Batch, Sequence"])
p("Messages cross the public API unchanged",
  "Converting a message from the public type to the internal type and back (and vice versa) is the identity for every message, including arbitrarily nested batches, so Update sees what Send was given.",
  "all messages, arbitrarily nested",
  "Unbounded nesting.",
  ["tea/tea.go: convertMsgToPublic, convertMsgToInternal, convertCmdToInternal"])
A="components/input/internal/textarea/"
p("TextArea: cursor and buffer always valid",
  "After any sequence of keys and API calls the buffer has at least one line and the cursor row and column lie inside the text.",
  "all sequences of keys, texts and options",
  "Unbounded histories.",
  [A+"domain/model/textarea.go", A+"domain/service/editing.go", A+"domain/service/navigation.go", A+"infrastructure/keybindings/emacs.go"])
p("TextArea: typing edits the text at the cursor",
  "Seen as a text with a cursor, typing a character inserts it before the cursor, Enter splits the line, Backspace removes the character (or line break) before the cursor, Delete the one after; nothing else changes, and undoing by the opposite key restores text and cursor.",
  "all texts, cursor positions and characters",
  "Unbounded texts.",
  [A+"domain/service/editing.go", A+"domain/model/buffer.go"])
p("TextArea: kill and yank",
  "Killing removes exactly the text between the cursor and the end of the line (or the word), stores it as the newest kill; after a backward word kill an immediate yank restores text and cursor.",
  "all texts and cursor positions",
  "Unbounded texts.",
  [A+"domain/service/editing.go: KillLine, KillWord, KillWordBackward, Yank", A+"domain/model/killring.go"])
p("TextArea: kill ring is a bounded stack of kills",
  "The ring never exceeds its capacity, the latest kill is what yank returns, and yank-pop cycles through all stored kills.",
  "all sequences of kills, yanks and pops",
  "Unbounded histories.",
  [A+"domain/model/killring.go"])
p("TextArea: limits are respected",
  "With a maximum number of lines no key but yank makes the text exceed it; in read-only mode no key changes the text.",
  "all key sequences and limits",
  "Unbounded histories.",
  [A+"domain/service/editing.go", A+"domain/model/textarea.go: WithMaxLines, WithMaxChars, WithReadOnly"])
p("TextArea: movement stays inside the text and the cursor stays visible",
  "Left/right/up/down/home/end/word motions never change the text, move to the documented position (left and right are inverse inside the text, up/down keep the column clamped to the line), and after a cursor motion the cursor row is inside the visible window.",
  "all texts, positions, heights",
  "Unbounded texts and sizes.",
  [A+"domain/service/navigation.go", A+"domain/model/textarea.go: ensureCursorVisible"])
I="components/input/internal/input/"
p("TextInput: cursor and selection always valid",
  "After any sequence of keys the cursor lies between 0 and the number of grapheme clusters and the selection lies within the content.",
  "all key sequences over all Unicode strings",
  "Unbounded strings and histories.",
  [I+"domain/model/input.go", I+"domain/service"])
p("TextInput: edits are exact",
  "Inserting puts the rune at the cursor and changes nothing else; Backspace/Delete remove exactly one grapheme cluster; ContentParts concatenate to the content; typing over or deleting a selection removes exactly the selected clusters.",
  "all contents, cursor positions and runes",
  "All Unicode strings; grapheme clusters may merge.",
  [I+"domain/model/input.go"])
p("Viewport: scroll offset always valid and view is the right slice",
  "After any sequence of operations the offset lies in [0, max(0, lines - height)] and, with wrapping off, the visible lines are exactly the content lines from the offset, at most height of them, each cut to the longest prefix that fits the width; no call fails; text that fits is shown unchanged.",
  "all contents, sizes and operation sequences",
  "Unbounded histories.",
  ["components/viewport/internal/domain/model/viewport.go", "components/viewport/internal/domain/service"])
p("Viewport: wrapping loses no text",
  "Wrapping a line gives segments whose concatenation is the line, none wider than the width unless it is a single too-wide character and none shorter than necessary; follow mode keeps the last line visible after every content change, and until the next resize the view stays at the bottom.",
  "all lines, widths and histories",
  "Unbounded lines.",
  ["components/viewport/internal/domain/service"])
p("List: focus is always a visible, existing item",
  "After any sequence of operations with positive heights, in which the filter function is not replaced while a query is active, the focused index denotes an item of the filtered list (or none when empty) and is inside the visible window, and the view draws exactly the items of that window with their own selection and focus marks.",
  "all item lists, filters, heights and operation sequences",
  "Unbounded histories.",
  ["components/list/internal/domain/model/list.go", "components/list/internal/domain/service/navigation.go"])
p("List: filtering and selection",
  "Filtering keeps exactly the matching items in their order and clearing restores all; in single-selection mode at most one item is ever selected; toggling changes only the focused item.",
  "all item lists, filters and operation sequences",
  "Unbounded histories.",
  ["components/list/internal/domain/model/list.go"])
p("Table: selection is always valid",
  "After any sequence of operations the selected row index denotes an existing row, and the selected row is one of the rows given (none exactly when the table is empty).",
  "all tables, heights and operation sequences",
  "Unbounded histories.",
  ["components/table/internal/domain/model/table.go"])
p("Table: sorting is a stable sorted permutation",
  "Sorting by a sortable column whose values have one type (or are absent) yields a permutation of the rows, in the natural order of that type with absent values first, keeping equal rows in their order; sorting again toggles the direction, and clearing the sort restores the original order.",
  "all row lists and column values",
  "Unbounded row lists; needs transitivity of the comparison.",
  ["components/table/internal/domain/service", "components/table/internal/domain/model/table.go"])
p("Select: cursor and selection",
  "After any sequence of keys and setter calls the cursor denotes an option of the list shown (or nothing is shown), the rendered rows are the options of a window of the given height that contains the cursor, exactly the option under the cursor being drawn focused; Enter, and only Enter, confirms, and it confirms the option under the cursor (with nothing shown, the earlier choice); moving and filtering do not change a made choice; the movement keys move the cursor by one or to the ends, clamped, unbound keys and each call change only what they name, and the view is the title, the window (or a placeholder) and the filter status.",
  "all option lists, filters, heights and key sequences",
  "Unbounded histories.",
  ["components/select/internal/domain/model/select.go"])
p("MultiSelect: count limits and selection set",
  "At every moment the selected indices are distinct and at most as many as the maximum last asked for; Enter, and only Enter, confirms, exactly when the (effective) minimum is reached; Space changes only the option under the cursor and selects only if there is room; moving and filtering preserve the selection; 'a' adds the options shown, in order, as far as the maximum allows, as preselecting does with the indices given, and 'n' empties the selection; changing the limits keeps the selection, a smaller maximum its first indices; the view shows each option with its selection state and the count.",
  "all option lists, limits and key sequences",
  "Unbounded histories.",
  ["components/multiselect/internal/domain/model/multiselect.go"])
p("Form: submit only valid data, focus always valid",
  "For fields with distinct names that all supply a value, Enter submits exactly if every validator of every field accepts the field's current value, and otherwise lists exactly the complaints; no other key submits; the focus is always on an existing field, Tab visits all fields in turn and Shift-Tab takes it back; other keys and messages reach only the focused field; leaving a field marks it touched, a message that changes one marks it dirty and nothing else does; values and errors are found under the field's name; Escape and Ctrl-C, and nothing else, quit.",
  "all field lists, validators and key sequences",
  "Unbounded histories and arbitrary validators.",
  ["components/form/internal/domain/model/form.go"])
p("Confirm: the safe default and the final answer",
  "With the standard buttons Enter answers what the focused button says (initially No), Esc cancels, y/n/c in either case answer Yes/No/Cancel, other letters do nothing, and once answered no key changes the answer or sends another message; with any labels the focus is always on an existing button and Left/Right/Tab move it round.",
  "all key sequences and button sets",
  "Unbounded histories.",
  ["components/confirm"])
p("Modal: centred inside the terminal, focus cycles",
  "A centred modal that fits the known terminal size is placed fully inside it, centred within one cell; the focus always denotes an existing button, Tab cycles through all of them, Enter presses the focused one, a button's own key presses it, Escape hides, hidden modals ignore all messages.",
  "all sizes, button lists and key sequences",
  "All sizes and histories.",
  ["components/modal"])
p("Progress: bar geometry",
  "The percentage is always within 0..100, the filled part is the floor of width times percentage over 100, filled and empty parts add up to the width, the filled part grows with the percentage, is empty at 0 and full exactly at 100; the percentage text is the percentage; every call changes only what it names, and View is the label, the bar in the characters set and, if asked for, the text.",
  "all widths and percentages, all update sequences",
  "All widths.",
  ["components/progress"])
M="mouse/internal/"
p("SGR mouse reports decode to what happened",
  "Every press, release or wheel report a terminal sends in the SGR encoding is decoded to its kind, button, modifiers and zero-based position, whatever state the mouse handler is in, and the library's own SGR encoder is inverted by its decoder.",
  "all events and positions",
  "Unbounded coordinates times all button/modifier combinations.",
  [M+"infrastructure/parser"])
p("Mouse clicks are counted correctly",
  "A release without a drag yields one click; consecutive clicks at the same place and button within the interval count 1, 2, 3 and then start again at 1; any other click counts 1; Reset makes the processor as new.",
  "all event sequences and timings",
  "Unbounded histories and real-time gaps.",
  [M+"domain/service", M+"application"])
p("Mouse drag detection",
  "When motion events reach the event processor, a motion is turned into a drag event exactly when a button is held and the pointer is at least the threshold away from the press point; the drag carries the press's button and modifiers, ends with the release, and a release that far away is no click.",
  "all event sequences and thresholds",
  "Unbounded histories.",
  [M+"domain/service", M+"application"])
p("Menus open fully on screen",
  "A menu that fits the screen, opened at a non-negative cursor position, lies wholly on screen: at the cursor where there is room, else against the right or bottom edge; a menu that does not fit opens at (0,0).",
  "all cursor positions, menu and screen sizes",
  "All geometries and histories.",
  [M+"domain/service"])
L="layout/internal/"
p("Flexbox main axis: items in order, not overlapping, inside the container",
  "For every justify mode, if the items with their gaps fit, items are placed in order, consecutive items at least gap apart without overlap, first at >= 0 and last ending within the container.",
  "all item sizes, gaps, container sizes and modes",
  "All integer geometries, including rounding.",
  [L+"domain/service/flexbox_layout_service.go"])
p("Flexbox cross axis and alignment",
  "For every align mode an item that fits lies inside the container on the cross axis - at the near edge, at the far edge or with margins differing by at most one cell - and one that does not fit starts at the near edge; the same holds of a box aligned in its parent, in both directions.",
  "all sizes and modes",
  "All integer geometries.",
  [L+"domain/service/flexbox_layout_service.go", L+"domain/value/alignment.go"])
p("Size constraints",
  "An exact size wins; otherwise constraining yields the nearest size within [min,max] for every bound that is set, leaves a size already within bounds unchanged, and is idempotent; contradictory bounds are refused when set.",
  "all sizes and bounds",
  "All integers.",
  [L+"domain/value/size.go"])
p("Measured size equals rendered size",
  "The width and, without a border, the height reported by measuring a box equal the number of columns and lines of its rendering, for printable ASCII text and a box without size constraints.",
  "all contents, paddings, borders, margins and sizes",
  "All contents.",
  [L+"domain/service/measure_service.go", L+"domain/service/render_service.go"])
S="style/internal/"
p("Colours are mapped to the nearest terminal colour",
  "The 16-colour code chosen minimises the distance to the requested colour, for a colour that is not close to grey the 256-colour code is a nearest entry of the colour cube, and codes are always in range.",
  "all 2^24 colours",
  "2^24 colours times capabilities.",
  [S+"domain/service/color_adapter.go"])
p("Borders, padding and margin produce a rectangle of the predicted size",
  "Padding and margin of a non-empty text add exactly their amounts to width and height; a block with a border of one-cell characters (without border colour) has equal-width lines and contains the content unchanged; with all four sides, padding and margin the rendering is a rectangle of the predicted size.",
  "all contents, sides and spacings",
  "All contents.",
  [S+"application/command/border_renderer.go", S+"domain/service/spacing_calculator.go"])
p("Text alignment fills the requested box",
  "Aligning a text whose lines fit, or are ASCII, within a box yields exactly the requested width and height, keeps each line contiguous (ASCII lines that are too wide are cut to their first characters) and puts the blank space on the documented side.",
  "all texts, widths, heights and modes",
  "All texts.",
  [S+"domain/service/text_aligner.go"])
p("Colour hex notation round-trips",
  "Parsing the hex form of a colour gives the colour back, three-digit forms double each digit, and malformed strings are rejected.",
  "all 2^24 colours and all strings",
  "2^24 colours and all strings.",
  [S+"domain/value/color.go: Hex, Color.Hex, FromANSI256"])
K="clipboard/internal/"
p("Clipboard history is bounded and keeps the newest entries",
  "After any sequence of recorded writes, clearing and expiry (with a clock that does not run backwards), the history holds at most its maximal number of entries and exactly the most recent ones still wanted, in order; rejected (empty) contents change nothing; expiry removes exactly the entries older than the maximal age; and every entry keeps its content, type and time.",
  "all operation sequences and times",
  "Unbounded histories.",
  [K+"domain/service/clipboard_history.go"])
p("OSC 52 transfers any data intact",
  "Decoding the base64 payload of the sequence written for any data gives the data back, and the payload contains no control byte that could end the sequence early.",
  "all byte strings",
  "All byte strings.",
  [K+"infrastructure/osc52/osc52_provider.go"])
p("Styled text survives the HTML clipboard",
  "Decoding the HTML encoding of any non-empty text and valid style gives back the same text and style.",
  "all texts and styles",
  "All texts including markup characters.",
  [K+"domain/service/richtext_codec.go: EncodeHTML, DecodeHTML"])
p("Which texts survive the RTF clipboard",
  "Decoding the RTF encoding of a non-empty text gives the text back exactly when it is ASCII without backslash, braces and line breaks and neither starts nor ends with white space; its style then comes back too (the colour in upper case).",
  "all texts and styles",
  "All texts including control characters.",
  [K+"domain/service/richtext_codec.go: EncodeRTF, DecodeRTF"])
p("Clipboard provider choice",
  "Reads and writes go to the first available provider and to no other, and with history enabled a text is recorded exactly when its write succeeded.",
  "all provider lists, availabilities and failures",
  "All provider behaviours.",
  [K+"domain/service/clipboard_service.go", K+"application/clipboard_manager.go"])
p("Terminal cursor and clear operations",
  "On a VT100 terminal, ClearLines(n) leaves the n lines ending at the cursor's line blank with the cursor at the start of the first, lines above untouched; WriteAt puts text at the 0-based position; relative moves by n <= 0 do nothing.",
  "all screens, positions and counts",
  "All screens.",
  ["terminal/internal/infrastructure/unix/ansi.go"])
p("Key names identify keys",
  "The textual name a program matches on (KeyMsg.String) identifies the key: two keys the decoder can produce with equal names are the same key with the same modifiers. The name is the documented one, with the modifiers in front.",
  "all pairs of decodable byte sequences",
  "Quantifies over all pairs of inputs.",
  ["tea/internal/domain/model/msg.go: KeyMsg.String, keyTypeName", "tea/internal/infrastructure/ansi/parser.go: ParseKey"])
p("External commands run on a restored terminal",
  "ExecProcess (and its terminal-control variant) runs the command only while the terminal is out of raw mode and out of the alternate screen, and afterwards modes, suspension state and terminal foreground are what they were before the call, if the program was not suspended.",
  "all program states, device failures and options",
  "Quantifies over every failure point of the terminal operations.",
  ["tea/internal/application/program/program.go: ExecProcess", "tea/internal/application/program/tty_control_linux.go: execWithTTYControl"])
T2="components/input/internal/textarea/domain/"
p("TextArea: the movement validator fences the cursor",
  "With a movement validator, a movement key or Backspace moves the cursor only to positions the validator accepts, Home goes to the first accepted column, and the cursor observer is told of exactly the moves made.",
  "all validators, texts, positions and keys",
  "All validators and histories.",
  [T2+"service/navigation.go", T2+"service/editing.go: Backspace", "components/input/textarea.go: OnMovement, OnCursorMoved, OnBoundaryHit"])
p("TextArea: the cursor is always on screen",
  "After every movement and editing key the cursor lies inside the visible window (rows, and columns when not wrapping), and the visible lines are exactly the lines of that window.",
  "all histories of keys and API calls",
  "Unbounded histories.",
  [T2+"model/textarea.go: ensureCursorVisible, withCursor, MoveCursorToEnd, SetCursorPosition", T2+"service/editing.go: KillLine"])
p("TextInput: what is drawn is a window of the content at the cursor",
  "View never fails; a focused input with ASCII content draws at most width columns of its content, a contiguous window containing the cursor, with the cursor cell on the character under the cursor.",
  "all contents, cursor positions and widths",
  "All contents and widths.",
  ["components/input/input.go: View, renderContent, renderCursor"])
p("TextInput: validators",
  "Chain accepts exactly the contents every validator accepts and reports the first error; Range is MinLength and MaxLength together; every violation is reported with its own error.",
  "all validator lists and contents",
  "All contents.",
  ["components/input/internal/input/domain/service/validation.go", "components/input/input.go"])
p("Viewport: keys, wheel and drag scroll by their documented amounts",
  "Each bound key scrolls by its documented amount (line, page, half page, top, bottom), the wheel by the configured number of lines, and a drag to the offset at the press minus the rows moved, always clamped to the content; other keys and, with the mouse off, mouse events change nothing.",
  "all contents, sizes, histories and events",
  "Unbounded contents and histories.",
  ["components/viewport/viewport.go: Update, handleMouseMsg", "components/viewport/internal/infrastructure/keybindings.go", "components/viewport/internal/domain/service/scroll.go"])
p("List: navigation keys move the focus by the documented amount",
  "Up and Down move the focus cyclically, Page keys by the height clamped to the list, Home and End to its ends, changing nothing else; on an empty list they do nothing; only q and Ctrl-C return the quit command.",
  "all item lists, histories and keys",
  "Unbounded lists and histories.",
  ["components/list/list.go: Update, handleKey", "components/list/internal/domain/service/navigation.go", "components/list/internal/infrastructure/keybindings.go"])
p("List: typing narrows the list by the typed text",
  "With the filter shown, after typing one character the items offered are those matching it, and Backspace offers all items again.",
  "all item lists and typed texts",
  "Unbounded texts.",
  ["components/list/list.go: handleKey"])
p("List: replacing the filter function while a query is active",
  "The focus stays on an existing item when the filter function is replaced at any time.",
  "all lists, queries and filter functions",
  "All filter functions.",
  ["components/list/internal/domain/model/list.go: WithFilter, applyFilter, resetFocus"])
p("Table: navigation keys move the selection by the documented amount",
  "Up, Down, Page Up, Page Down, Home and End move the selection by one row, by the visible rows, or to the ends, clamped to the table, and change neither rows, sorting nor sizes; c clears the sort and every other key does nothing; each call changes what it names and nothing else.",
  "all tables, heights and histories",
  "Unbounded tables and histories.",
  ["components/table/table.go: handleKeyPress, pageUp, pageDown", "components/table/internal/domain/model/table.go"])
p("Table: cells and lines have exactly the configured widths",
  "Each cell is its text padded on the aligned side or cut with an ellipsis to exactly the column width in bytes; all lines of the view have the same width; the view is the headings (with a marker on the sorted column only), a rule, and one line per visible row showing that row's cells in column order, the mark being on the selected row's line only.",
  "all texts, widths, alignments and histories",
  "All texts and widths.",
  ["components/table/table.go: View, formatCell"])
p("Table: the selected row is among the drawn rows",
  "After any sequence of operations the selected row is inside the visible window and the view does not crash.",
  "all heights and histories",
  "Unbounded histories.",
  ["components/table/internal/domain/model/table.go: WithHeight, WithShowHeader, VisibleRows"])
p("Table: the view is aligned on screen, fits its height and shows every cell",
  "In display columns all lines line up, the view has at most height lines and each fitting cell's text is shown in full.",
  "all texts and histories",
  "All texts.",
  ["components/table/table.go: View, formatCell"])
p("Table: sorting columns of mixed types",
  "Sorting orders the rows consistently whatever the dynamic types of the values.",
  "all values",
  "All combinations of types.",
  ["components/table/internal/domain/service/sort.go: Compare"])
p("Select, MultiSelect: disabled options cannot be chosen",
  "An option made with WithDisabled(true) (documented as 'cannot be selected') is never confirmed by Select nor toggled by MultiSelect.",
  "all option lists and key sequences",
  "Any reachable cursor position may be on a disabled option.",
  ["components/select/internal/domain/value/option.go Disabled", "components/select/internal/domain/model/select.go Select", "components/multiselect/internal/domain/model/multiselect.go Toggle"])
p("Select: typing filters by the text typed",
  "In a filterable Select, typing characters not bound to an action extends the filter text by them, Backspace takes back an ASCII character and Escape empties it; whenever a key changes the text (in Select or MultiSelect) the options shown are exactly those the filter accepts, in their order, with the cursor clamped to them. Unless filtering was switched on, nothing typed filters.",
  "all texts, option lists and filter functions",
  "All texts and filters.",
  ["components/select/select.go handleFilterInput", "components/select/internal/infrastructure/keyboard.go"])
p("Select, MultiSelect: Ctrl-C quits",
  "When the user presses Ctrl-C in a Select or MultiSelect, the component returns the quit command.",
  "all byte inputs and chunkings arriving from the terminal",
  "The composition of parser and component over all inputs.",
  ["components/select/select.go handleKey", "components/multiselect/multiselect.go handleKey", "tea/internal/infrastructure/ansi/parser.go ParseKey"])
p("MultiSelect: confirming returns at least the minimum of options",
  "Without preselected indices, the values confirmed are the selected options, in list order, one per selected index, so at least the minimum number.",
  "all histories including preselected indices",
  "All preselections and histories.",
  ["components/multiselect/multiselect.go Selected", "components/multiselect/internal/domain/value/selection.go WithSelected"])
p("Form: never submitted with an invalid field",
  "Whatever the field components and names, a form is submitted only if every field's own value passes the field's validators.",
  "all field lists, components and names",
  "All component behaviours.",
  ["components/form/form.go extractFieldValues", "components/form/internal/domain/model/form.go ValidateAll"])
p("Form: length validators count characters",
  "For ASCII text MinLength(n) accepts exactly the texts of at least n characters and MaxLength(n) exactly those of at most n; for any text the minimum never rejects one that is long enough and the maximum never accepts one that is too long; Required accepts exactly the values that are present and not blank.",
  "all texts and bounds",
  "All Unicode texts.",
  ["components/form/internal/domain/value/validator.go MinLength, MaxLength"])
p("Form, Confirm, Modal: Shift+Tab moves back",
  "Pressing Shift+Tab in a terminal moves the focus to the previous field or button.",
  "all byte inputs and chunkings from the terminal",
  "The composition of parser and components over all inputs.",
  ["components/form/internal/infrastructure/keyboard.go", "components/confirm/internal/infrastructure/keyboard.go", "components/modal/internal/infrastructure/keybindings.go", "tea/internal/infrastructure/ansi/parser.go"])
p("Form: forms built from a common form are independent",
  "Adding a field to a form whose field list is its own (as after any Tab, Enter or field update) or is full changes no form built before.",
  "all building histories, all slice capacities",
  "Aliasing shows only for certain lengths and capacities.",
  ["components/form/form.go Field"])
p("Confirm: custom buttons keep their meaning",
  "With labels other than Yes, No and Cancel, with or without a Cancel button: Enter answers Yes on the affirmative button, No on the negative and Canceled on Cancel; DefaultYes focuses the affirmative button and, without a Cancel button, DefaultNo the negative; the first byte of the affirmative label, as a character in either case, answers Yes, and that of the negative label, if a different letter, answers No.",
  "all labels",
  "All label pairs.",
  ["components/confirm/internal/domain/model/confirm.go labelToResult, WithDefaultNo, ConfirmKey"])
p("Confirm: Ctrl-C cancels",
  "Pressing Ctrl-C cancels the confirmation, and no control key answers it.",
  "all states and inputs",
  "The composition of parser and component.",
  ["components/confirm/internal/infrastructure/keyboard.go"])
p("Modal: centred for the current terminal size",
  "A resize message that arrives while the modal is shown sets the size it is centred for, and changes nothing else.",
  "all resize, show and hide histories",
  "All histories.",
  ["components/modal/modal.go Update"])
p("Modal: the drawn box fills the modal's rectangle",
  "View of a hidden modal is empty. For a visible modal at least 4 cells wide it is the background (if dimming is on: the whole terminal, blank exactly inside the modal's rectangle), the top border, the title and a separator if there is a title, the first content lines as many as fit, a separator and the buttons if there are any, the focused one and no other between angle brackets, and the bottom border, every text padded or cut with an ellipsis; if the modal is also at least 5 high every row starts at its column, has its width and lies within its rows. Cells are bytes of text (ASCII texts).",
  "all sizes, titles, contents and buttons",
  "All sizes and texts.",
  ["components/modal/modal.go renderModalBox, padOrTruncate"])
p("Progress: increments saturate",
  "Increment and Decrement by any int give the nearest value in 0..100.",
  "all ints",
  "Overflow happens only at extreme values.",
  ["components/progress/internal/domain/value/percentage.go Add, Subtract"])
p("Spinner: frames in order, one tick at a time",
  "After n ticks the spinner shows frame n modulo the number of frames; each tick asks for exactly one more, other messages change nothing; every style has at least one frame and a positive rate; every named style has frames of one width without control characters, an unknown name gives dots, ticks come fps times a second, and a label changes nothing but the text after the frame.",
  "all styles and message sequences",
  "Unbounded animations.",
  ["components/progress/internal/domain/model/spinner.go", "components/progress/internal/domain/value/spinner_style.go", "components/progress/spinner.go Update"])
p("Spinner: custom frames are shown",
  "NewSpinnerCustom(frames, fps) animates the given frames.",
  "all frame lists and rates",
  "All frame lists.",
  ["components/progress/spinner.go NewSpinnerCustom"])
p("Spinner: several spinners animate independently",
  "Several spinners in one program each keep exactly one tick pending, so each advances at its own rate.",
  "any number of spinners and ticks",
  "Unbounded numbers of spinners and ticks.",
  ["components/progress/spinner.go Update, tick", "tea/tea.go Tick"])
p("Mouse motion and drags reach the program",
  "Moving the pointer with a button held is delivered by ParseSequence as motion or drag events, and a press-move-release gesture beyond the drag threshold is a drag and not a click.",
  "all byte sequences a terminal may send",
  "No finite test covers all gestures.",
  ["mouse/internal/infrastructure/parser/sgr_parser.go", "mouse/internal/application/mouse_handler.go", "mouse/mouse.go ParseSequence"])
p("X10 mouse reports decode to what happened",
  "Every press, release and wheel report in the X10 encoding is decoded to its kind, button, modifiers and position.",
  "all X10 reports",
  "All button and modifier combinations and positions.",
  ["mouse/internal/infrastructure/parser/x10_parser.go"])
p("urxvt mouse reports decode to what happened",
  "Every press and wheel report in the urxvt encoding is decoded to its kind, button, modifiers and position.",
  "all urxvt reports",
  "Unbounded coordinates.",
  ["mouse/internal/infrastructure/parser/urxvt_parser.go"])
p("The X10 encoder is inverted by the decoder",
  "Formatting an event with the X10 encoder and parsing the result gives the position back.",
  "all events",
  "All positions.",
  ["mouse/internal/infrastructure/parser/x10_parser.go FormatSequence"])
p("A dragging gesture is never also a click",
  "If drag events were reported between a press and its release, the release is not reported as a click.",
  "all event histories",
  "Unbounded pointer paths.",
  ["mouse/internal/application/event_processor.go", "mouse/internal/domain/service/drag_tracker.go"])
p("Hover follows the pointer",
  "After any history, the hovered component is the first listed area the pointer is inside of (none if there is none), and each update reports enter, move, leave or motion according to how the component under the pointer changed; two areas overlap exactly when some position is inside both.",
  "all histories of pointer positions and component areas",
  "Unbounded histories and geometries.",
  ["mouse/internal/domain/service/hover_tracker.go", "mouse/internal/domain/value/bounding_box.go"])
p("Wheel events scroll the configured number of lines",
  "A wheel-up event scrolls by minus, a wheel-down event by plus the configured number of lines (3 when not positive), any other event by zero, and a terminal's wheel report gives such an event.",
  "all events and settings",
  "All events and states.",
  ["mouse/internal/domain/service/scroll_calculator.go"])
p("Mouse reporting is switched off again",
  "After any history of Enable and Disable calls, any of whose writes may fail, the terminal's mouse modes are off whenever IsEnabled is false; a successful Disable leaves them all off, a successful Enable leaves SGR button-event reporting on; no other mode is touched; Disable when not enabled writes nothing.",
  "all histories of calls and write failures",
  "Unbounded histories with failures at any write.",
  ["mouse/internal/infrastructure/platform/terminal_mode.go", "mouse/internal/infrastructure/ansi/mouse_ansi.go"])
p("Stretch fills the cross axis",
  "With cross-axis alignment stretch (the default) every item is drawn as large as the container is across.",
  "all containers, items and sizes",
  "All geometries.",
  ["layout/layout.go:Flex.Render", "layout/internal/domain/service/flexbox_layout_service.go"])
p("A bordered box of ASCII text is a closed frame around its text",
  "Every line of the rendering of a bordered box has the same length; each content line is present, unchanged and in order, between two bars; the edges are right above and below the padded content.",
  "all printable ASCII contents, paddings and margins",
  "All texts and spacings.",
  ["layout/internal/domain/service/render_service.go"])
p("A bordered box of any text is a closed frame",
  "The lines of a bordered box have the same length for every text, also beyond ASCII.",
  "all texts",
  "All of Unicode.",
  ["layout/internal/domain/service/render_service.go:Render"])
p("A box renders at the size it is given",
  "Width, Height and their bounds determine the size of the rendered box.",
  "all boxes and sizes",
  "All boxes and sizes.",
  ["layout/layout.go:Box.Width", "layout/layout.go:Box.Render", "layout/internal/domain/service/render_service.go"])
p("The picture of a flex container",
  "Rendering a container at w by h gives exactly h lines of w characters; every item of ASCII text without size constraints is shown at its position, unclobbered by its neighbours, cut only by the container's edges; everything else is blank.",
  "all containers, items, modes, gaps and sizes",
  "All item lists and all cells.",
  ["layout/layout.go:Flex.Render", "layout/internal/domain/service/flexbox_layout_service.go"])
p("Rendering a box does not change it",
  "After Render a box behaves as if it had not been rendered: later setters have the same effect on measuring and layout.",
  "all boxes and later setters",
  "All call histories.",
  ["layout/layout.go:Box.Render"])
p("Grey colours are mapped to the nearest 256-colour entry",
  "For a grey or nearly grey colour the 256-colour code is the nearest entry of the palette.",
  "all 2^24 colours",
  "All colours.",
  ["style/internal/domain/service/color_adapter.go:rgbToANSI256"])
p("256-colour palette entries survive conversion",
  "Converting the colour of a palette entry back to a code gives an entry of the same colour.",
  "all 256 codes",
  "All codes.",
  ["style/internal/domain/value/color.go:FromANSI256", "style/internal/domain/service/color_adapter.go"])
p("Border colours are mapped like text colours",
  "A border given a colour is shown in the same terminal colour as a text given that colour.",
  "all 2^24 colours and capabilities",
  "All colours.",
  ["style/internal/application/command/border_renderer.go"])
p("Text that is too wide is cut to the width",
  "Aligning a text wider than the box gives the longest prefix that fits, filled to the width, for every text.",
  "all texts and widths",
  "All of Unicode.",
  ["style/internal/domain/service/text_aligner.go:AlignHorizontal"])
p("Width and Height set the size of a rendering",
  "A style with Width w and Height h renders every text at exactly w by h.",
  "all styles and texts",
  "All styles and texts.",
  ["style/style.go:Style.Render", "style/internal/application/command/render.go"])
p("What a styled text looks like on the terminal",
  "Rendering a text that contains no escape sequences shows exactly the laid-out text, every character with the style's colours (at the style's colour capability), and decorations, and leaves the terminal in its default rendition.",
  "all styles without border colour, all texts",
  "All styles, texts and capabilities.",
  ["style/style.go:Style.Render", "style/internal/application/command/render.go", "style/internal/infrastructure/ansi/code_generator.go"])
p("A coloured border keeps the style of its content",
  "Giving a border a colour changes the colour of the border only.",
  "all styles and texts",
  "All styles and texts.",
  ["style/internal/application/command/border_renderer.go", "style/internal/application/command/render.go"])
p("Without colour support no colour escape is written",
  "With the NoColor capability colours produce no escape sequence.",
  "all styles and texts",
  "All styles and texts.",
  ["style/internal/application/command/border_renderer.go:applyBorderColorToSides", "style/internal/domain/service/color_adapter.go"])
p("Size bounds limit the rendering",
  "A style with MinWidth, MaxWidth, MinHeight or MaxHeight renders every text within them, and a text within them unchanged.",
  "all styles and texts",
  "All styles and texts.",
  ["style/internal/application/command/render.go:validateSizeConstraints", "style/style.go:Style.Render"])
p("Border sides are switched individually",
  "BorderTop, BorderBottom, BorderLeft and BorderRight decide, each for its side, whether it is shown.",
  "all orders of the calls",
  "All call orders.",
  ["style/internal/domain/model/style.go:Border", "style/internal/domain/model/style.go:BorderTop"])
p("Style setters are independent",
  "A setter sets its attribute and no other: setters of different attributes can be called in any order, the last call of a setter wins, and no sequence of calls makes a spacing or a size negative.",
  "all call sequences",
  "All call sequences.",
  ["style/internal/domain/model/style.go", "style/internal/domain/value/padding.go", "style/internal/domain/value/size.go"])
p("Merging themes",
  "Merging takes field by field the overriding theme's value where it is set and the base's otherwise, and its name.",
  "all pairs of themes",
  "All field combinations.",
  ["style/internal/domain/model/theme.go:Merge"])
p("A complete theme replaces another when merged over it",
  "Merging a theme in which every field is set gives that theme.",
  "all pairs of themes",
  "All themes.",
  ["style/internal/domain/model/theme.go:Merge", "style/internal/domain/model/theme_presets.go"])
p("Theme manager under concurrency",
  "Whatever the interleaving of calls from several goroutines, each call behaves as in a sequential execution; the themes handed back by SetTheme together with the current one are the initial one and those set; presets are found by name in any case and unknown names change nothing.",
  "all programs and schedules",
  "All interleavings.",
  ["style/internal/application/theme_manager.go", "style/internal/domain/model/theme_presets.go:PresetByName"])
p("A margin is as wide as the frame it surrounds",
  "Blank margin lines above and below a framed text are as wide as the frame.",
  "all styles and texts",
  "All styles and texts.",
  ["style/internal/domain/service/spacing_calculator.go:ApplyMargin", "style/internal/application/command/border_renderer.go"])
p("Empty texts are padded too",
  "Padding and margin are applied to every text, the empty one included.",
  "all texts and spacings",
  "All texts.",
  ["style/internal/domain/service/spacing_calculator.go:ApplyPadding"])
p("Clipboard history is listed newest first",
  "GetHistory returns every entry once and never an older one before a newer one, the newest first when they were recorded at different times; GetRecentHistory returns the first of these.",
  "all histories",
  "All histories, equal times included.",
  ["clipboard/internal/domain/service/clipboard_history.go:GetAll", "clipboard/clipboard.go:GetHistory"])
p("What was written can be read back",
  "After a successful Write of a text, Read returns it, whenever the first available provider is the system clipboard; so it is with New outside SSH.",
  "all provider chains and environments",
  "All provider chains.",
  ["clipboard/internal/application/clipboard_manager.go", "clipboard/internal/infrastructure/osc52/osc52_provider.go:Read", "clipboard/clipboard.go:Builder.Build"])
p("The reported result of an OSC 52 write is what happened",
  "Under every interleaving of the writing goroutine, the timer and the caller: success is reported only if the sequence was written and flushed, the goroutine always can end, and failure is reported only after the time was up or the writer had finished.",
  "all interleavings",
  "All schedules.",
  ["clipboard/internal/infrastructure/osc52/osc52_provider.go:Write"])
p("Restoring from the clipboard history",
  "After any calls, restoring an entry writes its content to the clipboard and, when that succeeds, records it as the newest entry with its type; when it fails nothing changes; an unknown id does nothing.",
  "all call sequences, ids and environments",
  "All histories.",
  ["clipboard/clipboard.go:RestoreFromHistory", "clipboard/internal/application/clipboard_manager.go"])
p("Converting between HTML and RTF",
  "ConvertHTMLToRTF of the HTML of a styled text, and ConvertRTFToHTML of the result, keep text and style for every text that survives RTF; a document of tags only converts to nothing.",
  "all such texts and styles",
  "All texts and styles.",
  ["clipboard/clipboard.go:ConvertHTMLToRTF", "clipboard/clipboard.go:ConvertRTFToHTML", "clipboard/internal/domain/service/richtext_codec.go"])
p("Plain text of an HTML document",
  "For any document of escaped texts and tags the plain text is the concatenation of the texts.",
  "all documents and entity tables",
  "All documents.",
  ["clipboard/clipboard.go:ReadHTMLAsPlainText", "clipboard/internal/domain/service/richtext_codec.go:StripHTMLTags"])
p("No tag is left in plain text read from HTML",
  "ReadHTMLAsPlainText removes all tags: the text it returns contains none.",
  "all documents",
  "All documents.",
  ["clipboard/internal/domain/service/richtext_codec.go:StripHTMLTags"])
p("Every text survives the RTF clipboard",
  "Decoding the RTF encoding of any text and valid style gives back the same text and style.",
  "all texts and styles",
  "All texts including control characters.",
  ["clipboard/internal/domain/service/richtext_codec.go: EncodeRTF, DecodeRTF"])
p("ClearLine keeps the cursor",
  "ClearLine blanks exactly the line holding the cursor and leaves the cursor where it was.",
  "all screens and cursor positions",
  "All screens and positions.",
  ["terminal/terminal.go", "terminal/internal/infrastructure/unix/ansi.go:ClearLine"])
p("ClearLines clears n lines from the cursor",
  "ClearLines(n) clears exactly the n lines starting at the cursor's line: nothing above the cursor and nothing below the n lines is erased.",
  "all screens, positions and counts",
  "All screens and counts.",
  ["terminal/terminal.go", "terminal/internal/infrastructure/unix/ansi.go:ClearLines"])
p("Save/RestoreCursorPosition form a stack",
  "RestoreCursorPosition returns the cursor to the position of the matching SaveCursorPosition, whatever happened in between, also when the pairs are nested.",
  "all call sequences",
  "All sequences of calls between the pair.",
  ["terminal/terminal.go", "terminal/internal/infrastructure/unix/ansi.go:SaveCursorPosition", "terminal/internal/infrastructure/unix/ansi.go:RestoreCursorPosition"])
p("SetCursorPosition is exact or reported",
  "SetCursorPosition(x, y) puts the cursor at the 0-based cell (x, y) when it exists and returns an error when it does not.",
  "all screens and positions",
  "All positions.",
  ["terminal/terminal.go", "terminal/internal/infrastructure/unix/ansi.go:SetCursorPosition"])
p("Terminal modes follow the device",
  "After any sequence of terminal calls, some of which may fail: IsInAltScreen tells whether the terminal shows the alternate screen; the tty settings are the original ones unless IsInRawMode, and then the raw version of the original ones; the cursor is hidden only if the last successful HideCursor/ShowCursor was HideCursor. Entering a mode twice or leaving it when not in it is an error without effect. Leaving the alternate screen brings back the content and cursor of the normal one.",
  "all call sequences and all patterns of I/O failures",
  "All histories and failure points.",
  ["terminal/internal/infrastructure/unix/ansi.go:EnterAltScreen", "terminal/internal/infrastructure/unix/ansi.go:EnterRawMode"])
p("ColorDepth recognises terminals",
  "ColorDepth is 16777216 exactly when COLORTERM is truecolor or 24bit, otherwise 256 when TERM contains 256color, otherwise 16.",
  "all environment values",
  "All strings.",
  ["terminal/internal/infrastructure/unix/ansi.go:ColorDepth"])
p("TextInput: control combinations type nothing",
  "A key pressed with Ctrl that has no binding leaves the content of a text input unchanged.",
  "all keys, contents and cursor positions",
  "All keys and contents.",
  ["components/input/internal/input/infrastructure/keybindings.go: Handle"])
p("Viewport: a wrapped view fits the height",
  "With line wrapping on, the view never has more rows than the viewport's height.",
  "every history of calls, keys and mouse events, every content, every character-width function",
  "depends on every combination of content, width and offset",
  ["components/viewport/internal/domain/model/viewport.go:VisibleLines", "components/viewport/internal/domain/model/viewport.go:wrapVisibleLines"])
p("Viewport: follow mode keeps the last line visible across resizes",
  "In follow mode the last content line stays visible when the viewport is resized.",
  "every history of calls and every new size",
  "the failing resize depends on the history of content and sizes",
  ["components/viewport/internal/domain/model/viewport.go:WithSize"])
p("Viewport: scrolling to an end is a one-time action",
  "ScrollToTop, ScrollToBottom and SetYOffset move the view once, as documented: content appended later does not move it again.",
  "every history of calls followed by any number of appends",
  "quantifies over all later histories",
  ["components/viewport/viewport.go:ScrollToBottom", "components/viewport/internal/domain/model/viewport.go:ScrollToBottom"])
p("TextInput: the cursor stays right after what was typed",
  "After typing a character the text before the cursor is the old text before it followed by that character, and the text after the cursor is unchanged.",
  "every content, cursor position, typed character and cluster segmentation",
  "depends on how clusters form for all texts",
  ["components/input/internal/input/domain/model/input.go:InsertRune"])
p("TextInput: a window of multi-byte content is drawn whole",
  "Whatever characters the content has, what a focused input draws is well-formed text: a window of whole characters.",
  "every content, width and cursor position",
  "depends on all contents and widths",
  ["components/input/input.go:renderContent"])
p("TextInput: length validators count characters",
  "MinLength, MaxLength and Range bound the number of characters.",
  "every content and limit",
  "universally quantified over texts",
  ["components/input/internal/input/domain/service/validation.go:MinLength", "components/input/internal/input/domain/service/validation.go:MaxLength"])
p("Frame diff: HasChanges agrees with Diff for absent and resized frames",
  "HasChanges reports a change exactly when Diff returns operations, also when a frame is absent or resized.",
  "all pairs of frames, including absent or differently sized ones",
  "quantifies over all frame pairs",
  ["render/internal/domain/service/diff.go: Diff, HasChanges"])
p("The renderer keeps wide characters on screen",
  "After any sequence of renders the terminal shows the last frame's characters also when cells hold double-width characters.",
  "all sequences of frames with wide cells",
  "depends on the history of frames",
  ["render/internal/application/renderer.go: Render"])
p("The renderer shows each cell in its own style",
  "Every cell on the terminal has the style of the frame's cell, whatever styles the neighbouring cells have.",
  "all frames and styles",
  "depends on every sequence of styles",
  ["render/internal/infrastructure/ansi/writer.go: WriteCell"])
p("An escape sequence split across reads is the same key",
  "The keys delivered do not depend on how the bytes of an escape sequence are split into reads.",
  "all input byte sequences and all ways to split them",
  "quantifies over all splits",
  ["tea/internal/infrastructure/ansi/parser.go", "tea/internal/infrastructure/input/reader.go: Read"])
p("F1 to F4 reach the program",
  "The SS3 sequences of F1..F4 are delivered as those keys.",
  "the documented sequences with any following input",
  "must hold whatever follows",
  ["tea/internal/infrastructure/ansi/parser.go"])
p("Text after Escape is delivered",
  "Text that arrives in the same read as an Escape key press is delivered after it.",
  "all texts following an ESC byte",
  "quantifies over inputs",
  ["tea/internal/infrastructure/ansi/parser.go"])
p("The inline renderer shows lines as wide as the terminal",
  "A line that is exactly as wide as the terminal, or cut to that width, is shown whole.",
  "all views and widths",
  "depends on terminal wrap state",
  ["tea/internal/infrastructure/renderer/inline.go"])
p("The inline renderer shows a shrinking view",
  "When the next view has fewer lines, its lines are all shown.",
  "all pairs of successive views",
  "quantifies over histories",
  ["tea/internal/infrastructure/renderer/inline.go"])
p("The inline renderer clears the screen for an empty view",
  "Rendering an empty view removes the previous view, also after Repaint or Resize.",
  "all histories ending with an empty view",
  "quantifies over histories",
  ["tea/internal/infrastructure/renderer/inline.go"])
p("Line truncation bounds the width of any bytes",
  "Whatever bytes a line contains, the truncated line is at most as wide as the limit.",
  "all byte strings",
  "quantifies over all byte strings",
  ["tea/internal/infrastructure/renderer/inline.go: truncateLine"])
p("The event loop never blocks on itself, whatever the load",
  "However many messages are queued, handling a message never waits for room in the queue that only the loop itself could make.",
  "all schedules and all batches",
  "quantifies over schedules and batch sizes",
  ["tea/internal/application/program/program.go: Run"])
p("Quit() stops the program while Update runs",
  "A call to Quit() on a running program is never lost.",
  "all schedules",
  "quantifies over interleavings",
  ["tea/internal/application/program/program.go: Quit"])
p("Quit() is taken by the event loop",
  "A call to Quit() is not consumed by anything but the event loop.",
  "all schedules with pending commands",
  "quantifies over interleavings",
  ["tea/internal/application/program/program.go: Quit, executeCommand"])
p("At most one event loop even after a timed-out Stop",
  "Also after a Stop() that timed out a second event loop cannot be started while the first is active.",
  "all schedules",
  "quantifies over interleavings",
  ["tea/internal/application/program/program.go: Stop, Start"])
p("The cursor is visible again when the program ends",
  "However the program was suspended, resumed or ran external commands, the cursor is as it was when the program ends.",
  "all histories of Run, Suspend, Resume, ExecProcess and end",
  "quantifies over histories",
  ["tea/internal/application/program/program.go: Resume, ExecProcess"])
p("Resume after the end changes nothing",
  "Calling Resume on a program that has ended leaves the terminal in its normal state.",
  "all histories",
  "quantifies over histories",
  ["tea/internal/application/program/program.go: Resume"])
p("A failed Resume can be retried",
  "After a Resume that failed, a later Resume on a working terminal succeeds and restores the modes.",
  "all histories and all device failures",
  "quantifies over failure points",
  ["tea/internal/application/program/program.go: Resume"])
p("TextArea: a forward kill can be undone by a yank",
  "KillLine and KillWord leave the cursor in place, so an immediate yank restores the text.",
  "all texts and cursor positions",
  "universally quantified over texts",
  ["components/input/internal/textarea/domain/service/editing.go"])
p("TextArea: Ctrl-U kills from the line start to the cursor",
  "Ctrl-U removes the text between the start of the line and the cursor and stores it.",
  "all texts and cursor positions",
  "universally quantified over texts",
  ["components/input/internal/textarea/infrastructure/keybindings/emacs.go"])
p("TextArea: yank respects the line limit",
  "Yanking never makes the text longer than the maximum number of lines.",
  "all kill histories",
  "quantifies over histories",
  ["components/input/internal/textarea/domain/service/editing.go: Yank"])
p("TextArea: the character limit is respected",
  "With a maximum number of characters the text never exceeds it.",
  "all key sequences",
  "quantifies over histories",
  ["components/input/internal/textarea/domain/model/textarea.go: WithMaxChars"])
p("Measured height of a bordered box",
  "The height reported by measuring a box with a border is the number of lines of its rendering.",
  "all boxes with a border",
  "universally quantified over boxes",
  ["layout/internal/domain/service/measure_service.go"])
p("ExecProcess keeps a suspended program suspended",
  "ExecProcess called while the program is suspended leaves it suspended.",
  "all histories",
  "quantifies over histories",
  ["tea/internal/application/program/program.go: ExecProcess"])
p("TextArea: kills respect the movement validator",
  "A kill never moves the cursor to a position the validator rejects.",
  "all texts, validators and kills",
  "quantifies over validators",
  ["components/input/internal/textarea/domain/service/editing.go"])
p("TextArea: positioning calls and kills keep the cursor on screen",
  "After SetCursorPosition, MoveCursorToEnd and the kill commands the cursor lies inside the visible window.",
  "all texts, windows and calls",
  "quantifies over histories",
  ["components/input/textarea.go: SetCursorPosition, MoveCursorToEnd"])
p("List: typed characters extend the filter text",
  "With the filter shown, the items offered match all the text typed since the last clear.",
  "all sequences of typed characters",
  "quantifies over histories",
  ["components/list/list.go"])
p("List: any letter can be typed into the filter",
  "With the filter shown, every character key is added to the filter text.",
  "all characters",
  "quantifies over keys",
  ["components/list/list.go"])
p("Table: the documented sort keys sort",
  "Pressing s or Enter, which the key bindings document as toggling the sort on the current column, changes the sort order.",
  "all tables",
  "All tables and histories.",
  ["components/table/internal/infrastructure/keybindings.go: DefaultKeyBindings, IsSort", "components/table/table.go: handleKeyPress"])
p("Select: the default value is selected",
  "After WithDefault(v), documented as setting the default selected value, an option with value v is selected.",
  "all option lists and values",
  "All option lists.",
  ["components/select/select.go: WithDefault"])
p("Select, MultiSelect: configuration does not depend on the order of the calls",
  "Options, height, filter and preselection can be set in any order with the same result.",
  "all orders of the configuration calls",
  "All permutations of the calls.",
  ["components/select/select.go: Options, WithHeight, WithFilterFunc", "components/multiselect/multiselect.go: Options, Selected"])
p("Select: every character can be typed into the filter and taken back",
  "In a filterable Select, typing any character adds it to the filter text and Backspace then removes exactly that character.",
  "all characters",
  "All characters.",
  ["components/select/select.go handleFilterInput", "components/select/internal/infrastructure/keyboard.go"])
p("MultiSelect: preselected indices count only if they denote options",
  "Confirming returns at least the minimum number of values also when indices were preselected.",
  "all preselections",
  "All preselections and histories.",
  ["components/multiselect/multiselect.go Selected", "components/multiselect/internal/domain/value/selection.go WithSelected"])
p("Form: the view shows every field, the focus and its status",
  "The view has one entry per field in order with the field's component; exactly the focused field carries the focus mark; complaints are shown whenever the field has some, and the mark Valid only for a field that was left and has none.",
  "all forms, histories and field components",
  "All histories and components.",
  ["components/form/form.go: renderFields, renderField"])
p("Form: the status drawn is the truth about the current value",
  "A field drawn as Valid passes its validators on its current value, and the complaints drawn are those of its validators on the current value.",
  "all forms and histories",
  "All histories.",
  ["components/form/form.go: renderField", "components/form/internal/domain/value/field.go", "components/form/internal/domain/model/form.go: UpdateField"])
p("Form: IsValid tells whether all fields pass validation",
  "IsValid, documented as whether all fields pass validation, is true exactly if every field's current value passes the field's validators.",
  "all forms and histories",
  "All histories.",
  ["components/form/form.go: IsValid", "components/form/internal/domain/model/form.go: IsValid"])
p("Form: the user can reset the form",
  "Some key resets the form (documented: submit or reset the form): marks and complaints are cleared.",
  "all forms and keys",
  "All keys.",
  ["components/form/form.go: handleKey", "components/form/internal/infrastructure/keyboard.go"])
p("Form: length validators count characters, not bytes",
  "MinLength(n) accepts exactly the texts of at least n characters and MaxLength(n) exactly those of at most n, whatever the characters.",
  "all texts and bounds",
  "All Unicode texts.",
  ["components/form/internal/domain/value/validator.go MinLength, MaxLength"])
p("Form: two forms extended from the same form keep their own fields",
  "Calling Field twice on the same form gives two forms that each keep the field added to them.",
  "all building histories, all slice capacities",
  "Aliasing shows only for certain lengths and capacities.",
  ["components/form/form.go Field"])
p("Confirm: the view",
  "The title and the last description set stay what the caller gave, and View is the title, the description if there is one, a blank line and one row of the buttons in order, the focused one and no other in square brackets; so two views differ whenever the focus does.",
  "all titles, descriptions, labels, calls and key sequences",
  "All texts and histories.",
  ["components/confirm/confirm.go View, renderButtons"])
p("Confirm: any labels keep their meaning",
  "The affirmative button answers Yes and the negative one No whatever their labels, each is reachable by the first character of its label, and DefaultNo focuses the negative one.",
  "all labels",
  "All label pairs.",
  ["components/confirm/internal/domain/model/confirm.go labelToResult, WithDefaultNo, ConfirmKey", "components/confirm/internal/domain/value/button.go NewButton"])
p("Modal: placed for the current terminal size even if resized while hidden",
  "When shown, a centred modal is placed for the current terminal size, whenever the terminal was resized.",
  "all histories of calls and messages",
  "Needs every order of hide, resize and show.",
  ["components/modal/modal.go Update"])
p("Modal: the box fills the modal's rectangle at any size",
  "View draws a closed box of exactly the given size at the modal's position with all visible content lines, and never panics.",
  "all sizes, texts and button sets",
  "All sizes and texts.",
  ["components/modal/modal.go renderModalBox, padOrTruncate"])
p("Modal: texts outside ASCII fit the box",
  "Rows with titles, contents or labels outside ASCII are exactly as wide as the modal and whole characters.",
  "all texts",
  "All texts.",
  ["components/modal/modal.go padOrTruncate"])
p("Mouse: positions, boxes, modifiers and kinds are what their names say",
  "Distance between positions is the Manhattan metric and the tolerance and equality tests agree with it; a bounding box holds exactly the positions inside it, its area counts them and it is empty exactly when there are none; modifiers built from three flags report those flags, compare equal and print alike exactly when they are the same flags; IsButton, IsWheel, IsClick and IsHover name the listed kinds.",
  "all positions, boxes, flags, buttons and event types",
  "Over all coordinates and sizes.",
  ["mouse/internal/domain/value/position.go", "mouse/internal/domain/value/bounding_box.go", "mouse/internal/domain/value/modifiers.go", "mouse/internal/domain/value/button.go"])
p("Mouse: exactly which byte sequences ParseSequence decodes and as what",
  "ParseSequence accepts exactly, after an optional ESC and an optional [: < with three numbers ended by M, m, mM or nothing; M with three bytes; three numbers ended by M. The event it decodes has the button and modifiers the code's bits say, the zero-based position and the kind. Any other sequence is an error and leaves the handler unchanged.",
  "all byte sequences and handler states",
  "All byte strings.",
  ["mouse/internal/application/mouse_handler.go ParseSequence", "mouse/internal/infrastructure/parser/sgr_parser.go", "mouse/internal/infrastructure/parser/x10_parser.go", "mouse/internal/infrastructure/parser/urxvt_parser.go"])
p("Mouse: only whole mouse reports with positions on the screen are decoded",
  "ParseSequence rejects truncated reports, reports of positions off the screen and input that is not a mouse report.",
  "all byte sequences",
  "All byte strings.",
  ["mouse/internal/application/mouse_handler.go ParseSequence"])
p("Layout: each fluent call changes its own setting of its own object, and a container keeps boxes as they were added",
  "Every setter of a box or container changes exactly the setting it is named after (negative spacing is none, a negative size is unset) and panics exactly for a maximum below a minimum or a negative gap, leaving everything as it was; a call touches no other object; Add appends the box as it is at that moment, AddRaw is Add of a new box, and whatever is later done to the boxes or to other containers the container draws the same.",
  "all programs of calls on any number of boxes and containers",
  "All interleavings of calls on shared pointers.",
  ["layout/layout.go Box, Flex, Add, AddRaw", "layout/internal/domain/model/box.go", "layout/internal/domain/model/flexbox.go"])
p("Layout: setters return new instances and leave the receiver alone",
  "As documented (immutable operations), deriving two boxes from a base box leaves the base and the other box unchanged.",
  "all programs",
  "All programs.",
  ["layout/layout.go Box, Flex"])
p("Layout: aligning in one direction keeps the alignment in the other",
  "AlignRight, AlignMiddle, AlignBottom and so on change the alignment in the direction they are named after and keep the other one.",
  "all boxes and calls",
  "All sequences of alignment calls.",
  ["layout/layout.go AlignRight, AlignMiddle, AlignBottom"])
p("Layout: a container's own Width and Height bound what it draws",
  "A container with Width or Height set is drawn within that size.",
  "all containers and sizes",
  "All sizes.",
  ["layout/layout.go Flex.Width, Flex.Height, Flex.Render"])
p("Layout: a container is drawn within its width for texts of any script",
  "No row of a rendered container is wider than the width asked for, wide characters included.",
  "all texts and widths",
  "All texts.",
  ["layout/layout.go Flex.Render"])
p("Style: how far off reduced colours can be",
  "The 256-colour entry of a grey or nearly grey colour is a grey within 16 of its mean (within 9 along the ramp); the sixteen basic colours on a 16-colour terminal and all fixed 256-colour entries but four come back unchanged; a border's codes are in range, with each channel's level a sixth of its value rounded down.",
  "all colours",
  "16.7 million colours.",
  ["style/internal/domain/service/color_adapter.go", "style/internal/application/command/border_renderer.go"])
p("Style: a plain text in a coloured frame, and plain output without colours",
  "A plain text in a frame with a border colour shows the frame in that colour and text and fill in the terminal's defaults; with the NoColor capability and neither border colour nor decorations only the laid-out text is written.",
  "all texts, borders, colours and capabilities",
  "All texts.",
  ["style/internal/application/command/border_renderer.go", "style/internal/application/command/render.go"])
p("Style: when size bounds are missed and what happens then",
  "The bounds are missed exactly when the text with padding, border and margin is narrower, wider, lower or taller than they say; then Render gives the text back as it is; otherwise it renders as if there were no bounds.",
  "all styles and texts",
  "All texts and bounds.",
  ["style/internal/application/command/render.go", "style/style.go Render"])
p("Style: border side switches after a border was chosen",
  "After Border, each of BorderTop, BorderBottom, BorderLeft, BorderRight controls its own side and no other, and choosing another border keeps the switches.",
  "all styles with a border",
  "All sequences of calls.",
  ["style/internal/domain/model/style.go BorderTop"])
p("What the clipboard builder builds",
  "Whatever the order of the builder calls, Build fails only when no provider was added and both built-in ones are switched off; otherwise the custom providers come first in the order added, then OSC 52, then the system clipboard, each setting having the last value given to it.",
  "all sequences of builder calls",
  "All orders and repetitions.",
  ["clipboard/clipboard.go:Build", "clipboard/clipboard.go:WithProvider", "clipboard/internal/domain/service/clipboard_service.go:NewClipboardService"])
p("Which clipboard New prefers",
  "New always offers both the system clipboard and OSC 52, with OSC 52 first exactly in an SSH session on a terminal; OSC 52 counts as available only on a terminal, over SSH or with a known terminal type.",
  "all environments",
  "All environment variables.",
  ["clipboard/internal/application/clipboard_manager.go:buildProviderChain", "clipboard/internal/infrastructure/platform/detector.go:IsSSH", "clipboard/internal/infrastructure/osc52/osc52_provider.go:IsAvailable"])
p("The Linux clipboard tools",
  "The system clipboard is available exactly when a complete tool is installed; the most preferred one is used for reading and for writing, so what was written is read back, and nothing is read or written without a tool.",
  "all sets of installed tools and what works",
  "All environments.",
  ["clipboard/internal/infrastructure/native/clipboard_linux.go:NewProvider", "clipboard/internal/infrastructure/native/clipboard_linux.go:Read", "clipboard/internal/infrastructure/native/clipboard_linux.go:Write"])
p("A working clipboard tool is used",
  "If an installed tool can reach a clipboard, Write succeeds.",
  "all sets of installed tools and what works",
  "All environments.",
  ["clipboard/internal/infrastructure/native/clipboard_linux.go:NewProvider"])
p("Fallback to the next clipboard provider",
  "When the preferred provider cannot write, the next one is used (the documented automatic fallback).",
  "all provider lists and failures",
  "All failures.",
  ["clipboard/internal/domain/service/clipboard_service.go:getAvailableProvider"])
p("The clipboard history is the record of what was written",
  "With no age limit, after any calls: without EnableHistory there is no history; from then on it holds the last texts accepted by the clipboard, at most the limit, in order, restored ones included, since the last EnableHistory or ClearHistory; its size and total size are those of these texts.",
  "all call sequences and environments",
  "All histories.",
  ["clipboard/clipboard.go:GetHistorySize", "clipboard/internal/application/clipboard_manager.go:EnableHistory", "clipboard/internal/domain/service/clipboard_history.go:Add"])
p("Looking up clipboard history entries",
  "After any calls each listed entry is found under its id, with its content, and an id finds only an entry with that id.",
  "all call sequences with distinct generated ids",
  "All histories.",
  ["clipboard/clipboard.go:GetHistoryEntry", "clipboard/internal/domain/service/clipboard_history.go:Get"])
p("No entry older than the age limit is listed",
  "With an age limit, GetHistory lists no entry older than it.",
  "all call sequences and times",
  "All histories.",
  ["clipboard/clipboard.go:EnableHistory", "clipboard/internal/domain/service/clipboard_history.go:GetAll"])
p("Any history limit is accepted",
  "EnableHistory returns normally for every limit.",
  "all limits",
  "All integers.",
  ["clipboard/internal/domain/service/clipboard_history.go:NewClipboardHistory"])
p("The most recent history entry is the text written last",
  "GetRecentHistory(1) is the last text written.",
  "all histories, entries written in one clock tick included",
  "Clock granularity.",
  ["clipboard/internal/domain/service/clipboard_history.go:GetRecent"])
p("What was written over OSC 52 can be read back",
  "After a successful Write, Read returns the text also where OSC 52 comes first.",
  "all environments",
  "All environments.",
  ["clipboard/internal/infrastructure/osc52/osc52_provider.go:Read", "clipboard/clipboard.go:Build"])
p("A failed OSC 52 write wrote nothing",
  "If an OSC 52 write reports a failure, the sequence is not sent to the terminal, before or after.",
  "all interleavings",
  "All interleavings and failures.",
  ["clipboard/internal/infrastructure/osc52/osc52_provider.go:Write"])
p("An OSC 52 write that reached the terminal is reported as a success",
  "If the sequence was written completely in time, Write returns no error.",
  "all interleavings, on a Linux terminal",
  "All interleavings and failures.",
  ["clipboard/internal/infrastructure/osc52/osc52_provider.go:Write"])
p("The zero clipboard builder works",
  "Build of a zero Builder gives a clipboard with the default settings (as its documentation says).",
  "all builder calls on a zero Builder",
  "All call sequences.",
  ["clipboard/clipboard.go:Builder"])
p("RTF written by the library is read correctly by other programs",
  "For every text without characters above 32767 and every valid style, a program that follows the RTF specification shows the document written for it as exactly that text (without carriage returns), every character in the style and colour, and nothing else.",
  "all texts of such characters and styles",
  "All texts and styles.",
  ["clipboard/internal/domain/service/richtext_codec.go:EncodeRTF", "clipboard/internal/domain/service/richtext_codec.go:escapeRTF", "clipboard/clipboard.go:ConvertHTMLToRTF"])
p("Every character is readable in RTF",
  "The RTF document written for a text shows that text in other programs, whatever its characters.",
  "all texts",
  "All characters.",
  ["clipboard/internal/domain/service/richtext_codec.go:escapeRTF"])
p("Plain text of RTF documents of other programs",
  "ReadRTFAsPlainText returns the text that a program following the RTF specification shows.",
  "all RTF documents",
  "All documents.",
  ["clipboard/internal/domain/service/richtext_codec.go:StripRTFFormatting", "clipboard/clipboard.go:ReadRTFAsPlainText"])
p("Text and styles of HTML documents of other programs",
  "Reading HTML as text keeps paragraphs and lines apart and leaves out comments, attributes and style sheets; converting it keeps each part's style.",
  "all HTML documents",
  "All documents.",
  ["clipboard/internal/domain/service/richtext_codec.go:StripHTMLTags", "clipboard/internal/domain/service/richtext_codec.go:DecodeHTML"])
p("TextArea: the view is the visible text with the cursor marked",
  "For every history of edits, keys and settings with a non-negative height and non-empty text, View() does not panic; read by a terminal it shows exactly the lines of the visible window (never more than Height of them) in the default rendition, with exactly the character ContentParts() reports at the cursor (a blank at the end of a line) in reverse video when the cursor is on and its row is in the window, and the terminal is back at its defaults; with the cursor off the view is the text of the window. ShowLineNumbers only prefixes each row with its 1-based line number, right-aligned in four columns, and a blank.",
  "every history of API calls and keys, every text without escape characters, every size with Height >= 0",
  "Texts, sizes and cursor histories are unbounded; tests look at a few views",
  ["components/input/textarea.go:View", "components/input/internal/textarea/infrastructure/renderer/textarea_renderer.go:Render", "components/input/internal/textarea/infrastructure/renderer/textarea_renderer.go:renderContent", "components/input/internal/textarea/infrastructure/renderer/textarea_renderer.go:renderLineWithCursor", "components/input/internal/textarea/domain/model/textarea.go:VisibleLines"])
p("TextArea: the placeholder is shown exactly while there is no text",
  "For every history, while Value() is empty the view is the placeholder in grey (and the terminal is back at its defaults); once there is text the placeholder does not influence the view; placeholder, line numbers and cursor switch never affect text, cursor or key handling, and edits never reset them; by default the cursor is shown, without line numbers and without a placeholder.",
  "every history of API calls and keys, every placeholder",
  "Histories are unbounded",
  ["components/input/textarea.go:Placeholder", "components/input/textarea.go:ShowLineNumbers", "components/input/textarea.go:ShowCursor", "components/input/internal/textarea/infrastructure/renderer/textarea_renderer.go:renderPlaceholder"])
p("TextArea: the cursor is drawn whenever it is switched on",
  "With ShowCursor(true) and the cursor in the window the view marks the cursor's cell, also in an empty text area.",
  "every history",
  "Histories are unbounded",
  ["components/input/textarea.go:ShowCursor", "components/input/internal/textarea/infrastructure/renderer/textarea_renderer.go:Render"])
p("TextArea: rows are no wider than Width",
  "Every row of the view has at most Width characters: longer lines are scrolled horizontally (Wrap(false)) or wrapped (Wrap(true)).",
  "every width, wrap setting, text and cursor position",
  "Widths and texts are unbounded",
  ["components/input/textarea.go:Width", "components/input/textarea.go:Wrap", "components/input/internal/textarea/infrastructure/renderer/textarea_renderer.go:renderContent", "components/input/internal/textarea/domain/model/textarea.go:ensureCursorVisible"])
p("TextArea: View accepts every size",
  "View() does not panic, whatever size was set.",
  "every size and text",
  "Sizes are unbounded",
  ["components/input/textarea.go:Size", "components/input/textarea.go:View", "components/input/internal/textarea/domain/model/textarea.go:VisibleLines"])
p("Core terminals are immutable values",
  "What a *core.Terminal reports (capabilities, size, raw mode) never changes, whatever calls are made later on any terminal; WithSize and WithRawMode return a new terminal that differs from the receiver in exactly that field; NewTerminal, AutoDetect and NewTerminalWithCapabilities give 80x24, not raw, with the minimal, the detected and the given capabilities; every reported size is at least 1x1 and every reported set of capabilities is consistent.",
  "every sequence of calls on every terminal made by it",
  "Call sequences are unbounded and later calls could reach the fields of an earlier terminal through a shared pointer",
  ["core/core.go:NewTerminal", "core/core.go:AutoDetect", "core/core.go:NewTerminalWithCapabilities", "core/core.go:WithSize", "core/core.go:WithRawMode", "core/internal/domain/model/terminal.go:WithSize", "core/internal/domain/model/terminal.go:WithRawMode", "core/internal/domain/value/capabilities.go:NewCapabilities"])
p("Core: a terminal in raw mode says so",
  "IsRawModeEnabled() is true on a terminal obtained with WithRawMode for a mode that has been entered.",
  "every sequence of public calls",
  "Call sequences are unbounded",
  ["core/core.go:WithRawMode", "core/core.go:IsRawModeEnabled", "core/core.go:NewRawMode", "core/internal/domain/model/rawmode.go:NewRawMode"])
p("Core: detected capabilities follow the environment",
  "For every environment: a non-empty NO_COLOR switches colour off; otherwise FORCE_COLOR alone decides (0 nothing, 1 eight, 2 256, anything else true colour); otherwise on Unix systems an empty or dumb TERM supports nothing and any other supports ANSI, mouse, alternate screen and cursor, with true colour iff COLORTERM is truecolor/24bit in any case or TERM_PROGRAM is a known terminal, else 256 iff Apple_Terminal or TERM contains 256color, else 8; on Windows everything iff Windows Terminal or VS Code, else 8 colours without mouse. Detected colour always comes with ANSI.",
  "every value of the environment variables and every operating system",
  "Environments are arbitrary strings",
  ["core/core.go:AutoDetect", "core/internal/domain/service/capabilities_detector.go:Detect", "core/internal/domain/service/capabilities_detector.go:detectColorDepth"])
p("Core: NO_COLOR disables colour only",
  "With NO_COLOR set, colour is off and the other capabilities (ANSI, mouse, alternate screen, cursor control) are those detected without it.",
  "every environment and operating system",
  "Environments are arbitrary strings",
  ["core/core.go:AutoDetect", "core/internal/domain/service/capabilities_detector.go:Detect"])
p("Core: Apple's Terminal.app is never taken for a true colour terminal",
  "On macOS with TERM_PROGRAM=Apple_Terminal the detected depth is 256 whatever COLORTERM says, as the macOS rule of the detector states.",
  "every environment",
  "Environments are arbitrary strings",
  ["core/internal/domain/service/capabilities_detector.go:detectMacOS", "core/internal/infrastructure/platform/platform_unix.go:platformString"])
p("The two packages agree on the colour depth",
  "core.AutoDetect().Capabilities().ColorDepth() and terminal.Terminal.ColorDepth() report the same depth in the same environment.",
  "every environment",
  "Environments are arbitrary strings",
  ["core/core.go:AutoDetect", "core/internal/domain/service/capabilities_detector.go:detectColorDepth", "terminal/internal/infrastructure/unix/ansi.go:ColorDepth"])
p("phoenix.NewTerminal is AutoDetectTerminal",
  "phoenix.NewTerminal(), documented as a convenience alias of AutoDetectTerminal(), returns a terminal with the detected capabilities.",
  "every environment and operating system",
  "Environments are arbitrary strings",
  ["phoenix.go:NewTerminal", "phoenix.go:AutoDetectTerminal", "core/core.go:NewTerminal"])
p("Core: sizes, positions and cells are clamped into range",
  "NewSize gives at least 1x1, NewPosition and Position.Add never leave the non-negative quadrant, cell widths are never negative; values in range are kept exactly; Add moves by the given deltas and, away from the edges, steps add up and can be undone; NewCellAuto has the width of its content.",
  "all integers and strings",
  "Integers and strings are unbounded",
  ["core/core.go:NewSize", "core/core.go:NewPosition", "core/core.go:Add", "core/core.go:NewCell", "core/core.go:NewCellAuto", "core/internal/domain/value/position.go:Add"])
p("Core: colour needs ANSI",
  "SupportsColor() implies SupportsANSI() for all capabilities.",
  "every Capabilities value",
  "Quantifies over every constructed value",
  ["core/core.go:NewCapabilities", "core/core.go:SupportsColor", "core/internal/domain/value/capabilities.go:NewCapabilities"])
p("MockTerminal records every call once, under every schedule",
  "However many goroutines use a MockTerminal and however they are scheduled: every call returns what a mock used by one goroutine would return after exactly the calls that returned before it (mode calls, mode queries, CallCount, Reset); each goroutine's calls take effect in its program order, none lost or duplicated; when all are done Calls holds the text of every terminal call since the last Reset, in order of return; no deadlock, and every schedule can be completed.",
  "every list of goroutines with every sequence of calls, and every schedule of their steps",
  "Schedules are unbounded and races show up in few of them",
  ["testing/mock_terminal.go:record", "testing/mock_terminal.go:CallCount", "testing/mock_terminal.go:Reset", "testing/mock_terminal.go:EnterAltScreen", "testing/mock_terminal.go:ExitAltScreen", "testing/mock_terminal.go:EnterRawMode", "testing/mock_terminal.go:ExitRawMode"])
p("MockTerminal: recorded calls tell what was called",
  "Every recorded call reads as the method's name or its name with the arguments in parentheses; CallCount(name) counts exactly the calls of that method whatever the arguments (Clear does not count ClearLine); two calls read the same only if they are the same method with the same arguments.",
  "every call with every argument",
  "Arguments are unbounded",
  ["testing/mock_terminal.go:CallCount", "testing/mock_terminal.go:SetCursorPosition", "testing/mock_terminal.go:WriteAt", "testing/mock_terminal.go:SetCursorStyle"])
p("MockTerminal's modes behave as the real terminal's",
  "Given the same calls in the same order, with documented cursor styles, the mock returns an error exactly when the real ANSI terminal (whose system calls succeed) does, and IsInAltScreen and IsInRawMode answer alike.",
  "every history of calls from any goroutines and every schedule",
  "Histories are unbounded",
  ["testing/mock_terminal.go:EnterAltScreen", "testing/mock_terminal.go:IsInAltScreen", "testing/mock_terminal.go:IsInRawMode", "terminal/internal/infrastructure/unix/ansi.go:EnterAltScreen", "terminal/internal/infrastructure/unix/ansi.go:EnterRawMode"])
p("Test terminals keep the promises of the Terminal interface",
  "As the interface documents, SupportsTrueColor() goes with a ColorDepth() of 16777216, GetCursorPosition() and ReadScreenBuffer() fail when SupportsReadback() is false, and the mock tracks the cursor position.",
  "every history",
  "Histories are unbounded",
  ["testing/mock_terminal.go:SupportsTrueColor", "testing/mock_terminal.go:ColorDepth", "testing/mock_terminal.go:GetCursorPosition", "testing/null_terminal.go:ReadScreenBuffer", "terminal/terminal.go:SupportsReadback"])
p("NullTerminal is a drop-in replacement",
  "Code that uses the modes of a Terminal (enter, query, exit) sees the same answers with a NullTerminal.",
  "every history of calls",
  "Histories are unbounded",
  ["testing/null_terminal.go:EnterAltScreen", "testing/null_terminal.go:IsInAltScreen", "testing/null_terminal.go:ExitAltScreen", "testing/null_terminal.go:IsInRawMode"])
p("Windows console: cursor position, moves and look",
  "In a native Windows console the terminal always works on the screen buffer the user sees. GetCursorPosition gives the cursor's cell; SetCursorPosition puts it exactly at a cell of the buffer and changes nothing else, and is refused without effect outside it; the relative moves go n cells and stop at the edges, and do nothing for n <= 0; HideCursor, ShowCursor and SetCursorStyle change exactly the visibility and the size, and unknown styles are refused.",
  "every state reached by any calls from any buffer within Win32 limits, whatever Win32 calls failed on the way; every position and n",
  "A test runs on one console; this needs every buffer size, cursor, history and pattern of failing system calls.",
  ["terminal/internal/infrastructure/windows/console.go:SetCursorPosition", "terminal/internal/infrastructure/windows/console.go:MoveCursorDown", "terminal/new_windows.go:newWindowsTerminal"])
p("Windows console: what clearing clears and reading reads",
  "Clear blanks every cell, resets its colours and puts the cursor at the top left; ClearLine blanks exactly the cursor's line; ClearFromCursor exactly the cells from the cursor to the end of the buffer, leaving the cursor; ClearLines(n) exactly the cursor's line and the n-1 above it, as far as they exist, and puts the cursor at the start of that region. ReadScreenBuffer returns exactly the cells, row by row.",
  "every reached state, buffer, cursor position and n",
  "Off-by-one at the last row or column shows for particular sizes and positions only.",
  ["terminal/internal/infrastructure/windows/console.go:Clear", "terminal/internal/infrastructure/windows/console.go:ClearLines", "terminal/internal/infrastructure/windows/console.go:ReadScreenBuffer"])
p("Windows console: alternate screen and raw mode",
  "IsInAltScreen holds exactly while another buffer than the original one is shown; entering shows a blank screen of the window's size and keeps the original one, whose text, colours and cursor come back on leaving (if nothing was written in between); entering or leaving twice is refused without effect; while IsInRawMode holds, exactly line input, echo and processed input are off and virtual terminal input is on, and otherwise the input mode is the one the program started with; no screen buffer is left behind as long as closing handles works; a refused switch changes nothing visible.",
  "every sequence of calls and every pattern of failing Win32 calls",
  "The failure points multiply with the call history; tests cannot make Win32 calls fail.",
  ["terminal/internal/infrastructure/windows/console.go:EnterAltScreen", "terminal/internal/infrastructure/windows/console.go:ExitAltScreen", "terminal/internal/infrastructure/windows/console.go:EnterRawMode"])
p("Windows console: what is written appears on the screen",
  "Write prints at the cursor of the screen the user sees, in the main and in the alternate screen.",
  "every reached state and text",
  "Needs every history of screen switches.",
  ["terminal/internal/infrastructure/windows/console.go:Write", "terminal/internal/infrastructure/windows/console.go:EnterAltScreen", "terminal/terminal.go:Terminal"])
p("Windows console: ClearLine leaves the cursor where it is",
  "ClearLine clears the line of the cursor; the cursor position remains unchanged.",
  "every reached state with any cursor position",
  "Holds for a cursor in column 0, where a test is likely to put it.",
  ["terminal/internal/infrastructure/windows/console.go:ClearLine", "terminal/terminal.go:Terminal"])
p("Windows console: Size is the size of the terminal",
  "Size returns the dimensions of the terminal window in characters.",
  "every console, whatever scrollback it has",
  "In a console without scrollback, or in the alternate screen, the two agree.",
  ["terminal/internal/infrastructure/windows/console.go:Size", "terminal/terminal.go:Terminal"])
p("Windows console: saved cursor positions form a stack",
  "SaveCursorPosition pushes the position on a stack of the terminal; RestoreCursorPosition restores the previously saved one.",
  "every nesting of saves and restores, every terminal object",
  "Single save/restore pairs work.",
  ["terminal/internal/infrastructure/windows/console.go:SaveCursorPosition", "terminal/internal/infrastructure/windows/console.go:RestoreCursorPosition", "terminal/terminal.go:Terminal"])
p("Windows console: positions out of bounds are errors",
  "SetCursorPosition returns an error if the position is out of bounds.",
  "every reached state and all x, y",
  "Any position a test tries in the range of a 16-bit number behaves.",
  ["terminal/internal/infrastructure/windows/console.go:SetCursorPosition", "terminal/terminal.go:Terminal"])
p("Windows console: cleared cells have no colours left",
  "A cleared cell is blank in the default colours, whichever clearing operation was used.",
  "every reached state, every clearing operation",
  "A test reads the characters back, not the attributes.",
  ["terminal/internal/infrastructure/windows/console.go:ClearLine", "terminal/internal/infrastructure/windows/console.go:ClearFromCursor", "terminal/internal/infrastructure/windows/console.go:Clear"])
p("Windows clipboard: text goes and comes as UTF-16",
  "On Windows, writing a text puts exactly it on the system clipboard as UTF-16 ended by a 0; reading gives exactly the text another program put there, with unpaired surrogates as U+FFFD; so a text without NUL that was written is read back. Whatever system call fails, the clipboard is not left open, and reading changes nothing.",
  "every text (any characters, surrogate pairs included), every clipboard content, every pattern of failing system calls",
  "The encodings have to be right for every character; system calls cannot be made to fail in tests.",
  ["clipboard/internal/infrastructure/native/clipboard_windows.go:stringToUTF16Ptr", "clipboard/internal/infrastructure/native/clipboard_windows.go:utf16UintptrToString", "clipboard/internal/infrastructure/native/clipboard_windows.go:Write"])
p("Windows clipboard: writing reads only the text's own memory",
  "Writing a text to the clipboard neither crashes nor exposes other memory of the process.",
  "every text, every contents of the memory behind it",
  "What lies behind a slice varies from run to run; usually nothing is noticed.",
  ["clipboard/internal/infrastructure/native/clipboard_windows.go:copyMemoryFromUintptr", "clipboard/internal/infrastructure/native/clipboard_windows.go:Write"])
p("Windows clipboard: a failed write has no effect",
  "If writing returns an error the clipboard keeps its contents and no memory is lost.",
  "every point at which a system call can fail",
  "Tests cannot make the system calls fail.",
  ["clipboard/internal/infrastructure/native/clipboard_windows.go:Write"])
p("Windows clipboard: every text written is read back",
  "A text written without an error is read back unchanged, whatever characters it contains.",
  "every non-empty text",
  "The text must contain a NUL for this to fail.",
  ["clipboard/internal/infrastructure/native/clipboard_windows.go:Write", "clipboard/internal/infrastructure/native/clipboard_windows.go:Read"])
p("Input reader: bytes arrive in order, completely and without waiting for more",
  "Whatever the scheduling of the reader's goroutines, the bytes returned by the input reader's Read calls are, at every moment, a prefix of the bytes typed: none is duplicated, reordered or skipped. Unless the reader is cancelled, Read reports the end of input only after every byte typed has been returned and the input has really ended. Left alone, the reader's goroutines come to rest after finitely many steps, and if a Read is then still waiting, everything typed so far has been returned: no byte waits in an internal buffer for the next key press.",
  "every interleaving of the relay goroutine, the read loop, the caller of Read, typing, the end of the input and Cancel; every split of the data by read and write sizes; every pipe capacity of at least one byte",
  "Tests fix one schedule and one chunking of the input; ordering and lost wake-ups depend on all interleavings of three goroutines, a pipe and a channel.",
  ["tea/internal/infrastructure/input/cancelable_reader.go:NewCancelableReader", "tea/internal/infrastructure/input/cancelable_reader.go:relayLoop", "tea/internal/infrastructure/input/cancelable_reader.go:Read"])
p("Input reader: Cancel releases the readers, WaitForShutdown returns",
  "Once Cancel has begun, every Read called from then on returns at once without data; a Read that is waiting when Cancel closes its channel can return at once with the end of input. From the moment the pipe is closed the goroutine that WaitForShutdown waits for has only finitely many steps left, whatever is typed meanwhile, so WaitForShutdown does not hang; on an input that supports read deadlines the goroutine reading the input ends as well.",
  "every reachable state of the reader at which Cancel is called, and every schedule afterwards",
  "A hang needs one particular interleaving of Cancel with the goroutines; tests only see the common ones.",
  ["tea/internal/infrastructure/input/cancelable_reader.go:Cancel", "tea/internal/infrastructure/input/cancelable_reader.go:WaitForShutdown"])
p("Input reader: nothing is taken from the input after shutdown",
  "After Cancel and WaitForShutdown have returned, the reader takes nothing more from the input: what is typed then is left for the external command or for the next reader.",
  "every schedule of Cancel, WaitForShutdown, the relay goroutine and later typing; inputs with and without read deadlines",
  "It depends on whether a goroutine is still blocked in a read of the terminal when the 50 ms wait is over.",
  ["tea/internal/infrastructure/input/cancelable_reader.go:WaitForShutdown", "tea/internal/infrastructure/input/cancelable_reader.go:relayLoop"])
p("Input reader: type-ahead survives a suspension",
  "Keys typed before the reader is cancelled and not yet delivered are not lost: they are returned by a later Read or are still in the input for the next reader.",
  "every schedule of typing, the reader's goroutines and Cancel",
  "How far the reader has read ahead when Cancel comes depends on the schedule.",
  ["tea/internal/infrastructure/input/cancelable_reader.go:Cancel", "tea/internal/infrastructure/input/cancelable_reader.go:Read"])
p("Suspend stops the input reader, Resume starts one",
  "For every history of Run, Suspend and Resume and every schedule of the reader goroutines, provided the 200 ms of Suspend do not pass and Run is not called while an earlier reader is left: the program never panics, at most one goroutine reads the input, none reads it once Suspend has stopped the reader (also when there was nothing to stop) until Resume, and Resume then starts exactly one; a reader Suspend waits for has been cancelled, no other is, and Suspend returns.",
  "every interleaving of the reader goroutines (ending at any time: end of input, error, cancellation, quit) with a history of Run, its end, Suspend and Resume",
  "The goroutine's exit closes a channel stored in a field that other calls overwrite; whether that is safe depends on all interleavings.",
  ["tea/internal/application/program/program.go:startInputReader", "tea/internal/application/program/program.go:stopInputReader", "tea/internal/application/program/program.go:restartInputReader"])
p("Suspend stops the input reader however slow it is",
  "Suspend never returns while the program still reads the input, and a reader that ends late does no harm.",
  "every schedule, including those in which the reader goroutine does not end within 200 ms",
  "The timeout branch needs a starved scheduler.",
  ["tea/internal/application/program/program.go:stopInputReader", "tea/internal/application/program/program.go:Suspend"])
p("The input is left alone when Run has returned",
  "After Run has returned, or Stop has stopped the program, the program takes nothing more from its input: what the user types next goes to whoever reads the terminal then.",
  "every history and schedule",
  "Tests end their input with the program.",
  ["tea/internal/application/program/program.go:Run", "tea/internal/application/program/program.go:Start", "tea/internal/application/program/program.go:Stop"])
p("A program can be run again",
  "After Run has returned the program can be run again with the same effect: one reader of the input, no panic.",
  "every history of Run, Quit, Run and every schedule of the reader goroutines",
  "The damage shows only when the goroutine left over from the first Run ends.",
  ["tea/internal/application/program/program.go:Run", "tea/internal/application/program/program.go:startInputReader"])
p("External commands started at the same time",
  "When several commands run external processes at the same time (a Batch of two ExecProcess commands), every child process finds the terminal in normal mode for as long as it runs, and when all have returned the program has its raw mode and alternate screen back.",
  "every number of concurrent ExecProcess calls and every interleaving of their critical sections",
  "The overlap of two Suspend/Resume pairs has many interleavings; tests run one command at a time.",
  ["tea/internal/application/program/program.go:ExecProcess", "tea/internal/application/program/program.go:Suspend", "tea/internal/application/program/program.go:Resume"])
p("A running program's screen shows its model",
  "In inline mode, after the initial view and any sequence of messages (window size messages among them), the rows of the program's region show exactly the lines of View() of the current model, cut to the terminal size last announced, rows below are blank and what was above is kept, scrolled. Covered are the views for which the inline renderer is correct (C11).",
  "every Elm model (update and view functions), every message sequence, every terminal size and starting row",
  "The display depends on the whole history of views and sizes.",
  ["tea/internal/application/program/program.go:renderView", "tea/internal/application/program/program.go:Run"])
p("A running program's alternate screen shows its model",
  "With WithAltScreen, after every message the screen shows the lines of View() of the current model from the top left corner.",
  "every model and message sequence, every view",
  "What is on the screen depends on all frames written before.",
  ["tea/internal/application/program/program.go:renderView", "tea/internal/application/program/options.go:WithAltScreen"])
p("A suspended program writes nothing to the terminal",
  "Between Suspend and Resume (while an external command owns the terminal) the program writes nothing to it, whatever messages (ticks, command results) arrive meanwhile.",
  "every model, every sequence of messages while suspended, inline and alternate screen mode",
  "It concerns all messages that may arrive while another process runs.",
  ["tea/internal/application/program/program.go:Suspend", "tea/internal/application/program/program.go:renderView"])
p("Windows: an external command finds the original console mode",
  "On Windows, when a program in raw mode runs a command with full terminal control, the command finds the console input mode the program itself found when it entered raw mode, except that VT input sequences are off; afterwards the program is in raw mode again: no line input, no echo, no Ctrl+C processing, VT input on.",
  "every initial console input mode, every state of the console object in raw mode",
  "the property is about every combination of console mode bits; tests need a real Windows console",
  ["tea/internal/application/program/tty_control_windows.go:execWithTTYControl", "tea/internal/application/program/tty_control_windows.go:execWithTTYControl", "terminal/internal/infrastructure/windows/console.go:EnterRawMode", "terminal/internal/infrastructure/windows/console.go:ExitRawMode"])
p("Windows: the console input mode is restored at exit",
  "On Windows, a program that enters raw mode, runs any number of external commands with full terminal control and leaves raw mode leaves the console in the input mode it found.",
  "every initial console input mode, every number of external commands",
  "the property is about every combination of console mode bits and every number of commands; tests need a real Windows console",
  ["tea/internal/application/program/tty_control_windows.go:execWithTTYControl", "terminal/internal/infrastructure/windows/console.go:EnterRawMode", "terminal/internal/infrastructure/windows/console.go:ExitRawMode"])
p("Table: the selected row is drawn while the sizes stay put",
  "After any sequence of operations that changes the height and the header only while the first row is selected, the visible rows are a window of the effective rows and the selected row is inside it.",
  "all histories that set sizes while the first row is selected",
  "Unbounded histories.",
  ["components/table/internal/domain/model/table.go: WithHeight, WithShowHeader, VisibleRows"])
p("Select, MultiSelect: the Ctrl-C key message quits",
  "A Select or MultiSelect returns the quit command exactly for the KeyCtrlC key message, in every state.",
  "all states and key messages",
  "The composition of parser and component over all inputs.",
  ["components/select/select.go handleKey", "components/multiselect/multiselect.go handleKey", "tea/internal/infrastructure/ansi/parser.go ParseKey"])
p("Form: at a submission the stored values pass",
  "When Enter submits a form, every field whose name has a value passes all its validators on the value stored under its name, and every other field shows no error.",
  "all field lists, components, names and validators",
  "All component behaviours.",
  ["components/form/form.go extractFieldValues", "components/form/internal/domain/model/form.go ValidateAll"])
p("X10 mouse presses and wheel reports decode up to column and row 222",
  "Every press and wheel report in the X10 encoding with 0-based column and row up to 222 is decoded to its kind, button, modifiers and position.",
  "all X10 press and wheel reports the encoding can express",
  "All button and modifier combinations and positions.",
  ["mouse/internal/infrastructure/parser/x10_parser.go"])
p("urxvt mouse reports decode to the right position",
  "Every report in the urxvt encoding is decoded to its position, and a press to its modifiers; what the library's own urxvt encoder writes is decoded to its button and position.",
  "all urxvt reports and events",
  "Unbounded coordinates.",
  ["mouse/internal/infrastructure/parser/urxvt_parser.go"])
p("The X10 encoder is inverted by the decoder up to column and row 222",
  "Formatting a press or wheel event with the X10 encoder and parsing the result gives the button and the position back, for columns and rows up to 222.",
  "all events with positions up to 222",
  "All positions.",
  ["mouse/internal/infrastructure/parser/x10_parser.go FormatSequence"])
p("Layout: measuring respects the size a box is given",
  "The measured size of a box is the exact width and height it was given; without an exact size it is at least the minimum and at most the maximum given last.",
  "all boxes and sizes",
  "All boxes and sizes.",
  ["layout/layout.go:Box.Width", "layout/layout.go:Box.Render", "layout/internal/domain/service/render_service.go"])
p("Layout: a rendered box can be rendered, measured and placed again",
  "Rendering a box a second time gives the same text and changes nothing; measuring and placing it give the same result as before rendering.",
  "all boxes and parent sizes",
  "All call histories.",
  ["layout/layout.go:Box.Render"])
p("Save/RestoreCursorPosition: one pair",
  "RestoreCursorPosition returns the cursor to the position of the last SaveCursorPosition, whatever other calls happened in between except switching the screen.",
  "all call sequences before and in between",
  "All sequences of calls between the pair.",
  ["terminal/terminal.go", "terminal/internal/infrastructure/unix/ansi.go:SaveCursorPosition", "terminal/internal/infrastructure/unix/ansi.go:RestoreCursorPosition"])
p("SetCursorPosition is exact on the screen",
  "SetCursorPosition(x, y) with (x, y) on the screen succeeds, puts the cursor at that 0-based cell and changes nothing else.",
  "all screens and positions on them",
  "All positions.",
  ["terminal/terminal.go", "terminal/internal/infrastructure/unix/ansi.go:SetCursorPosition"])
p("TextInput: a character that stands alone goes before the cursor",
  "After typing a character that joins no cluster with its neighbours, the text before the cursor is the old text before it followed by that character, and the text after the cursor is unchanged.",
  "every content, cursor position, typed character and cluster segmentation in which it stands alone",
  "depends on how clusters form for all texts",
  ["components/input/internal/input/domain/model/input.go:InsertRune"])
p("External commands one after another",
  "When external commands run one after another, in any number, each finds the terminal in normal mode while it runs, and when all have returned the program has its raw mode and alternate screen back.",
  "all numbers of commands and all schedules in which they do not overlap",
  "The overlap of two Suspend/Resume pairs has many interleavings; tests run one command at a time.",
  ["tea/internal/application/program/program.go:ExecProcess", "tea/internal/application/program/program.go:Suspend", "tea/internal/application/program/program.go:Resume"])
p("A Resume that failed on the alternate screen can be retried",
  "After a failed Resume the program is still suspended; if the alternate screen was not entered, a later Resume on a terminal that accepts it succeeds and restores the modes.",
  "all states and device failures",
  "quantifies over failure points",
  ["tea/internal/application/program/program.go: Resume"])
p("Input reader: how much type-ahead a suspension can lose",
  "What the user typed is what the program received, then a bounded stretch (at most the pipe's capacity plus 4608 bytes) that is lost, then what is still in the input; order is kept.",
  "all schedules and inputs",
  "How far the reader has read ahead when Cancel comes depends on the schedule.",
  ["tea/internal/infrastructure/input/cancelable_reader.go:Cancel", "tea/internal/infrastructure/input/cancelable_reader.go:Read"])
p("Input reader: at most one more read after shutdown",
  "After Cancel has begun, at most one more read of at most 4096 bytes is taken from the input, and none if the relay goroutine has ended.",
  "all schedules and inputs",
  "It depends on whether a goroutine is still blocked in a read of the terminal when the 50 ms wait is over.",
  ["tea/internal/infrastructure/input/cancelable_reader.go:WaitForShutdown", "tea/internal/infrastructure/input/cancelable_reader.go:relayLoop"])
p("Form: after Enter the status drawn and IsValid are the truth",
  "If field names are distinct and every field has a value, then after Enter each field drawn as valid passes its validators, each error list drawn is the one the validators give for its value, and IsValid holds exactly if all fields pass.",
  "all forms with distinct names, validators and values",
  "All histories.",
  ["components/form/form.go: renderField", "components/form/internal/domain/value/field.go", "components/form/internal/domain/model/form.go: UpdateField"])
p("No tag is left in plain text read from HTML without references",
  "ReadHTMLAsPlainText of a document without character references returns a text that contains no tag.",
  "all documents without an ampersand",
  "All documents.",
  ["clipboard/internal/domain/service/richtext_codec.go:StripHTMLTags"])
p("Windows console: what is written appears on the normal screen",
  "While the alternate screen is not in use and the console accepts its calls, Write puts the text at the cursor of the visible screen and WriteAt at the given cell.",
  "all reachable consoles, texts and cells",
  "Needs every history of screen switches.",
  ["terminal/internal/infrastructure/windows/console.go:Write", "terminal/internal/infrastructure/windows/console.go:EnterAltScreen", "terminal/terminal.go:Terminal"])
p("Windows console: one saved cursor position",
  "RestoreCursorPosition returns the cursor to the position of the last SaveCursorPosition, whatever other calls happened in between, if that cell still exists.",
  "all reachable consoles and call sequences",
  "Single save/restore pairs work.",
  ["terminal/internal/infrastructure/windows/console.go:SaveCursorPosition", "terminal/internal/infrastructure/windows/console.go:RestoreCursorPosition", "terminal/terminal.go:Terminal"])
p("Windows console: positions within 16 bits",
  "SetCursorPosition with coordinates that fit 16 bits fails exactly if the cell does not exist.",
  "all reachable consoles and 16-bit positions",
  "Any position a test tries in the range of a 16-bit number behaves.",
  ["terminal/internal/infrastructure/windows/console.go:SetCursorPosition", "terminal/terminal.go:Terminal"])
p("Windows clipboard: a write that fails early has no effect",
  "If opening the clipboard, emptying it or allocating memory fails, the write reports an error and neither the clipboard nor the memory changes hands.",
  "all texts, clipboards and failures of the first three calls",
  "Tests cannot make the system calls fail.",
  ["clipboard/internal/infrastructure/native/clipboard_windows.go:Write"])
p("Resume redraws the inline view",
  "Whatever text an external command left on the screen and wherever it left the cursor (at the start of a row), after Resume consecutive rows show the lines of View() of the current model, cut to the terminal size, the rows above are kept (scrolled if needed) and the rows below are as they were; the model is unchanged and the program is no longer suspended.",
  "every model and view, every screen content left by the command, every terminal size",
  "The screen an external command leaves is arbitrary.",
  ["tea/internal/application/program/program.go:Resume", "tea/internal/application/program/program.go:renderView", "tea/internal/infrastructure/renderer/inline.go:Repaint"])
p("The output of an external command stays on screen",
  "After an external command returns and the program resumes in inline mode, the text the command printed is still on the screen above the view (or scrolled off), not overwritten by it.",
  "every view and every command output",
  "Whether output is overwritten depends on the number of lines drawn before the command and on where it leaves the cursor.",
  ["tea/internal/application/program/program.go:Resume", "tea/internal/infrastructure/renderer/inline.go:Repaint"])
p("A mix of text, function keys and Esc is delivered key by key",
  "Any sequence of typed characters (control characters included), function keys sent as CSI sequences and Esc presses reaches the program as exactly one message per keystroke in order (none for the unassigned control codes), however the bytes are split into reads, provided no read boundary falls inside a CSI sequence and no byte follows an Esc in its read; characters may be split anywhere.",
  "all keystroke sequences and all such splits into reads",
  "Arrival timing decides the splits; there are exponentially many.",
  ["tea/internal/infrastructure/input/reader.go:Read", "tea/internal/infrastructure/ansi/parser.go:ParseKey"])
p("What is typed into a text input is what the terminal shows",
  "For a program whose model is a focused text input, whatever mix of text, Backspace, Delete, arrows, Home, End, Ctrl+U, Ctrl+E, Enter, Tab, other function keys and Esc the user types, however it arrives in reads, the input's value is what an ordinary line editor would hold, and a row of the terminal shows exactly that text followed by blanks, the rows below are blank and the rows above are kept; for characters one column wide and texts that fit the input and the row.",
  "all keystroke sequences, all ways they arrive, all terminal sizes and starting rows, all theme colours",
  "It composes the reader, the decoder, the input, the style package, the event loop and the inline renderer over all histories.",
  ["components/input/input.go:Update", "components/input/input.go:View", "tea/internal/infrastructure/input/reader.go:Read", "tea/internal/application/program/program.go:renderView", "tea/internal/infrastructure/renderer/inline.go:Render"])
p("Update sees only what was offered",
  "Every message Update is called with, batches flattened, is one that Send, a command's result or the keyboard offered, and each offered message is delivered at most as often as it was offered: the program invents nothing and delivers nothing twice.",
  "every interleaving of sends, commands, keys, batches, quits, timeouts and restarts",
  "The space of interleavings is unbounded; a test observes a few.",
  ["tea/internal/application/program/program.go:Run", "tea/internal/application/program/program.go:Send", "tea/internal/application/program/program.go:executeCommand"])
p("A program is told the window size",
  "A running program's Update is called with a WindowSizeMsg at start and after each resize, as its documentation promises.",
  "every execution of a program",
  "A test would have to resize a real terminal; absence of a message cannot be tested.",
  ["tea/tea.go:WindowSizeMsg", "tea/internal/application/program/program.go:Run"])
p("Unknown sequences are swallowed",
  "A CSI sequence the library has no key for (a modified arrow key, a short report), at most 11 bytes long and arriving in one read, gives no message and takes nothing of the keystrokes before and after it.",
  "all such sequences, between any other keystrokes, split into reads in any way that splits no sequence",
  "Infinitely many sequences and surroundings.",
  ["tea/internal/infrastructure/input/reader.go:Read", "tea/internal/infrastructure/ansi/parser.go:ParseKey"])
p("A mouse report is never taken for typed text",
  "With mouse tracking on, a terminal's SGR mouse report arriving in one read never shows up as typed characters.",
  "all buttons, columns and rows, press and release",
  "A test uses small coordinates.",
  ["tea/internal/infrastructure/input/reader.go:Read", "tea/internal/infrastructure/ansi/parser.go:ParseKey"])
p("macOS clipboard",
  "On macOS the native clipboard is available exactly when pbcopy and pbpaste are installed; a text written is then read back byte for byte, and Read never invents or alters a text.",
  "all texts, all outcomes of the tools",
  "All texts; needs macOS.",
  ["clipboard/internal/infrastructure/native/clipboard_darwin.go:Write", "clipboard/internal/infrastructure/native/clipboard_darwin.go:Read", "clipboard/internal/infrastructure/native/clipboard_darwin.go:IsAvailable"])
p("List: replacing the filter function never crashes and the next query puts the focus right",
  "After WithFilter on a list in a valid state with any function, asking for the focused item does not crash, and setting any query afterwards puts the focus on a visible existing item again.",
  "all list states, filter functions and queries",
  "All filter functions.",
  ["components/list/internal/domain/model/list.go: WithFilter, applyFilter, resetFocus"])
p("Table: sorting neither loses nor invents rows, whatever the values",
  "After any sequence of operations the rows shown are a permutation of the table's rows, for columns of any dynamic types.",
  "all histories of operations, all values",
  "All combinations of types.",
  ["components/table/internal/domain/service/sort.go: Compare"])
p("Progress: ordinary increments saturate",
  "Increment and Decrement by any amount not within 807 of the limits of int give the nearest value in 0..100.",
  "all bars and all such amounts",
  "Overflow happens only at extreme values.",
  ["components/progress/internal/domain/value/percentage.go Add, Subtract"])
p("Spinner: a single spinner keeps one tick pending",
  "A program with one spinner has exactly one tick pending after any number of ticks.",
  "all spinners and numbers of ticks",
  "Unbounded numbers of spinners and ticks.",
  ["components/progress/spinner.go Update, tick", "tea/tea.go Tick"])
p("A drag that ends away from its start is not a click",
  "If the pointer is at least the threshold away from the press when the button is released, the release is reported as a release and not as a click, whatever happened before and in between short of another button change.",
  "all configurations and event histories",
  "Unbounded pointer paths.",
  ["mouse/internal/application/event_processor.go", "mouse/internal/domain/service/drag_tracker.go"])
p("An ASCII line in a bordered box of any text is as long as the frame",
  "Each line of a bordered box's content that is ASCII is rendered exactly as long as the top edge, whatever the other lines are.",
  "all boxes and texts",
  "All of Unicode.",
  ["layout/internal/domain/service/render_service.go:Render"])
p("Text read from any RTF contains no braces and no outer white space",
  "The plain text taken from any RTF document contains no braces, neither starts nor ends with white space, and consists of bytes of the document.",
  "all byte strings",
  "All texts including control characters.",
  ["clipboard/internal/domain/service/richtext_codec.go: EncodeRTF, DecodeRTF"])
p("ClearLine blanks exactly the cursor's line",
  "ClearLine succeeds, blanks the cursor's row and no other cell, and leaves the cursor in that row, at column 0.",
  "all screens and cursor positions",
  "All screens and positions.",
  ["terminal/terminal.go", "terminal/internal/infrastructure/unix/ansi.go:ClearLine"])
p("ColorDepth is one of three values and true colour follows COLORTERM",
  "ColorDepth is 16, 256 or 16777216, true colour is reported exactly when COLORTERM is truecolor or 24bit, and the xterm, screen and tmux 256color names give at least 256.",
  "all values of COLORTERM and TERM",
  "All strings.",
  ["terminal/internal/infrastructure/unix/ansi.go:ColorDepth"])
p("TextInput: Ctrl with a non-character key types nothing",
  "A non-character key pressed with Ctrl leaves the content unchanged unless it carries the letter U.",
  "all inputs, keys and cluster segmentations",
  "All keys and contents.",
  ["components/input/internal/input/infrastructure/keybindings.go: Handle"])
p("TextInput: length validators count the characters of ASCII texts",
  "MinLength and MaxLength accept an ASCII text exactly if its number of characters is within the bound.",
  "all ASCII texts and bounds",
  "universally quantified over texts",
  ["components/input/internal/input/domain/service/validation.go:MinLength", "components/input/internal/input/domain/service/validation.go:MaxLength"])
p("Short mouse reports are never taken for typed text",
  "An SGR mouse report of at most 11 bytes arriving in one read gives no key message.",
  "all buttons, columns, rows, press and release with a report that short",
  "A test uses small coordinates.",
  ["tea/internal/infrastructure/input/reader.go:Read", "tea/internal/infrastructure/ansi/parser.go:ParseKey"])
p("One sender's messages keep their order",
  "Messages of one sender (the keyboard, or a goroutine that calls Send and waits for it to return) reach Update in the order they were sent; if none of its sends was given up, then what it has sent so far is exactly what Update has seen of it, followed by what is still queued and what it is still waiting to hand over.",
  "all programs, message lists, other senders, batches and interleavings",
  "Every interleaving of every number of senders with the event loop.",
  ["tea/internal/application/program/program.go:Send", "tea/internal/application/program/program.go:startInputReader", "tea/internal/application/program/program.go:Run"])
p("A stopped program is stopped",
  "When a program is not running (and no Stop ran into its time limit) it has no event loop, and Update is not called again, whatever commands, keys and senders still do, until it is started again.",
  "all histories of starts, sends, keys, commands, Quit and Stop",
  "Every later interleaving of the goroutines that are still alive.",
  ["tea/internal/application/program/program.go:Stop", "tea/internal/application/program/program.go:Start", "tea/internal/application/program/program.go:Run"])
p("Stop stops the program",
  "After Stop has returned, Update is not called any more: Stop blocks until the program has fully stopped.",
  "all moments at which Stop is called",
  "The moment at which Stop is called relative to Update.",
  ["tea/internal/application/program/program.go:Stop"])
p("TextInput: what View returns",
  "View never fails. While the input is empty and not focused it is the styled placeholder, otherwise the placeholder has no influence. For ASCII text it is, without focus or with the cursor switched off, a plain piece of the text that contains the cursor position, and all of the text if that fits in Width; with focus and the cursor on, exactly the character at the cursor, or a blank behind the text, is highlighted.",
  "all histories of calls and keys, all widths, placeholders and styles; the text claims: all ASCII contents",
  "Every content, width, cursor position and scroll offset.",
  ["components/input/input.go:View", "components/input/input.go:renderPlaceholder", "components/input/input.go:renderContent", "components/input/input.go:renderCursor"])
p("TextInput: what is drawn fits the width",
  "For ASCII text the characters drawn, the highlighted one or the cursor's blank included, number at most Width, unless the text fills the width exactly and the shown cursor is at its end.",
  "all inputs with ASCII content",
  "Every content, width and cursor position.",
  ["components/input/input.go:renderContent", "components/input/input.go:renderCursor"])
p("TextInput: Width bounds what is drawn",
  "What View draws is never wider than Width.",
  "all inputs",
  "The boundary case depends on the content's length, the width and the cursor.",
  ["components/input/input.go:Width", "components/input/input.go:renderContent"])
p("Send's answer is the truth",
  "Send is refused exactly while the program is not running; when it returns nil the message has been or will be handled by the event loop, never lost inside the program; when it returns the timeout error Update is never called with that message. A Send in progress ends in one of these two ways only, also when the program quits meanwhile.",
  "every reachable history and interleaving of senders, commands, keys and the loop",
  "the answer races with the loop, the queue and the timer; tests see a few schedules only",
  ["tea/internal/application/program/program.go:Send", "tea/internal/application/program/program.go:Run"])
p("A program that is started again starts afresh",
  "A run handles only messages sent to it: messages left over from an earlier run of the same program do not influence it.",
  "every history of one program that is run, ends and is run again",
  "needs a history in which messages are left in the queue when the loop ends",
  ["tea/internal/application/program/program.go:Run", "tea/internal/application/program/program.go:Send"])
p("Form: any Phoenix component works as a field",
  "A key that is not one of the form's own does to the focused field's component what the component's own Update does with it: typing into a form fills its fields (Form.Field: any Phoenix component works).",
  "every component of the library, every state of it, every key",
  "the components' method signatures decide it, which no test of the form with hand-made stubs exercises",
  ["components/form/form.go:delegateToFocusedField", "components/form/form.go:Field", "components/input/input.go:Update"])
p("A panic in Init, Update or View leaves a usable terminal",
  "If Init, Update or View panics the terminal has been taken out of raw mode and off the alternate screen when the process dies, whatever was suspended, resumed or executed before, provided the terminal's operations do not fail.",
  "every history of calls before the panic, either kind of start, any device answers before",
  "the process dies in the test; needs every state the panic can meet",
  ["tea/internal/application/program/program.go:Run", "tea/internal/application/program/program.go:Start"])
p("A panic in a command leaves a usable terminal",
  "If a command panics the terminal has been taken out of raw mode and off the alternate screen when the process dies.",
  "every history of calls before the panic",
  "the process dies in the test",
  ["tea/internal/application/program/program.go:executeCommand"])
p("List: the rows drawn without a renderer",
  "Without an item renderer the view consists of min(height, number of shown items) rows, each an item's label behind a mark: the focused item and no other has the arrow, every other drawn item has the check mark exactly if it is selected.",
  "every list of items, either mode, every history of keys and calls with positive heights",
  "depends on the focus, window, filter and selection reached by an arbitrary history",
  ["components/list/internal/domain/model/list.go:defaultItemRenderer", "components/list/internal/domain/model/list.go:RenderVisibleItems", "components/list/list.go:View"])
p("List: the view shows the selection",
  "From the view one can tell for every drawn item, the focused one included, whether it is selected: toggling the selection changes the view.",
  "every reachable list",
  "needs two states that differ in the selection only",
  ["components/list/internal/domain/model/list.go:defaultItemRenderer", "components/list/list.go:View"])
p("TextArea: the observer's calls are the cursor's path",
  "While only movement keys are pressed (arrows, Home, End, Ctrl-A/E/P/N/F/B, Alt-F/B/</>), the calls of the OnCursorMoved callback form a path: the first call starts at the first cursor position, each call starts where the previous one ended, no call has from = to, and the last one ends at the cursor. Any key press makes at most one callback (OnCursorMoved or OnBoundaryHit).",
  "every text area, validator and sequence of keys",
  "A test watches a few keys; a gap in the path needs a particular mixture of line lengths, fences and keys.",
  ["components/input/textarea.go:OnCursorMoved", "components/input/textarea.go:OnBoundaryHit", "components/input/internal/textarea/domain/service/navigation.go:moveCursor", "components/input/internal/textarea/infrastructure/keybindings/emacs.go:Handle"])
p("TextArea: the observer is told of every cursor move",
  "Whenever a key press moves the cursor, the OnCursorMoved callback is called with the old and the new position (so that, say, the new line can be highlighted).",
  "every text area and key",
  "Which keys move the cursor depends on the text; a test sees some keys only.",
  ["components/input/textarea.go:OnCursorMoved", "components/input/internal/textarea/domain/service/editing.go:InsertNewline"])
p("Modal: an open modal is on the screen",
  "A program whose model is an open modal (no dimmed background, ASCII texts, a rectangle inside the terminal, content that leaves the separator's row free) shows every row of the modal's box at its place on the terminal, whatever messages other than resizes it has handled, as long as the modal is open: the rows drawn with cursor addresses survive the program's line-by-line redraws.",
  "every such modal, terminal size, cursor position, starting screen of single-width characters, and sequence of key and other messages",
  "All key sequences and screens; what the redraws leave of the rows drawn before depends on the whole history.",
  ["components/modal/modal.go:View, renderModalBox, Update", "tea/internal/infrastructure/renderer/inline.go:Render", "tea/internal/application/program/program.go:renderView"])
p("Modal: a closed modal leaves the screen",
  "When a program's modal is closed, nothing of its box remains on the screen.",
  "all modals that were on the screen, all key sequences that close them",
  "All modals and histories.",
  ["components/modal/modal.go:View", "tea/internal/infrastructure/renderer/inline.go:Render"])
p("A program's output is determined by its views",
  "What a running program writes to its output depends only on the sequence of strings View returned and on the window sizes announced: two programs, however different their models and messages, that show the same views under the same sizes write the same bytes.",
  "every pair of models, update and view functions and message sequences, inline and alternate screen",
  "All programs and histories.",
  ["tea/internal/application/program/program.go:renderView", "tea/tea.go:Run"])
p("Println prints",
  "The command tea.Println(text) prints the text.",
  "all programs and texts",
  "All programs.",
  ["tea/tea.go:Println", "tea/internal/domain/service/builtin_cmds.go:Println"])
p("Mouse events reach Update",
  "A click in a program's terminal calls Update with a MouseMsg (with WithMouseAllMotion, motion too).",
  "all programs, executions and mouse reports",
  "All executions; the absence of a message cannot be tested.",
  ["tea/tea.go:MouseMsg, WithMouseAllMotion", "tea/internal/application/program/options.go:WithMouseAllMotion", "tea/internal/infrastructure/input/reader.go:Read"])
p("Form: Email accepts exactly name@host.tld",
  "The Email validator accepts a text exactly when it is a non-empty name of letters, digits and . _ % + -, an at sign, a non-empty host of letters, digits, dots and hyphens, a dot and at least two letters; everything else is refused with \"invalid email format\", and a value that is not text with \"invalid type (expected string)\". An accepted text is printable ASCII with no blanks, has exactly one at sign and at least six characters.",
  "all byte strings and values",
  "All texts, including invalid UTF-8.",
  ["components/form/internal/domain/value/validator.go:Email"])
p("Form: Pattern accepts exactly the texts with a match",
  "Every pattern written as an optional ^, single-character expressions (literals, escaped punctuation, dot, \\d \\D \\w \\W \\s \\S, classes of characters and ranges, negated or not) each with an optional + * ? {n} {n,} or {n,m}, and an optional $, is accepted as a pattern, and a text passes exactly when some part of it, tied to the ends the pattern names, divides into one piece per expression, each of as many characters as the repetition allows, all of the expression's kind; a word of letters and digits accepts exactly the texts that contain it.",
  "all texts and all patterns of the modelled language",
  "All patterns and all texts.",
  ["components/form/internal/domain/value/validator.go:Pattern"])
p("Form: Email accepts the valid addresses and no others",
  "A text is accepted by Email exactly when it is a valid (unquoted) mail address: atoms separated by single dots, an at sign and host labels separated by single dots.",
  "all texts",
  "All texts.",
  ["components/form/internal/domain/value/validator.go:Email"])
p("Terminal: mode calls from several goroutines",
  "EnterAltScreen, ExitAltScreen, IsInAltScreen, EnterRawMode, ExitRawMode and IsInRawMode of the Unix terminal, made from any number of goroutines, behave as if made one after another in some order that keeps each goroutine's own; whenever none is under way the two questions tell the truth about the device, so of several goroutines entering a mode at once exactly one succeeds. No schedule deadlocks.",
  "all goroutines, call sequences, schedules and patterns of system failures",
  "All schedules.",
  ["terminal/internal/infrastructure/unix/ansi.go:EnterAltScreen", "terminal/internal/infrastructure/unix/ansi.go:EnterRawMode"])
p("Clipboard: concurrent writes are each recorded once",
  "With history enabled, writes, history listings, clearings and expirations from any number of goroutines act on the history as if made one after another in some order that keeps each goroutine's own. If the goroutines only write and list, the history ends up with every successful write exactly once (the last n of them under a limit of n), each goroutine's in its own order, with rising times. No schedule deadlocks.",
  "all goroutines, call sequences, limits and schedules",
  "All schedules.",
  ["clipboard/internal/domain/service/clipboard_history.go:Add", "clipboard/internal/application/clipboard_manager.go:Write"])
p("Clipboard: the newest history entry is what the clipboard holds",
  "When concurrent writes have all returned successfully, the newest history entry is the text the clipboard holds.",
  "all goroutines and schedules",
  "All schedules.",
  ["clipboard/internal/application/clipboard_manager.go:Write"])
p("A drawing that failed is made up by the next",
  "If the write of a frame fails before the terminal has taken any of it, nothing changes: after any mix of failed and successful drawings, repaints and resizes the screen below the prompt shows the last successfully drawn view, in particular the same view when it is drawn again, and what was above stays.",
  "all histories of drawings, repaints and resizes with failed writes anywhere",
  "The failures can come anywhere in an unbounded history, and what is written depends on all earlier frames.",
  ["tea/internal/infrastructure/renderer/inline.go:Render", "tea/internal/application/program/program.go:renderView"])
p("A drawing that failed halfway is made up by the next",
  "Render errors do not corrupt the renderer: whatever part of the frame the terminal took before the write failed, drawing the view again shows it in its place and leaves the rows above alone.",
  "all views and all lengths of the part that was written",
  "Every cut of every frame.",
  ["tea/internal/infrastructure/renderer/inline.go:Render"])
p("Renderer: errors tell the truth",
  "Whenever and however often the output fails: if all calls on the renderer returned nil then everything was handed to the output and the screen shows the last frame; in every case what the output got is a beginning of what it would have got without failures; after an error nothing more is written; and an output that does not fail gives no errors.",
  "all sequences of Render, Clear, Resize, HideCursor, ShowCursor; all points of failure; all ways of buffering",
  "Failures at every byte of every frame sequence.",
  ["render/renderer.go:Render", "render/internal/application/renderer.go", "render/internal/infrastructure/ansi/writer.go"])
p("Renderer: a frame that failed can be rendered again",
  "When the output failed once and works again, rendering the frame again brings it to the screen.",
  "all frames and failures",
  "Any later call in any history could be the one that recovers.",
  ["render/renderer.go:Render", "render/internal/infrastructure/ansi/writer.go:NewWriter"])
p("Batch: a finished command's message is not held back by the others",
  "A command given to Batch delivers its message when it is done, even while another command of the batch still runs (a Tick, a slow request).",
  "all command lists and completion orders",
  "Every prefix of every completion order.",
  ["tea/tea.go:Batch", "tea/internal/domain/model/cmd.go:Batch"])
p("Inline drawing from several goroutines: frames are whole",
  "The inline renderer may be used from several goroutines at once (the event loop draws, a resize or a repaint comes from elsewhere). Whatever the interleaving, once all calls have returned there is an order of the calls, keeping each goroutine's own order, in which they could have been made one after another: the bytes the terminal received are exactly those, so no frame is interleaved with another, and the screen shows the view drawn last in that order under the assumptions of C11. No interleaving can get stuck.",
  "all numbers of goroutines, call sequences, schedules, screens",
  "The guarantee is over every interleaving of field accesses and writes; a race test samples a few.",
  ["tea/internal/infrastructure/renderer/inline.go:InlineRenderer"])
p("The tutorials' key names are those of the keys",
  "A program that compares KeyMsg.String() with the names the tutorials and examples give (\"up\", \"down\", \"left\", \"right\" for the arrows, \"f1\", \"shift+tab\", \"ctrl+i\", \"ctrl+j\") reacts when that key is pressed.",
  "all byte inputs and chunkings from the terminal",
  "No finite set of inputs shows that no input yields such a name.",
  ["tea/internal/domain/model/msg.go:String", "tea/internal/domain/model/msg.go:keyTypeName", "docs/user/tutorials/01-getting-started.md"])
p("Typed text carries no control characters",
  "Whatever bytes the terminal sends and however they are split into reads, a character key delivered to Update (one without Ctrl) carries a valid Unicode character that is neither a C0 control code nor Space (which has its own key) nor Delete: escape sequences cannot enter a program's text through the keyboard.",
  "all byte inputs and chunkings from the terminal",
  "All inputs, malformed UTF-8 and escape sequences included.",
  ["tea/internal/infrastructure/input/reader.go:Read", "tea/internal/infrastructure/ansi/parser.go:ParseKey"])
p("Rendering untrusted text through a style is safe",
  "Text rendered through a style cannot act on the terminal: escape sequences it contains are not obeyed (SECURITY.md recommends Render as the safe way to show user content).",
  "all texts and styles",
  "All texts.",
  ["style/style.go:Render", "style/internal/application/command/render.go:Execute", "SECURITY.md"])
p("Mouse positions are validated",
  "The position of a mouse event lies within the terminal (SECURITY.md: positions are validated and checked against the terminal's dimensions).",
  "all reports and terminal sizes",
  "All reports.",
  ["mouse/internal/infrastructure/parser/sgr_parser.go:Parse", "mouse/internal/application/mouse_handler.go:ParseSequence", "SECURITY.md"])
p("TextInput: cursor and placeholder in the theme's colours",
  "Theme changes how the input looks and nothing else: content, cursor, selection, focus and the rest are those of the same calls without it. The theme in force is the one given last, or the default theme if none or nil was given. With focus and the cursor on, View shows the window of the text in the terminal's default look except for the character at the cursor (a blank behind the text), which has the theme's Focus colour as background and its Background colour as foreground; afterwards the pen is the default one again. Without focus and without text the placeholder is shown in the theme's PlaceholderColor, and nothing else is. The default theme's colours are blue (96, 165, 250) and black for the cursor and grey (107, 114, 128) for the placeholder.",
  "every width, every list of calls of any setters, keys and Theme, every theme, every printable ASCII text (cursor), every placeholder without ESC",
  "Themes, histories and texts are unbounded; the tests call Theme once and look for the text in the output, not at the colours a terminal shows.",
  ["components/input/input.go:renderCursor", "components/input/input.go:renderPlaceholder", "components/input/input.go:Theme", "style/theme.go:DefaultTheme"])
p("List: messages in the theme's colours",
  "A list shows \"(no matches)\" (with a filter) or \"(empty list)\" (without) in the TextMuted colour of the theme in force in place of its rows when there is nothing to show, and \"Filter: (active)\" in the theme's Info colour on a last line of its own exactly while the filter is shown and has text. The rows are shown as the renderer drew them, in the default look, one per line; the pen is the default one afterwards. The theme in force is the one given last, or the default theme.",
  "every list of items, every list of calls of setters, keys and Theme, every renderer whose rows have no ESC, every theme",
  "Histories, items and themes are unbounded; the tests look for substrings in View.",
  ["components/list/list.go:View", "components/list/list.go:Theme"])
p("TextArea: what is typed is what the terminal shows",
  "A program that is nothing but a TextArea, running in inline mode: whatever keystrokes are made, its text and cursor are those of a plain editor (characters inserted at the cursor, Enter splits the line, Backspace and Delete join lines at their ends, arrows, Home and End, and the Emacs Ctrl keys move), and the terminal shows exactly that text, one line per row, with blanks elsewhere in its rows, while what stood above is kept, scrolled.",
  "every sequence of one-column characters, control characters other than Ctrl+K, U, W and Y, function keys sent as CSI sequences, Esc and unknown sequences, under every split into reads no boundary of which falls inside a key (C283); every area width, every terminal and starting row, texts that fit the area's height and the terminal, steps that do not run into C148 (fewer lines with an unchanged last line, see C341); any width oracles giving these characters one column",
  "quantifies over all typing histories through key parser, component, event loop, renderer and terminal together",
  ["components/input/textarea.go:Update", "components/input/textarea.go:View", "components/input/internal/textarea/infrastructure/keybindings/emacs.go:Handle", "tea/internal/infrastructure/input/reader.go:Read", "tea/internal/infrastructure/renderer/inline.go:Render"])
p("TextArea: joining lines keeps the last one on the screen",
  "Whatever is typed into a TextArea that fits its height and the terminal, the terminal shows every line of its text.",
  "all keystrokes of C340, with no condition on how the number of lines changes",
  "the failure needs two lines with equal text and a particular history of joins",
  ["components/input/textarea.go:View", "tea/internal/infrastructure/renderer/inline.go:Render"])
p("Modal: a button can have any key",
  "A visible modal's button is pressed by its own key whatever that key is, as in the README's example with an OK button on \"enter\" and a Cancel button on \"esc\".",
  "all modals with the default key bindings, button lists and keys",
  "the keys that bindings take first are found only by considering every key for every button list and focus",
  ["components/modal/modal.go:handleKeyPress", "components/modal/modal.go:Buttons", "components/modal/internal/infrastructure/keybindings.go"])
p("TextArea: the boundary handler is told of exactly what is refused",
  "With a movement validator, the OnBoundaryHit handler is called exactly once, with the attempted position, when a movement key other than Home would go to a position the validator refuses (one row beyond the text for Up on the first line and Down on the last), and not at all otherwise; for Home exactly when every column of the line is refused (with the line's start, nothing changing), which is also what Ctrl-U tells; for Backspace when the text may be changed and the position before the cursor is refused. No other key and no key without a validator calls it.",
  "all texts, cursor positions, settings, validators and keys",
  "it must hold for every validator, text and key; tests use a handful of validators",
  ["components/input/textarea.go:OnBoundaryHit", "components/input/internal/textarea/domain/service/navigation.go:MoveUp", "components/input/internal/textarea/domain/service/navigation.go:MoveToLineStart", "components/input/internal/textarea/domain/service/editing.go:Backspace"])
p("TextArea: a new text area has the documented settings",
  "NewTextArea is empty with the cursor at its start, 80 by 24, without wrapping, unlimited in lines and characters, editable, without a validator, and remembers ten kills.",
  "the one initial state",
  "the settings are what every history starts from; tests check one or two of them",
  ["components/input/textarea.go:NewTextArea", "components/input/internal/textarea/domain/model/textarea.go:NewTextArea"])
p("TextArea: the top and the bottom are told",
  "As the cursor control documentation says of the reasons given, Up on the first line tells the boundary handler 'already at top' and Down on the last line 'already at bottom'.",
  "all texts, positions and settings",
  "it must hold with and without a validator",
  ["components/input/textarea.go:OnBoundaryHit", "components/input/docs/textarea/CURSOR_CONTROL_API.md", "components/input/internal/textarea/domain/service/navigation.go:MoveDown"])
p("Table, Modal, Viewport, Progress, Spinner: a theme disturbs nothing",
  "Whatever themes are set and when, a table, modal, viewport, progress bar or spinner has the same state, shows the same view and (for a modal) sends the same messages as after the same calls without those of Theme.",
  "all lists of calls with calls of Theme anywhere among them, all themes, nil included",
  "Histories and themes are unbounded.",
  ["components/table/table.go:Theme", "components/modal/modal.go:Theme", "components/viewport/viewport.go:Theme", "components/progress/bar.go:Theme", "components/progress/spinner.go:Theme"])
p("Table, Modal, Viewport, Progress, Spinner: drawn with the theme",
  "As documented (Theme sets the theme for styling the component; DefaultTheme is used if nil), the theme set can be seen: some two histories that differ only in the themes they set give different views.",
  "all lists of calls, all themes",
  "That no theme is ever seen is a statement about all histories.",
  ["components/table/table.go:Theme", "components/modal/modal.go:Theme", "components/viewport/viewport.go:Theme", "components/progress/bar.go:Theme", "components/progress/spinner.go:Theme"])
p("Render: pooled buffers",
  "Whatever buffers a program gets from a Renderer (Buffer) or makes (NewBuffer), draws in, renders and releases, and whatever the pool hands out again: what the renderer writes is what it would write for the frames as they were at the time they were rendered, so later drawing (in the same buffer or in one sharing its memory) and releasing changes nothing already rendered. Buffer() is always blank. In a program that no longer uses the buffers it released, every buffer not released holds exactly what was drawn in it since it was got, and after it is rendered the terminal shows that.",
  "all programs of any length, drawing calls, buffer sizes, resizes, pool choices (which buffer Get returns, which ones are lost), terminal sizes",
  "Which buffer sync.Pool returns is not under a test's control, and aliasing between a frame, the renderer's memory of it and a reused buffer shows only in particular interleavings of draw, render and release.",
  ["render/renderer.go:Buffer", "render/renderer.go:Release", "render/internal/application/renderer.go:GetBuffer", "render/internal/application/renderer.go:PutBuffer", "render/internal/domain/model/buffer.go:Clone"])
p("Render: Buffer() after Resize has the new size",
  "After Resize(w, h) every buffer Buffer() returns is w x h (the package documentation: \"New buffer with new dimensions\").",
  "all programs, sizes, pool choices",
  "Only programs that release a buffer before resizing, with a pool that hands it out again, show the difference.",
  ["render/renderer.go:Buffer", "render/internal/application/renderer.go:Resize", "render/internal/application/renderer.go:GetBuffer"])
p("Render: releasing a buffer twice is harmless",
  "After Release has been called twice on a buffer, buffers got from Buffer() are still different buffers: drawing in one does not change another.",
  "all programs, pool choices",
  "The damage appears later, in two buffers got by unrelated parts of the program.",
  ["render/renderer.go:Release", "render/internal/application/renderer.go:PutBuffer"])
p("Render: frames from several goroutines are whole",
  "When several goroutines call Render, Clear, Resize, HideCursor and ShowCursor on one Renderer (each rendering buffers nobody draws in meanwhile), then however the calls interleave, there is an order of the calls, keeping each goroutine's own, such that what is written is exactly what the calls made one after another in that order write: frames never mix on the screen, which shows the last frame of that order; and no schedule deadlocks.",
  "all numbers of goroutines, all programs of calls, all schedules, all frames of single-column characters and terminal sizes",
  "The race detector sees only schedules that happen to occur; mixed output shows in particular interleavings of cursor moves and cells.",
  ["render/internal/application/renderer.go:Render", "render/internal/application/renderer.go:Resize", "render/internal/application/renderer.go:Clear", "render/renderer.go:Renderer"])
p("Render: a buffer may be updated while it is rendered",
  "A drawing call made by another goroutine while the buffer is being rendered (\"Thread-safe operations (concurrent buffer updates supported)\") is on the screen after the buffer is rendered again.",
  "all buffers, drawing calls and moments between the accesses of Render",
  "The drawing must fall between the comparison and the copy inside one Render.",
  ["render/internal/application/renderer.go:Render", "render/internal/domain/model/buffer.go:Clone", "render/renderer.go:Set"])
p("External commands: the program has its terminal back",
  "When ExecProcess or ExecProcessWithTTY has returned, with or without an error, the program's process group is the terminal's foreground group and SIGTTOU is no longer ignored. When the command has ended the call goes on to return and, if Resume succeeds, the TUI is back and the command's process has been waited for; the call waits for nothing else.",
  "every function and option, every behaviour of the command, every sequence of Ctrl-Z, Ctrl-C and shell fg, every schedule and failure of Suspend, Start, the hand-over and Resume",
  "It depends on when the command reads, when keys are pressed and when the scheduler lets the program hand over the terminal; a test has no shell, no terminal and one schedule.",
  ["tea/internal/application/program/tty_control_linux.go:execWithTTYControl", "tea/internal/application/program/program.go:ExecProcess"])
p("External commands: Ctrl-Z never locks the terminal",
  "Pressing Ctrl-Z while an external command runs suspends the command, and the user can go on: the TUI comes back, or the shell does and its fg continues.",
  "every reachable state of a call, every option",
  "It depends on when the command reads, when keys are pressed and when the scheduler lets the program hand over the terminal; a test has no shell, no terminal and one schedule.",
  ["tea/internal/application/program/tty_control_linux.go:execWithTTYControl", "tea/internal/application/program/program.go:ExecProcess"])
p("External commands can read the terminal from their start",
  "A command that reads from the terminal gets its input, whenever it reads, until a key ends or stops it.",
  "every schedule of the program and the command",
  "It depends on when the command reads, when keys are pressed and when the scheduler lets the program hand over the terminal; a test has no shell, no terminal and one schedule.",
  ["tea/internal/application/program/tty_control_linux.go:execWithTTYControl", "tea/internal/application/program/program.go:ExecProcess"])
p("Every combination of TTYOptions runs interactive commands",
  "A command that reads from the terminal can be run with each combination of TransferForeground and CreateProcessGroup.",
  "the four combinations, every schedule, kernels that accept and kernels that refuse a group that does not exist",
  "It depends on when the command reads, when keys are pressed and when the scheduler lets the program hand over the terminal; a test has no shell, no terminal and one schedule.",
  ["tea/internal/application/program/tty_control_linux.go:execWithTTYControl", "tea/internal/application/program/program.go:ExecProcess"])
p("External commands leave no process behind",
  "When ExecProcess or ExecProcessWithTTY has returned, no process of the command is left, not even one that was never waited for.",
  "every option, schedule and failure",
  "It depends on when the command reads, when keys are pressed and when the scheduler lets the program hand over the terminal; a test has no shell, no terminal and one schedule.",
  ["tea/internal/application/program/tty_control_linux.go:execWithTTYControl", "tea/internal/application/program/program.go:ExecProcess"])
p("Ctrl-C in an external command is the command's",
  "Ctrl-C pressed while an external command runs goes to the command only: the program is still there afterwards.",
  "every reachable state of a call while the command runs",
  "It depends on when the command reads, when keys are pressed and when the scheduler lets the program hand over the terminal; a test has no shell, no terminal and one schedule.",
  ["tea/internal/application/program/tty_control_linux.go:execWithTTYControl", "tea/internal/application/program/program.go:ExecProcess"])
p("Windows console: mode calls from several goroutines",
  "EnterAltScreen, ExitAltScreen, EnterRawMode, ExitRawMode, IsInAltScreen and IsInRawMode called from any number of goroutines behave as if made one after the other, in an order that keeps each goroutine's own: a call succeeds only in the opposite mode (always, if no Win32 call fails), so that of several goroutines entering at once one succeeds; the questions are answered truthfully; when no call is under way the flags agree with the console, its input mode is the original one or the raw one made from it, and no screen buffer but the visible one and the original is open. Nobody waits forever.",
  "all programs of mode calls of all goroutines, all schedules, all failures of Win32 calls",
  "The interleavings of six methods in any number of goroutines with any failures cannot be enumerated, and the code runs on Windows only.",
  ["terminal/internal/infrastructure/windows/console.go:EnterAltScreen", "terminal/internal/infrastructure/windows/console.go:ExitRawMode"])
p("Windows console: clearing the alternate screen leaves the user's own alone",
  "A Clear that is called while the alternate screen is on never clears what the user had on the screen before the program, also when another goroutine leaves the alternate screen at the same time.",
  "all schedules of Clear and ExitAltScreen",
  "It takes another goroutine's ExitAltScreen between two lines of Clear.",
  ["terminal/internal/infrastructure/windows/console.go:Clear", "terminal/internal/infrastructure/windows/console.go:ExitAltScreen"])
p("Confirm: the answer given is the button highlighted on the terminal",
  "In a program whose model is a confirmation dialog with the buttons Yes, No and possibly Cancel, whatever keys are pressed and however their bytes arrive in reads, the terminal shows the title, the description if there is one, an empty row and the button row with exactly the button in square brackets that a spectator expects who counts arrows, Tabs and letters; No is highlighted at first. Enter gives the answer of the button highlighted at that moment, y, n and c their own, Esc cancels; once answered nothing changes, and the rows above the dialog are only scrolled.",
  "every sequence of keystrokes except Ctrl-C, Ctrl-N and Ctrl-Y, every way they arrive in reads, every title and description of single-width characters that fit the width, with and without the Cancel button, every terminal of at least 28 columns with enough rows and every cursor row",
  "key bytes may be split and joined in many ways and the screen is the result of all drawings so far; tests see the key messages and the View string separately",
  ["components/confirm/confirm.go:Update", "components/confirm/confirm.go:View", "components/confirm/internal/domain/model/confirm.go:Confirm", "tea/internal/application/program/program.go:renderView", "tea/internal/infrastructure/renderer/inline.go:Render"])
p("The option Enter chooses in a Select is the one marked on the terminal",
  "Let a program run a filterable Select of string options through the inline renderer. At every moment the terminal shows the title, up to ten of the options that match what was typed, with \"> \" before exactly one of them (a note if none matches), and what was typed; rows of a longer list that is gone are blank again, and everything above the widget is as before. Typed characters, Backspace, Esc, the arrows, Home, End and the letters j, k, g, G move and filter as on the screen, the mark moving to the last match when its row is gone. Enter chooses the option marked on the screen: the selected value is its text; before Enter nothing is selected.",
  "every list of options and title of single-width characters that fit the width, every filter that accepts an empty query, every sequence (typing no more than fits its row) of printable ASCII characters, Enter, Tab, Backspace, function keys, Esc and unknown sequences, every way the bytes of the keystrokes arrive in reads, every terminal wide and high enough",
  "a test compares a string with View() after a few calls; the claim needs every sequence of keys, through the reader's splits and the renderer's differences between frames of different heights",
  ["components/select/select.go:Update", "components/select/select.go:View", "components/select/internal/domain/model/select.go:SetFilterQuery", "components/select/internal/domain/model/select.go:RenderVisibleOptions", "components/select/internal/domain/model/defaults.go:defaultRender", "tea/internal/infrastructure/renderer/inline.go:Render"])
p("The options a MultiSelect delivers are the ones ticked on the terminal",
  "Let a program run a filterable MultiSelect of string options, with or without a maximum, through the inline renderer. At every moment the terminal shows the title with the number of ticked options and of all options in decimal, up to ten of the options that match what was typed, with \"> \" before the marked one and \"[x]\" before exactly the ticked ones, what was typed and the help; rows of a longer list that is gone are blank again and everything above the widget is as before. Space ticks or unticks the option marked on the screen (ticking none above the maximum), a ticks the matching options from the top until the maximum, n unticks all, also hidden ones; filtering and moving never change the ticks. Enter delivers the texts of the ticked options, in the order of the list, without changing anything.",
  "every list of options and title of single-width characters that fit the width, every maximum, every filter that accepts an empty query, every sequence (typing no more than fits its row) of printable ASCII characters, Enter, Tab, Backspace, function keys, Esc and unknown sequences, every way the bytes of the keystrokes arrive in reads, every terminal wide and high enough",
  "a test compares a string with View() or a slice with SelectedItems() after a few calls; the claim needs every sequence of keys, through the reader's splits and the renderer's differences between frames of different heights",
  ["components/multiselect/multiselect.go:Update", "components/multiselect/multiselect.go:View", "components/multiselect/internal/domain/model/multiselect.go:Toggle", "components/multiselect/internal/domain/model/multiselect.go:SelectAll", "components/multiselect/internal/domain/model/multiselect.go:SelectedValues", "components/multiselect/internal/domain/model/defaults.go:defaultRender", "tea/internal/infrastructure/renderer/inline.go:Render"])
open("/verif/properties.jsonl","w").write("".join(json.dumps(x,ensure_ascii=False)+"\n" for x in P))
print(len(P))
