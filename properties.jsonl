{"id": "C01", "title": "Frame diff applied to the old frame gives the new frame", "statement": "For two frames of equal size, patching the old frame cell by cell with the operations the differ returns yields exactly the new frame: every changed cell (character, style, width) is updated and no other cell is touched.", "quantifier": "all frame sizes and all pairs of frame contents", "why_tests_cant": "Frames are unbounded 2-D arrays; a test samples a few pairs.", "anchors": ["render/internal/domain/service/diff.go: DiffService.Diff", "render/internal/domain/model/buffer.go: Buffer", "render/internal/domain/model/cell.go: Cell.Equals"]}
{"id": "C02", "title": "Frame diff is minimal and in reading order", "statement": "The differ returns one operation for each position whose cell differs (and none for a position whose cell is equal), sorted by row then column, and HasChanges/CountChanges agree with it; for a resized frame it repaints exactly the non-blank cells.", "quantifier": "all pairs of frames, including absent or differently sized old frames", "why_tests_cant": "Minimality and order are universally quantified over positions and contents.", "anchors": ["render/internal/domain/service/diff.go: Diff, diffFullBuffer, HasChanges, CountChanges"]}
{"id": "C03", "title": "The renderer keeps the terminal screen equal to the last rendered frame (characters)", "statement": "After any sequence of Render, Clear and Resize calls on one renderer, a VT100 terminal that interprets exactly the bytes emitted shows, at every position of the last rendered frame, that frame's character, provided every cell is a single-column character.", "quantifier": "all sequences of renderer calls, all frame contents and sizes", "why_tests_cant": "The correctness of a differential renderer depends on the whole history of frames and on cursor-position caching.", "anchors": ["render/internal/application/renderer.go: Render, Clear, Resize", "render/internal/infrastructure/ansi/writer.go: MoveCursor, WriteCell", "render/internal/infrastructure/ansi/codes.go"]}
{"id": "C04", "title": "The renderer keeps the terminal screen equal to the last rendered frame (styles)", "statement": "Under the same conditions, and if all cells switch on the same attributes and kinds of colour, every cell on the terminal also has the style (colours and attributes) of the frame's cell.", "quantifier": "all sequences of renderer calls, all frame contents and styles", "why_tests_cant": "Attribute leakage between neighbouring cells depends on which cells a diff happens to touch, i.e. on the history.", "anchors": ["render/internal/infrastructure/ansi/writer.go: WriteCell", "render/internal/domain/value/style.go: ToANSI"]}
{"id": "C05", "title": "Rendering an unchanged frame writes nothing", "statement": "Rendering a frame equal to the frame currently displayed emits no bytes at all.", "quantifier": "all frames and all renderer histories leading to them", "why_tests_cant": "Needs every frame content and every history.", "anchors": ["render/internal/application/renderer.go: Render", "render/internal/domain/service/diff.go"]}
{"id": "C06", "title": "Frame buffer reads back what was written", "statement": "Set/Get/Fill/SetLine/SetString/Resize obey the array laws: a write is read back at its position when in bounds, changes nothing elsewhere, out-of-bounds accesses are ignored, Resize keeps the overlapping region and blanks the rest, SetString touches only its row, from its column, within the frame.", "quantifier": "all buffer sizes, positions (including negative and out of range), strings", "why_tests_cant": "Positions and contents are unbounded.", "anchors": ["render/internal/domain/model/buffer.go"]}
{"id": "C07", "title": "Style to ANSI is faithful", "statement": "Interpreting the escape sequence produced for a style, starting from default attributes, gives exactly that style, and two styles give the same sequence only if they are equal.", "quantifier": "all 2^8 attribute sets times all 24-bit foreground and background colours", "why_tests_cant": "2^8 * 2^50 styles.", "anchors": ["render/internal/domain/value/style.go: ToANSI, Equals", "render/internal/domain/value/color.go"]}
{"id": "C08", "title": "Key decoding is exact", "statement": "The key decoder maps each documented byte sequence to its key, maps no other sequence to a special key, decodes every printable ASCII byte to itself and every control byte to Ctrl+letter (except Tab, Enter, Backspace, Esc), and never decodes two different keys from one sequence.", "quantifier": "all byte sequences of every length", "why_tests_cant": "The input space is all byte strings.", "anchors": ["tea/internal/infrastructure/ansi/parser.go: ParseKey"]}
{"id": "C09", "title": "Typed text reaches the program whole, in order and independently of read chunking", "statement": "For any input that contains no ESC byte, the key messages delivered are exactly the decoded characters in order, whatever way the bytes are split into reads.", "quantifier": "all byte streams and all ways of splitting them into chunks", "why_tests_cant": "Chunking is decided by the kernel scheduler; there are exponentially many splits.", "anchors": ["tea/internal/infrastructure/input/reader.go: Read", "tea/internal/infrastructure/input/cancelable_reader.go"]}
{"id": "C10", "title": "Function and navigation keys reach the program", "statement": "A CSI escape sequence that the key decoder documents, arriving in one read, is delivered as exactly that key and consumes exactly its bytes.", "quantifier": "all documented sequences followed by any further input", "why_tests_cant": "The composition of the reader's framing with the decoder must hold for every following byte string.", "anchors": ["tea/internal/infrastructure/input/reader.go: Read", "tea/internal/infrastructure/ansi/parser.go: ParseKey"]}
{"id": "C11", "title": "The inline renderer shows exactly the last view", "statement": "After any sequence of Render/Repaint/Resize calls, the rows from the top of the rendered region show exactly the lines of the last view (clipped to the last terminal height, cut to the width), rows below it are blank, and the cursor is at the start of the region's last row; for histories whose shown lines are narrower than the terminal, that never shrink onto an unchanged last line and never render an empty view right after a repaint.", "quantifier": "all sequences of views and resizes", "why_tests_cant": "Line-diffing correctness depends on the whole history.", "anchors": ["tea/internal/infrastructure/renderer/inline.go: Render, Repaint, Resize"]}
{"id": "C12", "title": "Line truncation never exceeds the terminal width and keeps escape sequences", "statement": "A truncated line (of bytes without overlong encodings) has visual width at most the limit, keeps a prefix of the line's visible text, keeps every escape sequence before the cut intact, and a line that fits is returned unchanged.", "quantifier": "all byte strings and widths", "why_tests_cant": "All byte strings, including malformed UTF-8 and unterminated escapes.", "anchors": ["tea/internal/infrastructure/renderer/inline.go: truncateLine, stripANSI, visualWidth, decodeRune"]}
{"id": "C13", "title": "Messages are delivered once, in order", "statement": "In every schedule, the model's Update is called with the messages accepted into the program's queue, each exactly once, in the order in which they entered the queue, with batches and sequences replaced by their members appended in order; none is dropped while the program runs.", "quantifier": "all interleavings of senders, commands, the input reader and the event loop", "why_tests_cant": "Interleavings are unbounded.", "anchors": ["tea/internal/application/program/program.go: Run, Start, Send, executeCommand"]}
{"id": "C14", "title": "The event loop never blocks on itself", "statement": "Whenever at most 100 messages are outstanding (batches counted at every nesting level) and the queue is non-empty the event loop can take a step, and it drains the queue: handling a message never waits for room in the queue that only the loop itself could make.", "quantifier": "all batch sizes and queue occupancies, all interleavings", "why_tests_cant": "Deadlock depends on queue occupancy at the moment of the expansion.", "anchors": ["tea/internal/application/program/program.go: Run (BatchMsg, SequenceMsg)"]}
{"id": "C15", "title": "Quit stops the program", "statement": "After a quit message is taken from the queue Update is never called again and Run returns; a call to Quit() while the loop is idle and no command waits makes the loop exit.", "quantifier": "all interleavings", "why_tests_cant": "Whether a non-blocking send on an unbuffered channel is received depends on the schedule.", "anchors": ["tea/internal/application/program/program.go: Run, Quit, Stop, executeCommand"]}
{"id": "C16", "title": "At most one event loop runs per program", "statement": "Whatever the interleaving of Run, Start, Stop and Quit, at most one event loop of a program is active at a time, and a second Run/Start returns an error while one is active, as long as no Stop() timed out.", "quantifier": "all interleavings and timeouts", "why_tests_cant": "Depends on scheduling and timeout expiry.", "anchors": ["tea/internal/application/program/program.go: Run, Start, Stop"]}
{"id": "C17", "title": "The terminal is restored when the program ends", "statement": "However Run ends (quit message, external quit, alt-screen failure), the terminal is left out of raw mode and out of the alternate screen, provided the terminal's own exit operations do not fail; and it is in its normal state whenever the program is stopped, as long as Resume is not called on a program that has ended.", "quantifier": "all executions including Suspend/Resume/ExecProcess calls and failures of individual terminal operations", "why_tests_cant": "Failure points times call histories.", "anchors": ["tea/internal/application/program/program.go: Run, Suspend, Resume", "terminal/internal/infrastructure/unix/ansi.go"]}
{"id": "C18", "title": "Suspend and Resume are inverse", "statement": "Suspend leaves raw mode and the alternate screen; a following successful Resume brings back exactly the modes that were active; both are idempotent; a failed Suspend leaves the program unsuspended.", "quantifier": "all initial terminal states and all patterns of terminal-operation failures", "why_tests_cant": "All failure points.", "anchors": ["tea/internal/application/program/program.go: Suspend, Resume, ExecProcess"]}
{"id": "C19", "title": "Command combinators", "statement": "Batch and Sequence drop nil commands, return nil for none and the command itself for one; otherwise Batch runs each exactly once and reports a permutation of the results for every completion order, and Sequence runs them in order and reports the results in order.", "quantifier": "all command lists and all completion orders", "why_tests_cant": "n! completion orders.", "anchors": ["tea/internal/domain/model/cmd.go: Batch, Sequence", "tea/tea.go: Batch, Sequence"]}
{"id": "C20", "title": "Messages cross the public API unchanged", "statement": "Converting a message from the public type to the internal type and back (and vice versa) is the identity for every message, including arbitrarily nested batches, so Update sees what Send was given.", "quantifier": "all messages, arbitrarily nested", "why_tests_cant": "Unbounded nesting.", "anchors": ["tea/tea.go: convertMsgToPublic, convertMsgToInternal, convertCmdToInternal"]}
{"id": "C21", "title": "TextArea: cursor and buffer always valid", "statement": "After any sequence of keys and API calls the buffer has at least one line and the cursor row and column lie inside the text.", "quantifier": "all sequences of keys, texts and options", "why_tests_cant": "Unbounded histories.", "anchors": ["components/input/internal/textarea/domain/model/textarea.go", "components/input/internal/textarea/domain/service/editing.go", "components/input/internal/textarea/domain/service/navigation.go", "components/input/internal/textarea/infrastructure/keybindings/emacs.go"]}
{"id": "C22", "title": "TextArea: typing edits the text at the cursor", "statement": "Seen as a text with a cursor, typing a character inserts it before the cursor, Enter splits the line, Backspace removes the character (or line break) before the cursor, Delete the one after; nothing else changes, and undoing by the opposite key restores text and cursor.", "quantifier": "all texts, cursor positions and characters", "why_tests_cant": "Unbounded texts.", "anchors": ["components/input/internal/textarea/domain/service/editing.go", "components/input/internal/textarea/domain/model/buffer.go"]}
{"id": "C23", "title": "TextArea: kill and yank", "statement": "Killing removes exactly the text between the cursor and the end of the line (or the word), stores it as the newest kill; after a backward word kill an immediate yank restores text and cursor.", "quantifier": "all texts and cursor positions", "why_tests_cant": "Unbounded texts.", "anchors": ["components/input/internal/textarea/domain/service/editing.go: KillLine, KillWord, KillWordBackward, Yank", "components/input/internal/textarea/domain/model/killring.go"]}
{"id": "C24", "title": "TextArea: kill ring is a bounded stack of kills", "statement": "The ring never exceeds its capacity, the latest kill is what yank returns, and yank-pop cycles through all stored kills.", "quantifier": "all sequences of kills, yanks and pops", "why_tests_cant": "Unbounded histories.", "anchors": ["components/input/internal/textarea/domain/model/killring.go"]}
{"id": "C25", "title": "TextArea: limits are respected", "statement": "With a maximum number of lines no key but yank makes the text exceed it; in read-only mode no key changes the text.", "quantifier": "all key sequences and limits", "why_tests_cant": "Unbounded histories.", "anchors": ["components/input/internal/textarea/domain/service/editing.go", "components/input/internal/textarea/domain/model/textarea.go: WithMaxLines, WithMaxChars, WithReadOnly"]}
{"id": "C26", "title": "TextArea: movement stays inside the text and the cursor stays visible", "statement": "Left/right/up/down/home/end/word motions never change the text, move to the documented position (left and right are inverse inside the text, up/down keep the column clamped to the line), and after a cursor motion the cursor row is inside the visible window.", "quantifier": "all texts, positions, heights", "why_tests_cant": "Unbounded texts and sizes.", "anchors": ["components/input/internal/textarea/domain/service/navigation.go", "components/input/internal/textarea/domain/model/textarea.go: ensureCursorVisible"]}
{"id": "C27", "title": "TextInput: cursor and selection always valid", "statement": "After any sequence of keys the cursor lies between 0 and the number of grapheme clusters and the selection lies within the content.", "quantifier": "all key sequences over all Unicode strings", "why_tests_cant": "Unbounded strings and histories.", "anchors": ["components/input/internal/input/domain/model/input.go", "components/input/internal/input/domain/service"]}
{"id": "C28", "title": "TextInput: edits are exact", "statement": "Inserting puts the rune at the cursor and changes nothing else; Backspace/Delete remove exactly one grapheme cluster; ContentParts concatenate to the content; typing over or deleting a selection removes exactly the selected clusters.", "quantifier": "all contents, cursor positions and runes", "why_tests_cant": "All Unicode strings; grapheme clusters may merge.", "anchors": ["components/input/internal/input/domain/model/input.go"]}
{"id": "C29", "title": "Viewport: scroll offset always valid and view is the right slice", "statement": "After any sequence of operations the offset lies in [0, max(0, lines - height)] and, with wrapping off, the visible lines are exactly the content lines from the offset, at most height of them, each cut to the longest prefix that fits the width; no call fails; text that fits is shown unchanged.", "quantifier": "all contents, sizes and operation sequences", "why_tests_cant": "Unbounded histories.", "anchors": ["components/viewport/internal/domain/model/viewport.go", "components/viewport/internal/domain/service"]}
{"id": "C30", "title": "Viewport: wrapping loses no text", "statement": "Wrapping a line gives segments whose concatenation is the line, none wider than the width unless it is a single too-wide character and none shorter than necessary; follow mode keeps the last line visible after every content change, and until the next resize the view stays at the bottom.", "quantifier": "all lines, widths and histories", "why_tests_cant": "Unbounded lines.", "anchors": ["components/viewport/internal/domain/service"]}
{"id": "C31", "title": "List: focus is always a visible, existing item", "statement": "After any sequence of operations with positive heights, in which the filter function is not replaced while a query is active, the focused index denotes an item of the filtered list (or none when empty) and is inside the visible window, and the view draws exactly the items of that window with their own selection and focus marks.", "quantifier": "all item lists, filters, heights and operation sequences", "why_tests_cant": "Unbounded histories.", "anchors": ["components/list/internal/domain/model/list.go", "components/list/internal/domain/service/navigation.go"]}
{"id": "C32", "title": "List: filtering and selection", "statement": "Filtering keeps exactly the matching items in their order and clearing restores all; in single-selection mode at most one item is ever selected; toggling changes only the focused item.", "quantifier": "all item lists, filters and operation sequences", "why_tests_cant": "Unbounded histories.", "anchors": ["components/list/internal/domain/model/list.go"]}
{"id": "C33", "title": "Table: selection is always valid", "statement": "After any sequence of operations the selected row index denotes an existing row, and the selected row is one of the rows given (none exactly when the table is empty).", "quantifier": "all tables, heights and operation sequences", "why_tests_cant": "Unbounded histories.", "anchors": ["components/table/internal/domain/model/table.go"]}
{"id": "C34", "title": "Table: sorting is a stable sorted permutation", "statement": "Sorting by a sortable column whose values have one type (or are absent) yields a permutation of the rows, in the natural order of that type with absent values first, keeping equal rows in their order; sorting again toggles the direction, and clearing the sort restores the original order.", "quantifier": "all row lists and column values", "why_tests_cant": "Unbounded row lists; needs transitivity of the comparison.", "anchors": ["components/table/internal/domain/service", "components/table/internal/domain/model/table.go"]}
{"id": "C35", "title": "Select: cursor and selection", "statement": "After any sequence of keys and setter calls the cursor denotes an option of the list shown (or nothing is shown), the rendered rows are the options of a window of the given height that contains the cursor, exactly the option under the cursor being drawn focused; Enter, and only Enter, confirms, and it confirms the option under the cursor (with nothing shown, the earlier choice); moving and filtering do not change a made choice; the movement keys move the cursor by one or to the ends, clamped, unbound keys and each call change only what they name, and the view is the title, the window (or a placeholder) and the filter status.", "quantifier": "all option lists, filters, heights and key sequences", "why_tests_cant": "Unbounded histories.", "anchors": ["components/select/internal/domain/model/select.go"]}
{"id": "C36", "title": "MultiSelect: count limits and selection set", "statement": "At every moment the selected indices are distinct and at most as many as the maximum last asked for; Enter, and only Enter, confirms, exactly when the (effective) minimum is reached; Space changes only the option under the cursor and selects only if there is room; moving and filtering preserve the selection; 'a' adds the options shown, in order, as far as the maximum allows, as preselecting does with the indices given, and 'n' empties the selection; changing the limits keeps the selection, a smaller maximum its first indices; the view shows each option with its selection state and the count.", "quantifier": "all option lists, limits and key sequences", "why_tests_cant": "Unbounded histories.", "anchors": ["components/multiselect/internal/domain/model/multiselect.go"]}
{"id": "C37", "title": "Form: submit only valid data, focus always valid", "statement": "For fields with distinct names that all supply a value, Enter submits exactly if every validator of every field accepts the field's current value, and otherwise lists exactly the complaints; no other key submits; the focus is always on an existing field, Tab visits all fields in turn and Shift-Tab takes it back; other keys and messages reach only the focused field; leaving a field marks it touched, a message that changes one marks it dirty and nothing else does; values and errors are found under the field's name; Escape and Ctrl-C, and nothing else, quit.", "quantifier": "all field lists, validators and key sequences", "why_tests_cant": "Unbounded histories and arbitrary validators.", "anchors": ["components/form/internal/domain/model/form.go"]}
{"id": "C38", "title": "Confirm: the safe default and the final answer", "statement": "With the standard buttons Enter answers what the focused button says (initially No), Esc cancels, y/n/c in either case answer Yes/No/Cancel, other letters do nothing, and once answered no key changes the answer or sends another message; with any labels the focus is always on an existing button and Left/Right/Tab move it round.", "quantifier": "all key sequences and button sets", "why_tests_cant": "Unbounded histories.", "anchors": ["components/confirm"]}
{"id": "C39", "title": "Modal: centred inside the terminal, focus cycles", "statement": "A centred modal that fits the known terminal size is placed fully inside it, centred within one cell; the focus always denotes an existing button, Tab cycles through all of them, Enter presses the focused one, a button's own key presses it, Escape hides, hidden modals ignore all messages.", "quantifier": "all sizes, button lists and key sequences", "why_tests_cant": "All sizes and histories.", "anchors": ["components/modal"]}
{"id": "C40", "title": "Progress: bar geometry", "statement": "The percentage is always within 0..100, the filled part is the floor of width times percentage over 100, filled and empty parts add up to the width, the filled part grows with the percentage, is empty at 0 and full exactly at 100; the percentage text is the percentage; every call changes only what it names, and View is the label, the bar in the characters set and, if asked for, the text.", "quantifier": "all widths and percentages, all update sequences", "why_tests_cant": "All widths.", "anchors": ["components/progress"]}
{"id": "C41", "title": "SGR mouse reports decode to what happened", "statement": "Every press, release or wheel report a terminal sends in the SGR encoding is decoded to its kind, button, modifiers and zero-based position, whatever state the mouse handler is in, and the library's own SGR encoder is inverted by its decoder.", "quantifier": "all events and positions", "why_tests_cant": "Unbounded coordinates times all button/modifier combinations.", "anchors": ["mouse/internal/infrastructure/parser"]}
{"id": "C42", "title": "Mouse clicks are counted correctly", "statement": "A release without a drag yields one click; consecutive clicks at the same place and button within the interval count 1, 2, 3 and then start again at 1; any other click counts 1; Reset makes the processor as new.", "quantifier": "all event sequences and timings", "why_tests_cant": "Unbounded histories and real-time gaps.", "anchors": ["mouse/internal/domain/service", "mouse/internal/application"]}
{"id": "C43", "title": "Mouse drag detection", "statement": "When motion events reach the event processor, a motion is turned into a drag event exactly when a button is held and the pointer is at least the threshold away from the press point; the drag carries the press's button and modifiers, ends with the release, and a release that far away is no click.", "quantifier": "all event sequences and thresholds", "why_tests_cant": "Unbounded histories.", "anchors": ["mouse/internal/domain/service", "mouse/internal/application"]}
{"id": "C44", "title": "Menus open fully on screen", "statement": "A menu that fits the screen, opened at a non-negative cursor position, lies wholly on screen: at the cursor where there is room, else against the right or bottom edge; a menu that does not fit opens at (0,0).", "quantifier": "all cursor positions, menu and screen sizes", "why_tests_cant": "All geometries and histories.", "anchors": ["mouse/internal/domain/service"]}
{"id": "C45", "title": "Flexbox main axis: items in order, not overlapping, inside the container", "statement": "For every justify mode, if the items with their gaps fit, items are placed in order, consecutive items at least gap apart without overlap, first at >= 0 and last ending within the container.", "quantifier": "all item sizes, gaps, container sizes and modes", "why_tests_cant": "All integer geometries, including rounding.", "anchors": ["layout/internal/domain/service/flexbox_layout_service.go"]}
{"id": "C46", "title": "Flexbox cross axis and alignment", "statement": "For every align mode an item that fits lies inside the container on the cross axis - at the near edge, at the far edge or with margins differing by at most one cell - and one that does not fit starts at the near edge; the same holds of a box aligned in its parent, in both directions.", "quantifier": "all sizes and modes", "why_tests_cant": "All integer geometries.", "anchors": ["layout/internal/domain/service/flexbox_layout_service.go", "layout/internal/domain/value/alignment.go"]}
{"id": "C47", "title": "Size constraints", "statement": "An exact size wins; otherwise constraining yields the nearest size within [min,max] for every bound that is set, leaves a size already within bounds unchanged, and is idempotent; contradictory bounds are refused when set.", "quantifier": "all sizes and bounds", "why_tests_cant": "All integers.", "anchors": ["layout/internal/domain/value/size.go"]}
{"id": "C48", "title": "Measured size equals rendered size", "statement": "The width and, without a border, the height reported by measuring a box equal the number of columns and lines of its rendering, for printable ASCII text and a box without size constraints.", "quantifier": "all contents, paddings, borders, margins and sizes", "why_tests_cant": "All contents.", "anchors": ["layout/internal/domain/service/measure_service.go", "layout/internal/domain/service/render_service.go"]}
{"id": "C49", "title": "Colours are mapped to the nearest terminal colour", "statement": "The 16-colour code chosen minimises the distance to the requested colour, for a colour that is not close to grey the 256-colour code is a nearest entry of the colour cube, and codes are always in range.", "quantifier": "all 2^24 colours", "why_tests_cant": "2^24 colours times capabilities.", "anchors": ["style/internal/domain/service/color_adapter.go"]}
{"id": "C50", "title": "Borders, padding and margin produce a rectangle of the predicted size", "statement": "Padding and margin of a non-empty text add exactly their amounts to width and height; a block with a border of one-cell characters (without border colour) has equal-width lines and contains the content unchanged; with all four sides, padding and margin the rendering is a rectangle of the predicted size.", "quantifier": "all contents, sides and spacings", "why_tests_cant": "All contents.", "anchors": ["style/internal/application/command/border_renderer.go", "style/internal/domain/service/spacing_calculator.go"]}
{"id": "C51", "title": "Text alignment fills the requested box", "statement": "Aligning a text whose lines fit, or are ASCII, within a box yields exactly the requested width and height, keeps each line contiguous (ASCII lines that are too wide are cut to their first characters) and puts the blank space on the documented side.", "quantifier": "all texts, widths, heights and modes", "why_tests_cant": "All texts.", "anchors": ["style/internal/domain/service/text_aligner.go"]}
{"id": "C52", "title": "Colour hex notation round-trips", "statement": "Parsing the hex form of a colour gives the colour back, three-digit forms double each digit, and malformed strings are rejected.", "quantifier": "all 2^24 colours and all strings", "why_tests_cant": "2^24 colours and all strings.", "anchors": ["style/internal/domain/value/color.go: Hex, Color.Hex, FromANSI256"]}
{"id": "C53", "title": "Clipboard history is bounded and keeps the newest entries", "statement": "After any sequence of recorded writes, clearing and expiry (with a clock that does not run backwards), the history holds at most its maximal number of entries and exactly the most recent ones still wanted, in order; rejected (empty) contents change nothing; expiry removes exactly the entries older than the maximal age; and every entry keeps its content, type and time.", "quantifier": "all operation sequences and times", "why_tests_cant": "Unbounded histories.", "anchors": ["clipboard/internal/domain/service/clipboard_history.go"]}
{"id": "C54", "title": "OSC 52 transfers any data intact", "statement": "Decoding the base64 payload of the sequence written for any data gives the data back, and the payload contains no control byte that could end the sequence early.", "quantifier": "all byte strings", "why_tests_cant": "All byte strings.", "anchors": ["clipboard/internal/infrastructure/osc52/osc52_provider.go"]}
{"id": "C55", "title": "Styled text survives the HTML clipboard", "statement": "Decoding the HTML encoding of any non-empty text and valid style gives back the same text and style.", "quantifier": "all texts and styles", "why_tests_cant": "All texts including markup characters.", "anchors": ["clipboard/internal/domain/service/richtext_codec.go: EncodeHTML, DecodeHTML"]}
{"id": "C56", "title": "Which texts survive the RTF clipboard", "statement": "Decoding the RTF encoding of a non-empty text gives the text back exactly when it is ASCII without backslash, braces and line breaks and neither starts nor ends with white space; its style then comes back too (the colour in upper case).", "quantifier": "all texts and styles", "why_tests_cant": "All texts including control characters.", "anchors": ["clipboard/internal/domain/service/richtext_codec.go: EncodeRTF, DecodeRTF"]}
{"id": "C57", "title": "Clipboard provider choice", "statement": "Reads and writes go to the first available provider and to no other, and with history enabled a text is recorded exactly when its write succeeded.", "quantifier": "all provider lists, availabilities and failures", "why_tests_cant": "All provider behaviours.", "anchors": ["clipboard/internal/domain/service/clipboard_service.go", "clipboard/internal/application/clipboard_manager.go"]}
{"id": "C58", "title": "Terminal cursor and clear operations", "statement": "On a VT100 terminal, ClearLines(n) leaves the n lines ending at the cursor's line blank with the cursor at the start of the first, lines above untouched; WriteAt puts text at the 0-based position; relative moves by n <= 0 do nothing.", "quantifier": "all screens, positions and counts", "why_tests_cant": "All screens.", "anchors": ["terminal/internal/infrastructure/unix/ansi.go"]}
{"id": "C59", "title": "Key names identify keys", "statement": "The textual name a program matches on (KeyMsg.String) identifies the key: two keys the decoder can produce with equal names are the same key with the same modifiers. The name is the documented one, with the modifiers in front.", "quantifier": "all pairs of decodable byte sequences", "why_tests_cant": "Quantifies over all pairs of inputs.", "anchors": ["tea/internal/domain/model/msg.go: KeyMsg.String, keyTypeName", "tea/internal/infrastructure/ansi/parser.go: ParseKey"]}
{"id": "C60", "title": "External commands run on a restored terminal", "statement": "ExecProcess (and its terminal-control variant) runs the command only while the terminal is out of raw mode and out of the alternate screen, and afterwards modes, suspension state and terminal foreground are what they were before the call, if the program was not suspended.", "quantifier": "all program states, device failures and options", "why_tests_cant": "Quantifies over every failure point of the terminal operations.", "anchors": ["tea/internal/application/program/program.go: ExecProcess", "tea/internal/application/program/tty_control_linux.go: execWithTTYControl"]}
{"id": "C61", "title": "TextArea: the movement validator fences the cursor", "statement": "With a movement validator, a movement key or Backspace moves the cursor only to positions the validator accepts, Home goes to the first accepted column, and the cursor observer is told of exactly the moves made.", "quantifier": "all validators, texts, positions and keys", "why_tests_cant": "All validators and histories.", "anchors": ["components/input/internal/textarea/domain/service/navigation.go", "components/input/internal/textarea/domain/service/editing.go: Backspace", "components/input/textarea.go: OnMovement, OnCursorMoved, OnBoundaryHit"]}
{"id": "C62", "title": "TextArea: the cursor is always on screen", "statement": "After every movement and editing key the cursor lies inside the visible window (rows, and columns when not wrapping), and the visible lines are exactly the lines of that window.", "quantifier": "all histories of keys and API calls", "why_tests_cant": "Unbounded histories.", "anchors": ["components/input/internal/textarea/domain/model/textarea.go: ensureCursorVisible, withCursor, MoveCursorToEnd, SetCursorPosition", "components/input/internal/textarea/domain/service/editing.go: KillLine"]}
{"id": "C63", "title": "TextInput: what is drawn is a window of the content at the cursor", "statement": "View never fails; a focused input with ASCII content draws at most width columns of its content, a contiguous window containing the cursor, with the cursor cell on the character under the cursor.", "quantifier": "all contents, cursor positions and widths", "why_tests_cant": "All contents and widths.", "anchors": ["components/input/input.go: View, renderContent, renderCursor"]}
{"id": "C64", "title": "TextInput: validators", "statement": "Chain accepts exactly the contents every validator accepts and reports the first error; Range is MinLength and MaxLength together; every violation is reported with its own error.", "quantifier": "all validator lists and contents", "why_tests_cant": "All contents.", "anchors": ["components/input/internal/input/domain/service/validation.go", "components/input/input.go"]}
{"id": "C65", "title": "Viewport: keys, wheel and drag scroll by their documented amounts", "statement": "Each bound key scrolls by its documented amount (line, page, half page, top, bottom), the wheel by the configured number of lines, and a drag to the offset at the press minus the rows moved, always clamped to the content; other keys and, with the mouse off, mouse events change nothing.", "quantifier": "all contents, sizes, histories and events", "why_tests_cant": "Unbounded contents and histories.", "anchors": ["components/viewport/viewport.go: Update, handleMouseMsg", "components/viewport/internal/infrastructure/keybindings.go", "components/viewport/internal/domain/service/scroll.go"]}
{"id": "C66", "title": "List: navigation keys move the focus by the documented amount", "statement": "Up and Down move the focus cyclically, Page keys by the height clamped to the list, Home and End to its ends, changing nothing else; on an empty list they do nothing; only q and Ctrl-C return the quit command.", "quantifier": "all item lists, histories and keys", "why_tests_cant": "Unbounded lists and histories.", "anchors": ["components/list/list.go: Update, handleKey", "components/list/internal/domain/service/navigation.go", "components/list/internal/infrastructure/keybindings.go"]}
{"id": "C67", "title": "List: typing narrows the list by the typed text", "statement": "With the filter shown, after typing one character the items offered are those matching it, and Backspace offers all items again.", "quantifier": "all item lists and typed texts", "why_tests_cant": "Unbounded texts.", "anchors": ["components/list/list.go: handleKey"]}
{"id": "C68", "title": "List: replacing the filter function while a query is active", "statement": "The focus stays on an existing item when the filter function is replaced at any time.", "quantifier": "all lists, queries and filter functions", "why_tests_cant": "All filter functions.", "anchors": ["components/list/internal/domain/model/list.go: WithFilter, applyFilter, resetFocus"]}
{"id": "C69", "title": "Table: navigation keys move the selection by the documented amount", "statement": "Up, Down, Page Up, Page Down, Home and End move the selection by one row, by the visible rows, or to the ends, clamped to the table, and change neither rows, sorting nor sizes; c clears the sort and every other key does nothing; each call changes what it names and nothing else.", "quantifier": "all tables, heights and histories", "why_tests_cant": "Unbounded tables and histories.", "anchors": ["components/table/table.go: handleKeyPress, pageUp, pageDown", "components/table/internal/domain/model/table.go"]}
{"id": "C70", "title": "Table: cells and lines have exactly the configured widths", "statement": "Each cell is its text padded on the aligned side or cut with an ellipsis to exactly the column width in bytes; all lines of the view have the same width; the view is the headings (with a marker on the sorted column only), a rule, and one line per visible row showing that row's cells in column order, the mark being on the selected row's line only.", "quantifier": "all texts, widths, alignments and histories", "why_tests_cant": "All texts and widths.", "anchors": ["components/table/table.go: View, formatCell"]}
{"id": "C71", "title": "Table: the selected row is among the drawn rows", "statement": "After any sequence of operations the selected row is inside the visible window and the view does not crash.", "quantifier": "all heights and histories", "why_tests_cant": "Unbounded histories.", "anchors": ["components/table/internal/domain/model/table.go: WithHeight, WithShowHeader, VisibleRows"]}
{"id": "C72", "title": "Table: the view is aligned on screen, fits its height and shows every cell", "statement": "In display columns all lines line up, the view has at most height lines and each fitting cell's text is shown in full.", "quantifier": "all texts and histories", "why_tests_cant": "All texts.", "anchors": ["components/table/table.go: View, formatCell"]}
{"id": "C73", "title": "Table: sorting columns of mixed types", "statement": "Sorting orders the rows consistently whatever the dynamic types of the values.", "quantifier": "all values", "why_tests_cant": "All combinations of types.", "anchors": ["components/table/internal/domain/service/sort.go: Compare"]}
{"id": "C74", "title": "Select, MultiSelect: disabled options cannot be chosen", "statement": "An option made with WithDisabled(true) (documented as 'cannot be selected') is never confirmed by Select nor toggled by MultiSelect.", "quantifier": "all option lists and key sequences", "why_tests_cant": "Any reachable cursor position may be on a disabled option.", "anchors": ["components/select/internal/domain/value/option.go Disabled", "components/select/internal/domain/model/select.go Select", "components/multiselect/internal/domain/model/multiselect.go Toggle"]}
{"id": "C75", "title": "Select: typing filters by the text typed", "statement": "In a filterable Select, typing characters not bound to an action extends the filter text by them, Backspace takes back an ASCII character and Escape empties it; whenever a key changes the text (in Select or MultiSelect) the options shown are exactly those the filter accepts, in their order, with the cursor clamped to them. Unless filtering was switched on, nothing typed filters.", "quantifier": "all texts, option lists and filter functions", "why_tests_cant": "All texts and filters.", "anchors": ["components/select/select.go handleFilterInput", "components/select/internal/infrastructure/keyboard.go"]}
{"id": "C76", "title": "Select, MultiSelect: Ctrl-C quits", "statement": "When the user presses Ctrl-C in a Select or MultiSelect, the component returns the quit command.", "quantifier": "all byte inputs and chunkings arriving from the terminal", "why_tests_cant": "The composition of parser and component over all inputs.", "anchors": ["components/select/select.go handleKey", "components/multiselect/multiselect.go handleKey", "tea/internal/infrastructure/ansi/parser.go ParseKey"]}
{"id": "C77", "title": "MultiSelect: confirming returns at least the minimum of options", "statement": "Without preselected indices, the values confirmed are the selected options, in list order, one per selected index, so at least the minimum number.", "quantifier": "all histories including preselected indices", "why_tests_cant": "All preselections and histories.", "anchors": ["components/multiselect/multiselect.go Selected", "components/multiselect/internal/domain/value/selection.go WithSelected"]}
{"id": "C78", "title": "Form: never submitted with an invalid field", "statement": "Whatever the field components and names, a form is submitted only if every field's own value passes the field's validators.", "quantifier": "all field lists, components and names", "why_tests_cant": "All component behaviours.", "anchors": ["components/form/form.go extractFieldValues", "components/form/internal/domain/model/form.go ValidateAll"]}
{"id": "C79", "title": "Form: length validators count characters", "statement": "For ASCII text MinLength(n) accepts exactly the texts of at least n characters and MaxLength(n) exactly those of at most n; for any text the minimum never rejects one that is long enough and the maximum never accepts one that is too long; Required accepts exactly the values that are present and not blank.", "quantifier": "all texts and bounds", "why_tests_cant": "All Unicode texts.", "anchors": ["components/form/internal/domain/value/validator.go MinLength, MaxLength"]}
{"id": "C80", "title": "Form, Confirm, Modal: Shift+Tab moves back", "statement": "Pressing Shift+Tab in a terminal moves the focus to the previous field or button.", "quantifier": "all byte inputs and chunkings from the terminal", "why_tests_cant": "The composition of parser and components over all inputs.", "anchors": ["components/form/internal/infrastructure/keyboard.go", "components/confirm/internal/infrastructure/keyboard.go", "components/modal/internal/infrastructure/keybindings.go", "tea/internal/infrastructure/ansi/parser.go"]}
{"id": "C81", "title": "Form: forms built from a common form are independent", "statement": "Adding a field to a form whose field list is its own (as after any Tab, Enter or field update) or is full changes no form built before.", "quantifier": "all building histories, all slice capacities", "why_tests_cant": "Aliasing shows only for certain lengths and capacities.", "anchors": ["components/form/form.go Field"]}
{"id": "C82", "title": "Confirm: custom buttons keep their meaning", "statement": "With labels other than Yes, No and Cancel, with or without a Cancel button: Enter answers Yes on the affirmative button, No on the negative and Canceled on Cancel; DefaultYes focuses the affirmative button and, without a Cancel button, DefaultNo the negative; the first byte of the affirmative label, as a character in either case, answers Yes, and that of the negative label, if a different letter, answers No.", "quantifier": "all labels", "why_tests_cant": "All label pairs.", "anchors": ["components/confirm/internal/domain/model/confirm.go labelToResult, WithDefaultNo, ConfirmKey"]}
{"id": "C83", "title": "Confirm: Ctrl-C cancels", "statement": "Pressing Ctrl-C cancels the confirmation, and no control key answers it.", "quantifier": "all states and inputs", "why_tests_cant": "The composition of parser and component.", "anchors": ["components/confirm/internal/infrastructure/keyboard.go"]}
{"id": "C84", "title": "Modal: centred for the current terminal size", "statement": "A resize message that arrives while the modal is shown sets the size it is centred for, and changes nothing else.", "quantifier": "all resize, show and hide histories", "why_tests_cant": "All histories.", "anchors": ["components/modal/modal.go Update"]}
{"id": "C85", "title": "Modal: the drawn box fills the modal's rectangle", "statement": "View of a hidden modal is empty. For a visible modal at least 4 cells wide it is the background (if dimming is on: the whole terminal, blank exactly inside the modal's rectangle), the top border, the title and a separator if there is a title, the first content lines as many as fit, a separator and the buttons if there are any, the focused one and no other between angle brackets, and the bottom border, every text padded or cut with an ellipsis; if the modal is also at least 5 high every row starts at its column, has its width and lies within its rows. Cells are bytes of text (ASCII texts).", "quantifier": "all sizes, titles, contents and buttons", "why_tests_cant": "All sizes and texts.", "anchors": ["components/modal/modal.go renderModalBox, padOrTruncate"]}
{"id": "C86", "title": "Progress: increments saturate", "statement": "Increment and Decrement by any int give the nearest value in 0..100.", "quantifier": "all ints", "why_tests_cant": "Overflow happens only at extreme values.", "anchors": ["components/progress/internal/domain/value/percentage.go Add, Subtract"]}
{"id": "C87", "title": "Spinner: frames in order, one tick at a time", "statement": "After n ticks the spinner shows frame n modulo the number of frames; each tick asks for exactly one more, other messages change nothing; every style has at least one frame and a positive rate; every named style has frames of one width without control characters, an unknown name gives dots, ticks come fps times a second, and a label changes nothing but the text after the frame.", "quantifier": "all styles and message sequences", "why_tests_cant": "Unbounded animations.", "anchors": ["components/progress/internal/domain/model/spinner.go", "components/progress/internal/domain/value/spinner_style.go", "components/progress/spinner.go Update"]}
{"id": "C88", "title": "Spinner: custom frames are shown", "statement": "NewSpinnerCustom(frames, fps) animates the given frames.", "quantifier": "all frame lists and rates", "why_tests_cant": "All frame lists.", "anchors": ["components/progress/spinner.go NewSpinnerCustom"]}
{"id": "C89", "title": "Spinner: several spinners animate independently", "statement": "Several spinners in one program each keep exactly one tick pending, so each advances at its own rate.", "quantifier": "any number of spinners and ticks", "why_tests_cant": "Unbounded numbers of spinners and ticks.", "anchors": ["components/progress/spinner.go Update, tick", "tea/tea.go Tick"]}
{"id": "C90", "title": "Mouse motion and drags reach the program", "statement": "Moving the pointer with a button held is delivered by ParseSequence as motion or drag events, and a press-move-release gesture beyond the drag threshold is a drag and not a click.", "quantifier": "all byte sequences a terminal may send", "why_tests_cant": "No finite test covers all gestures.", "anchors": ["mouse/internal/infrastructure/parser/sgr_parser.go", "mouse/internal/application/mouse_handler.go", "mouse/mouse.go ParseSequence"]}
{"id": "C91", "title": "X10 mouse reports decode to what happened", "statement": "Every press, release and wheel report in the X10 encoding is decoded to its kind, button, modifiers and position.", "quantifier": "all X10 reports", "why_tests_cant": "All button and modifier combinations and positions.", "anchors": ["mouse/internal/infrastructure/parser/x10_parser.go"]}
{"id": "C92", "title": "urxvt mouse reports decode to what happened", "statement": "Every press and wheel report in the urxvt encoding is decoded to its kind, button, modifiers and position.", "quantifier": "all urxvt reports", "why_tests_cant": "Unbounded coordinates.", "anchors": ["mouse/internal/infrastructure/parser/urxvt_parser.go"]}
{"id": "C93", "title": "The X10 encoder is inverted by the decoder", "statement": "Formatting an event with the X10 encoder and parsing the result gives the position back.", "quantifier": "all events", "why_tests_cant": "All positions.", "anchors": ["mouse/internal/infrastructure/parser/x10_parser.go FormatSequence"]}
{"id": "C94", "title": "A dragging gesture is never also a click", "statement": "If drag events were reported between a press and its release, the release is not reported as a click.", "quantifier": "all event histories", "why_tests_cant": "Unbounded pointer paths.", "anchors": ["mouse/internal/application/event_processor.go", "mouse/internal/domain/service/drag_tracker.go"]}
{"id": "C95", "title": "Hover follows the pointer", "statement": "After any history, the hovered component is the first listed area the pointer is inside of (none if there is none), and each update reports enter, move, leave or motion according to how the component under the pointer changed; two areas overlap exactly when some position is inside both.", "quantifier": "all histories of pointer positions and component areas", "why_tests_cant": "Unbounded histories and geometries.", "anchors": ["mouse/internal/domain/service/hover_tracker.go", "mouse/internal/domain/value/bounding_box.go"]}
{"id": "C96", "title": "Wheel events scroll the configured number of lines", "statement": "A wheel-up event scrolls by minus, a wheel-down event by plus the configured number of lines (3 when not positive), any other event by zero, and a terminal's wheel report gives such an event.", "quantifier": "all events and settings", "why_tests_cant": "All events and states.", "anchors": ["mouse/internal/domain/service/scroll_calculator.go"]}
{"id": "C97", "title": "Mouse reporting is switched off again", "statement": "After any history of Enable and Disable calls, any of whose writes may fail, the terminal's mouse modes are off whenever IsEnabled is false; a successful Disable leaves them all off, a successful Enable leaves SGR button-event reporting on; no other mode is touched; Disable when not enabled writes nothing.", "quantifier": "all histories of calls and write failures", "why_tests_cant": "Unbounded histories with failures at any write.", "anchors": ["mouse/internal/infrastructure/platform/terminal_mode.go", "mouse/internal/infrastructure/ansi/mouse_ansi.go"]}
{"id": "C98", "title": "Stretch fills the cross axis", "statement": "With cross-axis alignment stretch (the default) every item is drawn as large as the container is across.", "quantifier": "all containers, items and sizes", "why_tests_cant": "All geometries.", "anchors": ["layout/layout.go:Flex.Render", "layout/internal/domain/service/flexbox_layout_service.go"]}
{"id": "C99", "title": "A bordered box of ASCII text is a closed frame around its text", "statement": "Every line of the rendering of a bordered box has the same length; each content line is present, unchanged and in order, between two bars; the edges are right above and below the padded content.", "quantifier": "all printable ASCII contents, paddings and margins", "why_tests_cant": "All texts and spacings.", "anchors": ["layout/internal/domain/service/render_service.go"]}
{"id": "C100", "title": "A bordered box of any text is a closed frame", "statement": "The lines of a bordered box have the same length for every text, also beyond ASCII.", "quantifier": "all texts", "why_tests_cant": "All of Unicode.", "anchors": ["layout/internal/domain/service/render_service.go:Render"]}
{"id": "C101", "title": "A box renders at the size it is given", "statement": "Width, Height and their bounds determine the size of the rendered box.", "quantifier": "all boxes and sizes", "why_tests_cant": "All boxes and sizes.", "anchors": ["layout/layout.go:Box.Width", "layout/layout.go:Box.Render", "layout/internal/domain/service/render_service.go"]}
{"id": "C102", "title": "The picture of a flex container", "statement": "Rendering a container at w by h gives exactly h lines of w characters; every item of ASCII text without size constraints is shown at its position, unclobbered by its neighbours, cut only by the container's edges; everything else is blank.", "quantifier": "all containers, items, modes, gaps and sizes", "why_tests_cant": "All item lists and all cells.", "anchors": ["layout/layout.go:Flex.Render", "layout/internal/domain/service/flexbox_layout_service.go"]}
{"id": "C103", "title": "Rendering a box does not change it", "statement": "After Render a box behaves as if it had not been rendered: later setters have the same effect on measuring and layout.", "quantifier": "all boxes and later setters", "why_tests_cant": "All call histories.", "anchors": ["layout/layout.go:Box.Render"]}
{"id": "C104", "title": "Grey colours are mapped to the nearest 256-colour entry", "statement": "For a grey or nearly grey colour the 256-colour code is the nearest entry of the palette.", "quantifier": "all 2^24 colours", "why_tests_cant": "All colours.", "anchors": ["style/internal/domain/service/color_adapter.go:rgbToANSI256"]}
{"id": "C105", "title": "256-colour palette entries survive conversion", "statement": "Converting the colour of a palette entry back to a code gives an entry of the same colour.", "quantifier": "all 256 codes", "why_tests_cant": "All codes.", "anchors": ["style/internal/domain/value/color.go:FromANSI256", "style/internal/domain/service/color_adapter.go"]}
{"id": "C106", "title": "Border colours are mapped like text colours", "statement": "A border given a colour is shown in the same terminal colour as a text given that colour.", "quantifier": "all 2^24 colours and capabilities", "why_tests_cant": "All colours.", "anchors": ["style/internal/application/command/border_renderer.go"]}
{"id": "C107", "title": "Text that is too wide is cut to the width", "statement": "Aligning a text wider than the box gives the longest prefix that fits, filled to the width, for every text.", "quantifier": "all texts and widths", "why_tests_cant": "All of Unicode.", "anchors": ["style/internal/domain/service/text_aligner.go:AlignHorizontal"]}
{"id": "C108", "title": "Width and Height set the size of a rendering", "statement": "A style with Width w and Height h renders every text at exactly w by h.", "quantifier": "all styles and texts", "why_tests_cant": "All styles and texts.", "anchors": ["style/style.go:Style.Render", "style/internal/application/command/render.go"]}
{"id": "C109", "title": "What a styled text looks like on the terminal", "statement": "Rendering a text that contains no escape sequences shows exactly the laid-out text, every character with the style's colours (at the style's colour capability), and decorations, and leaves the terminal in its default rendition.", "quantifier": "all styles without border colour, all texts", "why_tests_cant": "All styles, texts and capabilities.", "anchors": ["style/style.go:Style.Render", "style/internal/application/command/render.go", "style/internal/infrastructure/ansi/code_generator.go"]}
{"id": "C110", "title": "A coloured border keeps the style of its content", "statement": "Giving a border a colour changes the colour of the border only.", "quantifier": "all styles and texts", "why_tests_cant": "All styles and texts.", "anchors": ["style/internal/application/command/border_renderer.go", "style/internal/application/command/render.go"]}
{"id": "C111", "title": "Without colour support no colour escape is written", "statement": "With the NoColor capability colours produce no escape sequence.", "quantifier": "all styles and texts", "why_tests_cant": "All styles and texts.", "anchors": ["style/internal/application/command/border_renderer.go:applyBorderColorToSides", "style/internal/domain/service/color_adapter.go"]}
{"id": "C112", "title": "Size bounds limit the rendering", "statement": "A style with MinWidth, MaxWidth, MinHeight or MaxHeight renders every text within them, and a text within them unchanged.", "quantifier": "all styles and texts", "why_tests_cant": "All styles and texts.", "anchors": ["style/internal/application/command/render.go:validateSizeConstraints", "style/style.go:Style.Render"]}
{"id": "C113", "title": "Border sides are switched individually", "statement": "BorderTop, BorderBottom, BorderLeft and BorderRight decide, each for its side, whether it is shown.", "quantifier": "all orders of the calls", "why_tests_cant": "All call orders.", "anchors": ["style/internal/domain/model/style.go:Border", "style/internal/domain/model/style.go:BorderTop"]}
{"id": "C114", "title": "Style setters are independent", "statement": "A setter sets its attribute and no other: setters of different attributes can be called in any order, the last call of a setter wins, and no sequence of calls makes a spacing or a size negative.", "quantifier": "all call sequences", "why_tests_cant": "All call sequences.", "anchors": ["style/internal/domain/model/style.go", "style/internal/domain/value/padding.go", "style/internal/domain/value/size.go"]}
{"id": "C115", "title": "Merging themes", "statement": "Merging takes field by field the overriding theme's value where it is set and the base's otherwise, and its name.", "quantifier": "all pairs of themes", "why_tests_cant": "All field combinations.", "anchors": ["style/internal/domain/model/theme.go:Merge"]}
{"id": "C116", "title": "A complete theme replaces another when merged over it", "statement": "Merging a theme in which every field is set gives that theme.", "quantifier": "all pairs of themes", "why_tests_cant": "All themes.", "anchors": ["style/internal/domain/model/theme.go:Merge", "style/internal/domain/model/theme_presets.go"]}
{"id": "C117", "title": "Theme manager under concurrency", "statement": "Whatever the interleaving of calls from several goroutines, each call behaves as in a sequential execution; the themes handed back by SetTheme together with the current one are the initial one and those set; presets are found by name in any case and unknown names change nothing.", "quantifier": "all programs and schedules", "why_tests_cant": "All interleavings.", "anchors": ["style/internal/application/theme_manager.go", "style/internal/domain/model/theme_presets.go:PresetByName"]}
{"id": "C118", "title": "A margin is as wide as the frame it surrounds", "statement": "Blank margin lines above and below a framed text are as wide as the frame.", "quantifier": "all styles and texts", "why_tests_cant": "All styles and texts.", "anchors": ["style/internal/domain/service/spacing_calculator.go:ApplyMargin", "style/internal/application/command/border_renderer.go"]}
{"id": "C119", "title": "Empty texts are padded too", "statement": "Padding and margin are applied to every text, the empty one included.", "quantifier": "all texts and spacings", "why_tests_cant": "All texts.", "anchors": ["style/internal/domain/service/spacing_calculator.go:ApplyPadding"]}
{"id": "C120", "title": "Clipboard history is listed newest first", "statement": "GetHistory returns every entry once and never an older one before a newer one, the newest first when they were recorded at different times; GetRecentHistory returns the first of these.", "quantifier": "all histories", "why_tests_cant": "All histories, equal times included.", "anchors": ["clipboard/internal/domain/service/clipboard_history.go:GetAll", "clipboard/clipboard.go:GetHistory"]}
{"id": "C121", "title": "What was written can be read back", "statement": "After a successful Write of a text, Read returns it, whenever the first available provider is the system clipboard; so it is with New outside SSH.", "quantifier": "all provider chains and environments", "why_tests_cant": "All provider chains.", "anchors": ["clipboard/internal/application/clipboard_manager.go", "clipboard/internal/infrastructure/osc52/osc52_provider.go:Read", "clipboard/clipboard.go:Builder.Build"]}
{"id": "C122", "title": "The reported result of an OSC 52 write is what happened", "statement": "Under every interleaving of the writing goroutine, the timer and the caller: success is reported only if the sequence was written and flushed, the goroutine always can end, and failure is reported only after the time was up or the writer had finished.", "quantifier": "all interleavings", "why_tests_cant": "All schedules.", "anchors": ["clipboard/internal/infrastructure/osc52/osc52_provider.go:Write"]}
{"id": "C123", "title": "Restoring from the clipboard history", "statement": "After any calls, restoring an entry writes its content to the clipboard and, when that succeeds, records it as the newest entry with its type; when it fails nothing changes; an unknown id does nothing.", "quantifier": "all call sequences, ids and environments", "why_tests_cant": "All histories.", "anchors": ["clipboard/clipboard.go:RestoreFromHistory", "clipboard/internal/application/clipboard_manager.go"]}
{"id": "C124", "title": "Converting between HTML and RTF", "statement": "ConvertHTMLToRTF of the HTML of a styled text, and ConvertRTFToHTML of the result, keep text and style for every text that survives RTF; a document of tags only converts to nothing.", "quantifier": "all such texts and styles", "why_tests_cant": "All texts and styles.", "anchors": ["clipboard/clipboard.go:ConvertHTMLToRTF", "clipboard/clipboard.go:ConvertRTFToHTML", "clipboard/internal/domain/service/richtext_codec.go"]}
{"id": "C125", "title": "Plain text of an HTML document", "statement": "For any document of escaped texts and tags the plain text is the concatenation of the texts.", "quantifier": "all documents and entity tables", "why_tests_cant": "All documents.", "anchors": ["clipboard/clipboard.go:ReadHTMLAsPlainText", "clipboard/internal/domain/service/richtext_codec.go:StripHTMLTags"]}
{"id": "C126", "title": "No tag is left in plain text read from HTML", "statement": "ReadHTMLAsPlainText removes all tags: the text it returns contains none.", "quantifier": "all documents", "why_tests_cant": "All documents.", "anchors": ["clipboard/internal/domain/service/richtext_codec.go:StripHTMLTags"]}
{"id": "C127", "title": "Every text survives the RTF clipboard", "statement": "Decoding the RTF encoding of any text and valid style gives back the same text and style.", "quantifier": "all texts and styles", "why_tests_cant": "All texts including control characters.", "anchors": ["clipboard/internal/domain/service/richtext_codec.go: EncodeRTF, DecodeRTF"]}
{"id": "C128", "title": "ClearLine keeps the cursor", "statement": "ClearLine blanks exactly the line holding the cursor and leaves the cursor where it was.", "quantifier": "all screens and cursor positions", "why_tests_cant": "All screens and positions.", "anchors": ["terminal/terminal.go", "terminal/internal/infrastructure/unix/ansi.go:ClearLine"]}
{"id": "C129", "title": "ClearLines clears n lines from the cursor", "statement": "ClearLines(n) clears exactly the n lines starting at the cursor's line: nothing above the cursor and nothing below the n lines is erased.", "quantifier": "all screens, positions and counts", "why_tests_cant": "All screens and counts.", "anchors": ["terminal/terminal.go", "terminal/internal/infrastructure/unix/ansi.go:ClearLines"]}
{"id": "C130", "title": "Save/RestoreCursorPosition form a stack", "statement": "RestoreCursorPosition returns the cursor to the position of the matching SaveCursorPosition, whatever happened in between, also when the pairs are nested.", "quantifier": "all call sequences", "why_tests_cant": "All sequences of calls between the pair.", "anchors": ["terminal/terminal.go", "terminal/internal/infrastructure/unix/ansi.go:SaveCursorPosition", "terminal/internal/infrastructure/unix/ansi.go:RestoreCursorPosition"]}
{"id": "C131", "title": "SetCursorPosition is exact or reported", "statement": "SetCursorPosition(x, y) puts the cursor at the 0-based cell (x, y) when it exists and returns an error when it does not.", "quantifier": "all screens and positions", "why_tests_cant": "All positions.", "anchors": ["terminal/terminal.go", "terminal/internal/infrastructure/unix/ansi.go:SetCursorPosition"]}
{"id": "C132", "title": "Terminal modes follow the device", "statement": "After any sequence of terminal calls, some of which may fail: IsInAltScreen tells whether the terminal shows the alternate screen; the tty settings are the original ones unless IsInRawMode, and then the raw version of the original ones; the cursor is hidden only if the last successful HideCursor/ShowCursor was HideCursor. Entering a mode twice or leaving it when not in it is an error without effect. Leaving the alternate screen brings back the content and cursor of the normal one.", "quantifier": "all call sequences and all patterns of I/O failures", "why_tests_cant": "All histories and failure points.", "anchors": ["terminal/internal/infrastructure/unix/ansi.go:EnterAltScreen", "terminal/internal/infrastructure/unix/ansi.go:EnterRawMode"]}
{"id": "C133", "title": "ColorDepth recognises terminals", "statement": "ColorDepth is 16777216 exactly when COLORTERM is truecolor or 24bit, otherwise 256 when TERM contains 256color, otherwise 16.", "quantifier": "all environment values", "why_tests_cant": "All strings.", "anchors": ["terminal/internal/infrastructure/unix/ansi.go:ColorDepth"]}
{"id": "C134", "title": "TextInput: control combinations type nothing", "statement": "A key pressed with Ctrl that has no binding leaves the content of a text input unchanged.", "quantifier": "all keys, contents and cursor positions", "why_tests_cant": "All keys and contents.", "anchors": ["components/input/internal/input/infrastructure/keybindings.go: Handle"]}
{"id": "C135", "title": "Viewport: a wrapped view fits the height", "statement": "With line wrapping on, the view never has more rows than the viewport's height.", "quantifier": "every history of calls, keys and mouse events, every content, every character-width function", "why_tests_cant": "depends on every combination of content, width and offset", "anchors": ["components/viewport/internal/domain/model/viewport.go:VisibleLines", "components/viewport/internal/domain/model/viewport.go:wrapVisibleLines"]}
{"id": "C136", "title": "Viewport: follow mode keeps the last line visible across resizes", "statement": "In follow mode the last content line stays visible when the viewport is resized.", "quantifier": "every history of calls and every new size", "why_tests_cant": "the failing resize depends on the history of content and sizes", "anchors": ["components/viewport/internal/domain/model/viewport.go:WithSize"]}
{"id": "C137", "title": "Viewport: scrolling to an end is a one-time action", "statement": "ScrollToTop, ScrollToBottom and SetYOffset move the view once, as documented: content appended later does not move it again.", "quantifier": "every history of calls followed by any number of appends", "why_tests_cant": "quantifies over all later histories", "anchors": ["components/viewport/viewport.go:ScrollToBottom", "components/viewport/internal/domain/model/viewport.go:ScrollToBottom"]}
{"id": "C138", "title": "TextInput: the cursor stays right after what was typed", "statement": "After typing a character the text before the cursor is the old text before it followed by that character, and the text after the cursor is unchanged.", "quantifier": "every content, cursor position, typed character and cluster segmentation", "why_tests_cant": "depends on how clusters form for all texts", "anchors": ["components/input/internal/input/domain/model/input.go:InsertRune"]}
{"id": "C139", "title": "TextInput: a window of multi-byte content is drawn whole", "statement": "Whatever characters the content has, what a focused input draws is well-formed text: a window of whole characters.", "quantifier": "every content, width and cursor position", "why_tests_cant": "depends on all contents and widths", "anchors": ["components/input/input.go:renderContent"]}
{"id": "C140", "title": "TextInput: length validators count characters", "statement": "MinLength, MaxLength and Range bound the number of characters.", "quantifier": "every content and limit", "why_tests_cant": "universally quantified over texts", "anchors": ["components/input/internal/input/domain/service/validation.go:MinLength", "components/input/internal/input/domain/service/validation.go:MaxLength"]}
{"id": "C141", "title": "Frame diff: HasChanges agrees with Diff for absent and resized frames", "statement": "HasChanges reports a change exactly when Diff returns operations, also when a frame is absent or resized.", "quantifier": "all pairs of frames, including absent or differently sized ones", "why_tests_cant": "quantifies over all frame pairs", "anchors": ["render/internal/domain/service/diff.go: Diff, HasChanges"]}
{"id": "C142", "title": "The renderer keeps wide characters on screen", "statement": "After any sequence of renders the terminal shows the last frame's characters also when cells hold double-width characters.", "quantifier": "all sequences of frames with wide cells", "why_tests_cant": "depends on the history of frames", "anchors": ["render/internal/application/renderer.go: Render"]}
{"id": "C143", "title": "The renderer shows each cell in its own style", "statement": "Every cell on the terminal has the style of the frame's cell, whatever styles the neighbouring cells have.", "quantifier": "all frames and styles", "why_tests_cant": "depends on every sequence of styles", "anchors": ["render/internal/infrastructure/ansi/writer.go: WriteCell"]}
{"id": "C144", "title": "An escape sequence split across reads is the same key", "statement": "The keys delivered do not depend on how the bytes of an escape sequence are split into reads.", "quantifier": "all input byte sequences and all ways to split them", "why_tests_cant": "quantifies over all splits", "anchors": ["tea/internal/infrastructure/ansi/parser.go", "tea/internal/infrastructure/input/reader.go: Read"]}
{"id": "C145", "title": "F1 to F4 reach the program", "statement": "The SS3 sequences of F1..F4 are delivered as those keys.", "quantifier": "the documented sequences with any following input", "why_tests_cant": "must hold whatever follows", "anchors": ["tea/internal/infrastructure/ansi/parser.go"]}
{"id": "C146", "title": "Text after Escape is delivered", "statement": "Text that arrives in the same read as an Escape key press is delivered after it.", "quantifier": "all texts following an ESC byte", "why_tests_cant": "quantifies over inputs", "anchors": ["tea/internal/infrastructure/ansi/parser.go"]}
{"id": "C147", "title": "The inline renderer shows lines as wide as the terminal", "statement": "A line that is exactly as wide as the terminal, or cut to that width, is shown whole.", "quantifier": "all views and widths", "why_tests_cant": "depends on terminal wrap state", "anchors": ["tea/internal/infrastructure/renderer/inline.go"]}
{"id": "C148", "title": "The inline renderer shows a shrinking view", "statement": "When the next view has fewer lines, its lines are all shown.", "quantifier": "all pairs of successive views", "why_tests_cant": "quantifies over histories", "anchors": ["tea/internal/infrastructure/renderer/inline.go"]}
{"id": "C149", "title": "The inline renderer clears the screen for an empty view", "statement": "Rendering an empty view removes the previous view, also after Repaint or Resize.", "quantifier": "all histories ending with an empty view", "why_tests_cant": "quantifies over histories", "anchors": ["tea/internal/infrastructure/renderer/inline.go"]}
{"id": "C150", "title": "Line truncation bounds the width of any bytes", "statement": "Whatever bytes a line contains, the truncated line is at most as wide as the limit.", "quantifier": "all byte strings", "why_tests_cant": "quantifies over all byte strings", "anchors": ["tea/internal/infrastructure/renderer/inline.go: truncateLine"]}
{"id": "C151", "title": "The event loop never blocks on itself, whatever the load", "statement": "However many messages are queued, handling a message never waits for room in the queue that only the loop itself could make.", "quantifier": "all schedules and all batches", "why_tests_cant": "quantifies over schedules and batch sizes", "anchors": ["tea/internal/application/program/program.go: Run"]}
{"id": "C152", "title": "Quit() stops the program while Update runs", "statement": "A call to Quit() on a running program is never lost.", "quantifier": "all schedules", "why_tests_cant": "quantifies over interleavings", "anchors": ["tea/internal/application/program/program.go: Quit"]}
{"id": "C153", "title": "Quit() is taken by the event loop", "statement": "A call to Quit() is not consumed by anything but the event loop.", "quantifier": "all schedules with pending commands", "why_tests_cant": "quantifies over interleavings", "anchors": ["tea/internal/application/program/program.go: Quit, executeCommand"]}
{"id": "C154", "title": "At most one event loop even after a timed-out Stop", "statement": "Also after a Stop() that timed out a second event loop cannot be started while the first is active.", "quantifier": "all schedules", "why_tests_cant": "quantifies over interleavings", "anchors": ["tea/internal/application/program/program.go: Stop, Start"]}
{"id": "C155", "title": "The cursor is visible again when the program ends", "statement": "However the program was suspended, resumed or ran external commands, the cursor is as it was when the program ends.", "quantifier": "all histories of Run, Suspend, Resume, ExecProcess and end", "why_tests_cant": "quantifies over histories", "anchors": ["tea/internal/application/program/program.go: Resume, ExecProcess"]}
{"id": "C156", "title": "Resume after the end changes nothing", "statement": "Calling Resume on a program that has ended leaves the terminal in its normal state.", "quantifier": "all histories", "why_tests_cant": "quantifies over histories", "anchors": ["tea/internal/application/program/program.go: Resume"]}
{"id": "C157", "title": "A failed Resume can be retried", "statement": "After a Resume that failed, a later Resume on a working terminal succeeds and restores the modes.", "quantifier": "all histories and all device failures", "why_tests_cant": "quantifies over failure points", "anchors": ["tea/internal/application/program/program.go: Resume"]}
{"id": "C158", "title": "TextArea: a forward kill can be undone by a yank", "statement": "KillLine and KillWord leave the cursor in place, so an immediate yank restores the text.", "quantifier": "all texts and cursor positions", "why_tests_cant": "universally quantified over texts", "anchors": ["components/input/internal/textarea/domain/service/editing.go"]}
{"id": "C159", "title": "TextArea: Ctrl-U kills from the line start to the cursor", "statement": "Ctrl-U removes the text between the start of the line and the cursor and stores it.", "quantifier": "all texts and cursor positions", "why_tests_cant": "universally quantified over texts", "anchors": ["components/input/internal/textarea/infrastructure/keybindings/emacs.go"]}
{"id": "C160", "title": "TextArea: yank respects the line limit", "statement": "Yanking never makes the text longer than the maximum number of lines.", "quantifier": "all kill histories", "why_tests_cant": "quantifies over histories", "anchors": ["components/input/internal/textarea/domain/service/editing.go: Yank"]}
{"id": "C161", "title": "TextArea: the character limit is respected", "statement": "With a maximum number of characters the text never exceeds it.", "quantifier": "all key sequences", "why_tests_cant": "quantifies over histories", "anchors": ["components/input/internal/textarea/domain/model/textarea.go: WithMaxChars"]}
{"id": "C162", "title": "Measured height of a bordered box", "statement": "The height reported by measuring a box with a border is the number of lines of its rendering.", "quantifier": "all boxes with a border", "why_tests_cant": "universally quantified over boxes", "anchors": ["layout/internal/domain/service/measure_service.go"]}
{"id": "C163", "title": "ExecProcess keeps a suspended program suspended", "statement": "ExecProcess called while the program is suspended leaves it suspended.", "quantifier": "all histories", "why_tests_cant": "quantifies over histories", "anchors": ["tea/internal/application/program/program.go: ExecProcess"]}
{"id": "C164", "title": "TextArea: kills respect the movement validator", "statement": "A kill never moves the cursor to a position the validator rejects.", "quantifier": "all texts, validators and kills", "why_tests_cant": "quantifies over validators", "anchors": ["components/input/internal/textarea/domain/service/editing.go"]}
{"id": "C165", "title": "TextArea: positioning calls and kills keep the cursor on screen", "statement": "After SetCursorPosition, MoveCursorToEnd and the kill commands the cursor lies inside the visible window.", "quantifier": "all texts, windows and calls", "why_tests_cant": "quantifies over histories", "anchors": ["components/input/textarea.go: SetCursorPosition, MoveCursorToEnd"]}
{"id": "C166", "title": "List: typed characters extend the filter text", "statement": "With the filter shown, the items offered match all the text typed since the last clear.", "quantifier": "all sequences of typed characters", "why_tests_cant": "quantifies over histories", "anchors": ["components/list/list.go"]}
{"id": "C167", "title": "List: any letter can be typed into the filter", "statement": "With the filter shown, every character key is added to the filter text.", "quantifier": "all characters", "why_tests_cant": "quantifies over keys", "anchors": ["components/list/list.go"]}
{"id": "C168", "title": "Table: the documented sort keys sort", "statement": "Pressing s or Enter, which the key bindings document as toggling the sort on the current column, changes the sort order.", "quantifier": "all tables", "why_tests_cant": "All tables and histories.", "anchors": ["components/table/internal/infrastructure/keybindings.go: DefaultKeyBindings, IsSort", "components/table/table.go: handleKeyPress"]}
{"id": "C169", "title": "Select: the default value is selected", "statement": "After WithDefault(v), documented as setting the default selected value, an option with value v is selected.", "quantifier": "all option lists and values", "why_tests_cant": "All option lists.", "anchors": ["components/select/select.go: WithDefault"]}
{"id": "C170", "title": "Select, MultiSelect: configuration does not depend on the order of the calls", "statement": "Options, height, filter and preselection can be set in any order with the same result.", "quantifier": "all orders of the configuration calls", "why_tests_cant": "All permutations of the calls.", "anchors": ["components/select/select.go: Options, WithHeight, WithFilterFunc", "components/multiselect/multiselect.go: Options, Selected"]}
{"id": "C171", "title": "Select: every character can be typed into the filter and taken back", "statement": "In a filterable Select, typing any character adds it to the filter text and Backspace then removes exactly that character.", "quantifier": "all characters", "why_tests_cant": "All characters.", "anchors": ["components/select/select.go handleFilterInput", "components/select/internal/infrastructure/keyboard.go"]}
{"id": "C172", "title": "MultiSelect: preselected indices count only if they denote options", "statement": "Confirming returns at least the minimum number of values also when indices were preselected.", "quantifier": "all preselections", "why_tests_cant": "All preselections and histories.", "anchors": ["components/multiselect/multiselect.go Selected", "components/multiselect/internal/domain/value/selection.go WithSelected"]}
{"id": "C173", "title": "Form: the view shows every field, the focus and its status", "statement": "The view has one entry per field in order with the field's component; exactly the focused field carries the focus mark; complaints are shown whenever the field has some, and the mark Valid only for a field that was left and has none.", "quantifier": "all forms, histories and field components", "why_tests_cant": "All histories and components.", "anchors": ["components/form/form.go: renderFields, renderField"]}
{"id": "C174", "title": "Form: the status drawn is the truth about the current value", "statement": "A field drawn as Valid passes its validators on its current value, and the complaints drawn are those of its validators on the current value.", "quantifier": "all forms and histories", "why_tests_cant": "All histories.", "anchors": ["components/form/form.go: renderField", "components/form/internal/domain/value/field.go", "components/form/internal/domain/model/form.go: UpdateField"]}
{"id": "C175", "title": "Form: IsValid tells whether all fields pass validation", "statement": "IsValid, documented as whether all fields pass validation, is true exactly if every field's current value passes the field's validators.", "quantifier": "all forms and histories", "why_tests_cant": "All histories.", "anchors": ["components/form/form.go: IsValid", "components/form/internal/domain/model/form.go: IsValid"]}
{"id": "C176", "title": "Form: the user can reset the form", "statement": "Some key resets the form (documented: submit or reset the form): marks and complaints are cleared.", "quantifier": "all forms and keys", "why_tests_cant": "All keys.", "anchors": ["components/form/form.go: handleKey", "components/form/internal/infrastructure/keyboard.go"]}
{"id": "C177", "title": "Form: length validators count characters, not bytes", "statement": "MinLength(n) accepts exactly the texts of at least n characters and MaxLength(n) exactly those of at most n, whatever the characters.", "quantifier": "all texts and bounds", "why_tests_cant": "All Unicode texts.", "anchors": ["components/form/internal/domain/value/validator.go MinLength, MaxLength"]}
{"id": "C178", "title": "Form: two forms extended from the same form keep their own fields", "statement": "Calling Field twice on the same form gives two forms that each keep the field added to them.", "quantifier": "all building histories, all slice capacities", "why_tests_cant": "Aliasing shows only for certain lengths and capacities.", "anchors": ["components/form/form.go Field"]}
{"id": "C179", "title": "Confirm: the view", "statement": "The title and the last description set stay what the caller gave, and View is the title, the description if there is one, a blank line and one row of the buttons in order, the focused one and no other in square brackets; so two views differ whenever the focus does.", "quantifier": "all titles, descriptions, labels, calls and key sequences", "why_tests_cant": "All texts and histories.", "anchors": ["components/confirm/confirm.go View, renderButtons"]}
{"id": "C180", "title": "Confirm: any labels keep their meaning", "statement": "The affirmative button answers Yes and the negative one No whatever their labels, each is reachable by the first character of its label, and DefaultNo focuses the negative one.", "quantifier": "all labels", "why_tests_cant": "All label pairs.", "anchors": ["components/confirm/internal/domain/model/confirm.go labelToResult, WithDefaultNo, ConfirmKey", "components/confirm/internal/domain/value/button.go NewButton"]}
{"id": "C181", "title": "Modal: placed for the current terminal size even if resized while hidden", "statement": "When shown, a centred modal is placed for the current terminal size, whenever the terminal was resized.", "quantifier": "all histories of calls and messages", "why_tests_cant": "Needs every order of hide, resize and show.", "anchors": ["components/modal/modal.go Update"]}
{"id": "C182", "title": "Modal: the box fills the modal's rectangle at any size", "statement": "View draws a closed box of exactly the given size at the modal's position with all visible content lines, and never panics.", "quantifier": "all sizes, texts and button sets", "why_tests_cant": "All sizes and texts.", "anchors": ["components/modal/modal.go renderModalBox, padOrTruncate"]}
{"id": "C183", "title": "Modal: texts outside ASCII fit the box", "statement": "Rows with titles, contents or labels outside ASCII are exactly as wide as the modal and whole characters.", "quantifier": "all texts", "why_tests_cant": "All texts.", "anchors": ["components/modal/modal.go padOrTruncate"]}
{"id": "C184", "title": "Mouse: positions, boxes, modifiers and kinds are what their names say", "statement": "Distance between positions is the Manhattan metric and the tolerance and equality tests agree with it; a bounding box holds exactly the positions inside it, its area counts them and it is empty exactly when there are none; modifiers built from three flags report those flags, compare equal and print alike exactly when they are the same flags; IsButton, IsWheel, IsClick and IsHover name the listed kinds.", "quantifier": "all positions, boxes, flags, buttons and event types", "why_tests_cant": "Over all coordinates and sizes.", "anchors": ["mouse/internal/domain/value/position.go", "mouse/internal/domain/value/bounding_box.go", "mouse/internal/domain/value/modifiers.go", "mouse/internal/domain/value/button.go"]}
{"id": "C185", "title": "Mouse: exactly which byte sequences ParseSequence decodes and as what", "statement": "ParseSequence accepts exactly, after an optional ESC and an optional [: < with three numbers ended by M, m, mM or nothing; M with three bytes; three numbers ended by M. The event it decodes has the button and modifiers the code's bits say, the zero-based position and the kind. Any other sequence is an error and leaves the handler unchanged.", "quantifier": "all byte sequences and handler states", "why_tests_cant": "All byte strings.", "anchors": ["mouse/internal/application/mouse_handler.go ParseSequence", "mouse/internal/infrastructure/parser/sgr_parser.go", "mouse/internal/infrastructure/parser/x10_parser.go", "mouse/internal/infrastructure/parser/urxvt_parser.go"]}
{"id": "C186", "title": "Mouse: only whole mouse reports with positions on the screen are decoded", "statement": "ParseSequence rejects truncated reports, reports of positions off the screen and input that is not a mouse report.", "quantifier": "all byte sequences", "why_tests_cant": "All byte strings.", "anchors": ["mouse/internal/application/mouse_handler.go ParseSequence"]}
{"id": "C187", "title": "Layout: each fluent call changes its own setting of its own object, and a container keeps boxes as they were added", "statement": "Every setter of a box or container changes exactly the setting it is named after (negative spacing is none, a negative size is unset) and panics exactly for a maximum below a minimum or a negative gap, leaving everything as it was; a call touches no other object; Add appends the box as it is at that moment, AddRaw is Add of a new box, and whatever is later done to the boxes or to other containers the container draws the same.", "quantifier": "all programs of calls on any number of boxes and containers", "why_tests_cant": "All interleavings of calls on shared pointers.", "anchors": ["layout/layout.go Box, Flex, Add, AddRaw", "layout/internal/domain/model/box.go", "layout/internal/domain/model/flexbox.go"]}
{"id": "C188", "title": "Layout: setters return new instances and leave the receiver alone", "statement": "As documented (immutable operations), deriving two boxes from a base box leaves the base and the other box unchanged.", "quantifier": "all programs", "why_tests_cant": "All programs.", "anchors": ["layout/layout.go Box, Flex"]}
{"id": "C189", "title": "Layout: aligning in one direction keeps the alignment in the other", "statement": "AlignRight, AlignMiddle, AlignBottom and so on change the alignment in the direction they are named after and keep the other one.", "quantifier": "all boxes and calls", "why_tests_cant": "All sequences of alignment calls.", "anchors": ["layout/layout.go AlignRight, AlignMiddle, AlignBottom"]}
{"id": "C190", "title": "Layout: a container's own Width and Height bound what it draws", "statement": "A container with Width or Height set is drawn within that size.", "quantifier": "all containers and sizes", "why_tests_cant": "All sizes.", "anchors": ["layout/layout.go Flex.Width, Flex.Height, Flex.Render"]}
{"id": "C191", "title": "Layout: a container is drawn within its width for texts of any script", "statement": "No row of a rendered container is wider than the width asked for, wide characters included.", "quantifier": "all texts and widths", "why_tests_cant": "All texts.", "anchors": ["layout/layout.go Flex.Render"]}
{"id": "C192", "title": "Style: how far off reduced colours can be", "statement": "The 256-colour entry of a grey or nearly grey colour is a grey within 16 of its mean (within 9 along the ramp); the sixteen basic colours on a 16-colour terminal and all fixed 256-colour entries but four come back unchanged; a border's codes are in range, with each channel's level a sixth of its value rounded down.", "quantifier": "all colours", "why_tests_cant": "16.7 million colours.", "anchors": ["style/internal/domain/service/color_adapter.go", "style/internal/application/command/border_renderer.go"]}
{"id": "C193", "title": "Style: a plain text in a coloured frame, and plain output without colours", "statement": "A plain text in a frame with a border colour shows the frame in that colour and text and fill in the terminal's defaults; with the NoColor capability and neither border colour nor decorations only the laid-out text is written.", "quantifier": "all texts, borders, colours and capabilities", "why_tests_cant": "All texts.", "anchors": ["style/internal/application/command/border_renderer.go", "style/internal/application/command/render.go"]}
{"id": "C194", "title": "Style: when size bounds are missed and what happens then", "statement": "The bounds are missed exactly when the text with padding, border and margin is narrower, wider, lower or taller than they say; then Render gives the text back as it is; otherwise it renders as if there were no bounds.", "quantifier": "all styles and texts", "why_tests_cant": "All texts and bounds.", "anchors": ["style/internal/application/command/render.go", "style/style.go Render"]}
{"id": "C195", "title": "Style: border side switches after a border was chosen", "statement": "After Border, each of BorderTop, BorderBottom, BorderLeft, BorderRight controls its own side and no other, and choosing another border keeps the switches.", "quantifier": "all styles with a border", "why_tests_cant": "All sequences of calls.", "anchors": ["style/internal/domain/model/style.go BorderTop"]}
{"id": "C196", "title": "What the clipboard builder builds", "statement": "Whatever the order of the builder calls, Build fails only when no provider was added and both built-in ones are switched off; otherwise the custom providers come first in the order added, then OSC 52, then the system clipboard, each setting having the last value given to it.", "quantifier": "all sequences of builder calls", "why_tests_cant": "All orders and repetitions.", "anchors": ["clipboard/clipboard.go:Build", "clipboard/clipboard.go:WithProvider", "clipboard/internal/domain/service/clipboard_service.go:NewClipboardService"]}
{"id": "C197", "title": "Which clipboard New prefers", "statement": "New always offers both the system clipboard and OSC 52, with OSC 52 first exactly in an SSH session on a terminal; OSC 52 counts as available only on a terminal, over SSH or with a known terminal type.", "quantifier": "all environments", "why_tests_cant": "All environment variables.", "anchors": ["clipboard/internal/application/clipboard_manager.go:buildProviderChain", "clipboard/internal/infrastructure/platform/detector.go:IsSSH", "clipboard/internal/infrastructure/osc52/osc52_provider.go:IsAvailable"]}
{"id": "C198", "title": "The Linux clipboard tools", "statement": "The system clipboard is available exactly when a complete tool is installed; the most preferred one is used for reading and for writing, so what was written is read back, and nothing is read or written without a tool.", "quantifier": "all sets of installed tools and what works", "why_tests_cant": "All environments.", "anchors": ["clipboard/internal/infrastructure/native/clipboard_linux.go:NewProvider", "clipboard/internal/infrastructure/native/clipboard_linux.go:Read", "clipboard/internal/infrastructure/native/clipboard_linux.go:Write"]}
{"id": "C199", "title": "A working clipboard tool is used", "statement": "If an installed tool can reach a clipboard, Write succeeds.", "quantifier": "all sets of installed tools and what works", "why_tests_cant": "All environments.", "anchors": ["clipboard/internal/infrastructure/native/clipboard_linux.go:NewProvider"]}
{"id": "C200", "title": "Fallback to the next clipboard provider", "statement": "When the preferred provider cannot write, the next one is used (the documented automatic fallback).", "quantifier": "all provider lists and failures", "why_tests_cant": "All failures.", "anchors": ["clipboard/internal/domain/service/clipboard_service.go:getAvailableProvider"]}
{"id": "C201", "title": "The clipboard history is the record of what was written", "statement": "With no age limit, after any calls: without EnableHistory there is no history; from then on it holds the last texts accepted by the clipboard, at most the limit, in order, restored ones included, since the last EnableHistory or ClearHistory; its size and total size are those of these texts.", "quantifier": "all call sequences and environments", "why_tests_cant": "All histories.", "anchors": ["clipboard/clipboard.go:GetHistorySize", "clipboard/internal/application/clipboard_manager.go:EnableHistory", "clipboard/internal/domain/service/clipboard_history.go:Add"]}
{"id": "C202", "title": "Looking up clipboard history entries", "statement": "After any calls each listed entry is found under its id, with its content, and an id finds only an entry with that id.", "quantifier": "all call sequences with distinct generated ids", "why_tests_cant": "All histories.", "anchors": ["clipboard/clipboard.go:GetHistoryEntry", "clipboard/internal/domain/service/clipboard_history.go:Get"]}
{"id": "C203", "title": "No entry older than the age limit is listed", "statement": "With an age limit, GetHistory lists no entry older than it.", "quantifier": "all call sequences and times", "why_tests_cant": "All histories.", "anchors": ["clipboard/clipboard.go:EnableHistory", "clipboard/internal/domain/service/clipboard_history.go:GetAll"]}
{"id": "C204", "title": "Any history limit is accepted", "statement": "EnableHistory returns normally for every limit.", "quantifier": "all limits", "why_tests_cant": "All integers.", "anchors": ["clipboard/internal/domain/service/clipboard_history.go:NewClipboardHistory"]}
{"id": "C205", "title": "The most recent history entry is the text written last", "statement": "GetRecentHistory(1) is the last text written.", "quantifier": "all histories, entries written in one clock tick included", "why_tests_cant": "Clock granularity.", "anchors": ["clipboard/internal/domain/service/clipboard_history.go:GetRecent"]}
{"id": "C206", "title": "What was written over OSC 52 can be read back", "statement": "After a successful Write, Read returns the text also where OSC 52 comes first.", "quantifier": "all environments", "why_tests_cant": "All environments.", "anchors": ["clipboard/internal/infrastructure/osc52/osc52_provider.go:Read", "clipboard/clipboard.go:Build"]}
{"id": "C207", "title": "A failed OSC 52 write wrote nothing", "statement": "If an OSC 52 write reports a failure, the sequence is not sent to the terminal, before or after.", "quantifier": "all interleavings", "why_tests_cant": "All interleavings and failures.", "anchors": ["clipboard/internal/infrastructure/osc52/osc52_provider.go:Write"]}
{"id": "C208", "title": "An OSC 52 write that reached the terminal is reported as a success", "statement": "If the sequence was written completely in time, Write returns no error.", "quantifier": "all interleavings, on a Linux terminal", "why_tests_cant": "All interleavings and failures.", "anchors": ["clipboard/internal/infrastructure/osc52/osc52_provider.go:Write"]}
{"id": "C209", "title": "The zero clipboard builder works", "statement": "Build of a zero Builder gives a clipboard with the default settings (as its documentation says).", "quantifier": "all builder calls on a zero Builder", "why_tests_cant": "All call sequences.", "anchors": ["clipboard/clipboard.go:Builder"]}
{"id": "C210", "title": "RTF written by the library is read correctly by other programs", "statement": "For every text without characters above 32767 and every valid style, a program that follows the RTF specification shows the document written for it as exactly that text (without carriage returns), every character in the style and colour, and nothing else.", "quantifier": "all texts of such characters and styles", "why_tests_cant": "All texts and styles.", "anchors": ["clipboard/internal/domain/service/richtext_codec.go:EncodeRTF", "clipboard/internal/domain/service/richtext_codec.go:escapeRTF", "clipboard/clipboard.go:ConvertHTMLToRTF"]}
{"id": "C211", "title": "Every character is readable in RTF", "statement": "The RTF document written for a text shows that text in other programs, whatever its characters.", "quantifier": "all texts", "why_tests_cant": "All characters.", "anchors": ["clipboard/internal/domain/service/richtext_codec.go:escapeRTF"]}
{"id": "C212", "title": "Plain text of RTF documents of other programs", "statement": "ReadRTFAsPlainText returns the text that a program following the RTF specification shows.", "quantifier": "all RTF documents", "why_tests_cant": "All documents.", "anchors": ["clipboard/internal/domain/service/richtext_codec.go:StripRTFFormatting", "clipboard/clipboard.go:ReadRTFAsPlainText"]}
{"id": "C213", "title": "Text and styles of HTML documents of other programs", "statement": "Reading HTML as text keeps paragraphs and lines apart and leaves out comments, attributes and style sheets; converting it keeps each part's style.", "quantifier": "all HTML documents", "why_tests_cant": "All documents.", "anchors": ["clipboard/internal/domain/service/richtext_codec.go:StripHTMLTags", "clipboard/internal/domain/service/richtext_codec.go:DecodeHTML"]}
{"id": "C214", "title": "TextArea: the view is the visible text with the cursor marked", "statement": "For every history of edits, keys and settings with a non-negative height and non-empty text, View() does not panic; read by a terminal it shows exactly the lines of the visible window (never more than Height of them) in the default rendition, with exactly the character ContentParts() reports at the cursor (a blank at the end of a line) in reverse video when the cursor is on and its row is in the window, and the terminal is back at its defaults; with the cursor off the view is the text of the window. ShowLineNumbers only prefixes each row with its 1-based line number, right-aligned in four columns, and a blank.", "quantifier": "every history of API calls and keys, every text without escape characters, every size with Height >= 0", "why_tests_cant": "Texts, sizes and cursor histories are unbounded; tests look at a few views", "anchors": ["components/input/textarea.go:View", "components/input/internal/textarea/infrastructure/renderer/textarea_renderer.go:Render", "components/input/internal/textarea/infrastructure/renderer/textarea_renderer.go:renderContent", "components/input/internal/textarea/infrastructure/renderer/textarea_renderer.go:renderLineWithCursor", "components/input/internal/textarea/domain/model/textarea.go:VisibleLines"]}
{"id": "C215", "title": "TextArea: the placeholder is shown exactly while there is no text", "statement": "For every history, while Value() is empty the view is the placeholder in grey (and the terminal is back at its defaults); once there is text the placeholder does not influence the view; placeholder, line numbers and cursor switch never affect text, cursor or key handling, and edits never reset them; by default the cursor is shown, without line numbers and without a placeholder.", "quantifier": "every history of API calls and keys, every placeholder", "why_tests_cant": "Histories are unbounded", "anchors": ["components/input/textarea.go:Placeholder", "components/input/textarea.go:ShowLineNumbers", "components/input/textarea.go:ShowCursor", "components/input/internal/textarea/infrastructure/renderer/textarea_renderer.go:renderPlaceholder"]}
{"id": "C216", "title": "TextArea: the cursor is drawn whenever it is switched on", "statement": "With ShowCursor(true) and the cursor in the window the view marks the cursor's cell, also in an empty text area.", "quantifier": "every history", "why_tests_cant": "Histories are unbounded", "anchors": ["components/input/textarea.go:ShowCursor", "components/input/internal/textarea/infrastructure/renderer/textarea_renderer.go:Render"]}
{"id": "C217", "title": "TextArea: rows are no wider than Width", "statement": "Every row of the view has at most Width characters: longer lines are scrolled horizontally (Wrap(false)) or wrapped (Wrap(true)).", "quantifier": "every width, wrap setting, text and cursor position", "why_tests_cant": "Widths and texts are unbounded", "anchors": ["components/input/textarea.go:Width", "components/input/textarea.go:Wrap", "components/input/internal/textarea/infrastructure/renderer/textarea_renderer.go:renderContent", "components/input/internal/textarea/domain/model/textarea.go:ensureCursorVisible"]}
{"id": "C218", "title": "TextArea: View accepts every size", "statement": "View() does not panic, whatever size was set.", "quantifier": "every size and text", "why_tests_cant": "Sizes are unbounded", "anchors": ["components/input/textarea.go:Size", "components/input/textarea.go:View", "components/input/internal/textarea/domain/model/textarea.go:VisibleLines"]}
{"id": "C219", "title": "Core terminals are immutable values", "statement": "What a *core.Terminal reports (capabilities, size, raw mode) never changes, whatever calls are made later on any terminal; WithSize and WithRawMode return a new terminal that differs from the receiver in exactly that field; NewTerminal, AutoDetect and NewTerminalWithCapabilities give 80x24, not raw, with the minimal, the detected and the given capabilities; every reported size is at least 1x1 and every reported set of capabilities is consistent.", "quantifier": "every sequence of calls on every terminal made by it", "why_tests_cant": "Call sequences are unbounded and later calls could reach the fields of an earlier terminal through a shared pointer", "anchors": ["core/core.go:NewTerminal", "core/core.go:AutoDetect", "core/core.go:NewTerminalWithCapabilities", "core/core.go:WithSize", "core/core.go:WithRawMode", "core/internal/domain/model/terminal.go:WithSize", "core/internal/domain/model/terminal.go:WithRawMode", "core/internal/domain/value/capabilities.go:NewCapabilities"]}
{"id": "C220", "title": "Core: a terminal in raw mode says so", "statement": "IsRawModeEnabled() is true on a terminal obtained with WithRawMode for a mode that has been entered.", "quantifier": "every sequence of public calls", "why_tests_cant": "Call sequences are unbounded", "anchors": ["core/core.go:WithRawMode", "core/core.go:IsRawModeEnabled", "core/core.go:NewRawMode", "core/internal/domain/model/rawmode.go:NewRawMode"]}
{"id": "C221", "title": "Core: detected capabilities follow the environment", "statement": "For every environment: a non-empty NO_COLOR switches colour off; otherwise FORCE_COLOR alone decides (0 nothing, 1 eight, 2 256, anything else true colour); otherwise on Unix systems an empty or dumb TERM supports nothing and any other supports ANSI, mouse, alternate screen and cursor, with true colour iff COLORTERM is truecolor/24bit in any case or TERM_PROGRAM is a known terminal, else 256 iff Apple_Terminal or TERM contains 256color, else 8; on Windows everything iff Windows Terminal or VS Code, else 8 colours without mouse. Detected colour always comes with ANSI.", "quantifier": "every value of the environment variables and every operating system", "why_tests_cant": "Environments are arbitrary strings", "anchors": ["core/core.go:AutoDetect", "core/internal/domain/service/capabilities_detector.go:Detect", "core/internal/domain/service/capabilities_detector.go:detectColorDepth"]}
{"id": "C222", "title": "Core: NO_COLOR disables colour only", "statement": "With NO_COLOR set, colour is off and the other capabilities (ANSI, mouse, alternate screen, cursor control) are those detected without it.", "quantifier": "every environment and operating system", "why_tests_cant": "Environments are arbitrary strings", "anchors": ["core/core.go:AutoDetect", "core/internal/domain/service/capabilities_detector.go:Detect"]}
{"id": "C223", "title": "Core: Apple's Terminal.app is never taken for a true colour terminal", "statement": "On macOS with TERM_PROGRAM=Apple_Terminal the detected depth is 256 whatever COLORTERM says, as the macOS rule of the detector states.", "quantifier": "every environment", "why_tests_cant": "Environments are arbitrary strings", "anchors": ["core/internal/domain/service/capabilities_detector.go:detectMacOS", "core/internal/infrastructure/platform/platform_unix.go:platformString"]}
{"id": "C224", "title": "The two packages agree on the colour depth", "statement": "core.AutoDetect().Capabilities().ColorDepth() and terminal.Terminal.ColorDepth() report the same depth in the same environment.", "quantifier": "every environment", "why_tests_cant": "Environments are arbitrary strings", "anchors": ["core/core.go:AutoDetect", "core/internal/domain/service/capabilities_detector.go:detectColorDepth", "terminal/internal/infrastructure/unix/ansi.go:ColorDepth"]}
{"id": "C225", "title": "phoenix.NewTerminal is AutoDetectTerminal", "statement": "phoenix.NewTerminal(), documented as a convenience alias of AutoDetectTerminal(), returns a terminal with the detected capabilities.", "quantifier": "every environment and operating system", "why_tests_cant": "Environments are arbitrary strings", "anchors": ["phoenix.go:NewTerminal", "phoenix.go:AutoDetectTerminal", "core/core.go:NewTerminal"]}
{"id": "C226", "title": "Core: sizes, positions and cells are clamped into range", "statement": "NewSize gives at least 1x1, NewPosition and Position.Add never leave the non-negative quadrant, cell widths are never negative; values in range are kept exactly; Add moves by the given deltas and, away from the edges, steps add up and can be undone; NewCellAuto has the width of its content.", "quantifier": "all integers and strings", "why_tests_cant": "Integers and strings are unbounded", "anchors": ["core/core.go:NewSize", "core/core.go:NewPosition", "core/core.go:Add", "core/core.go:NewCell", "core/core.go:NewCellAuto", "core/internal/domain/value/position.go:Add"]}
{"id": "C227", "title": "Core: colour needs ANSI", "statement": "SupportsColor() implies SupportsANSI() for all capabilities.", "quantifier": "every Capabilities value", "why_tests_cant": "Quantifies over every constructed value", "anchors": ["core/core.go:NewCapabilities", "core/core.go:SupportsColor", "core/internal/domain/value/capabilities.go:NewCapabilities"]}
{"id": "C228", "title": "MockTerminal records every call once, under every schedule", "statement": "However many goroutines use a MockTerminal and however they are scheduled: every call returns what a mock used by one goroutine would return after exactly the calls that returned before it (mode calls, mode queries, CallCount, Reset); each goroutine's calls take effect in its program order, none lost or duplicated; when all are done Calls holds the text of every terminal call since the last Reset, in order of return; no deadlock, and every schedule can be completed.", "quantifier": "every list of goroutines with every sequence of calls, and every schedule of their steps", "why_tests_cant": "Schedules are unbounded and races show up in few of them", "anchors": ["testing/mock_terminal.go:record", "testing/mock_terminal.go:CallCount", "testing/mock_terminal.go:Reset", "testing/mock_terminal.go:EnterAltScreen", "testing/mock_terminal.go:ExitAltScreen", "testing/mock_terminal.go:EnterRawMode", "testing/mock_terminal.go:ExitRawMode"]}
{"id": "C229", "title": "MockTerminal: recorded calls tell what was called", "statement": "Every recorded call reads as the method's name or its name with the arguments in parentheses; CallCount(name) counts exactly the calls of that method whatever the arguments (Clear does not count ClearLine); two calls read the same only if they are the same method with the same arguments.", "quantifier": "every call with every argument", "why_tests_cant": "Arguments are unbounded", "anchors": ["testing/mock_terminal.go:CallCount", "testing/mock_terminal.go:SetCursorPosition", "testing/mock_terminal.go:WriteAt", "testing/mock_terminal.go:SetCursorStyle"]}
{"id": "C230", "title": "MockTerminal's modes behave as the real terminal's", "statement": "Given the same calls in the same order, with documented cursor styles, the mock returns an error exactly when the real ANSI terminal (whose system calls succeed) does, and IsInAltScreen and IsInRawMode answer alike.", "quantifier": "every history of calls from any goroutines and every schedule", "why_tests_cant": "Histories are unbounded", "anchors": ["testing/mock_terminal.go:EnterAltScreen", "testing/mock_terminal.go:IsInAltScreen", "testing/mock_terminal.go:IsInRawMode", "terminal/internal/infrastructure/unix/ansi.go:EnterAltScreen", "terminal/internal/infrastructure/unix/ansi.go:EnterRawMode"]}
{"id": "C231", "title": "Test terminals keep the promises of the Terminal interface", "statement": "As the interface documents, SupportsTrueColor() goes with a ColorDepth() of 16777216, GetCursorPosition() and ReadScreenBuffer() fail when SupportsReadback() is false, and the mock tracks the cursor position.", "quantifier": "every history", "why_tests_cant": "Histories are unbounded", "anchors": ["testing/mock_terminal.go:SupportsTrueColor", "testing/mock_terminal.go:ColorDepth", "testing/mock_terminal.go:GetCursorPosition", "testing/null_terminal.go:ReadScreenBuffer", "terminal/terminal.go:SupportsReadback"]}
{"id": "C232", "title": "NullTerminal is a drop-in replacement", "statement": "Code that uses the modes of a Terminal (enter, query, exit) sees the same answers with a NullTerminal.", "quantifier": "every history of calls", "why_tests_cant": "Histories are unbounded", "anchors": ["testing/null_terminal.go:EnterAltScreen", "testing/null_terminal.go:IsInAltScreen", "testing/null_terminal.go:ExitAltScreen", "testing/null_terminal.go:IsInRawMode"]}
{"id": "C233", "title": "Windows console: cursor position, moves and look", "statement": "In a native Windows console the terminal always works on the screen buffer the user sees. GetCursorPosition gives the cursor's cell; SetCursorPosition puts it exactly at a cell of the buffer and changes nothing else, and is refused without effect outside it; the relative moves go n cells and stop at the edges, and do nothing for n <= 0; HideCursor, ShowCursor and SetCursorStyle change exactly the visibility and the size, and unknown styles are refused.", "quantifier": "every state reached by any calls from any buffer within Win32 limits, whatever Win32 calls failed on the way; every position and n", "why_tests_cant": "A test runs on one console; this needs every buffer size, cursor, history and pattern of failing system calls.", "anchors": ["terminal/internal/infrastructure/windows/console.go:SetCursorPosition", "terminal/internal/infrastructure/windows/console.go:MoveCursorDown", "terminal/new_windows.go:newWindowsTerminal"]}
{"id": "C234", "title": "Windows console: what clearing clears and reading reads", "statement": "Clear blanks every cell, resets its colours and puts the cursor at the top left; ClearLine blanks exactly the cursor's line; ClearFromCursor exactly the cells from the cursor to the end of the buffer, leaving the cursor; ClearLines(n) exactly the cursor's line and the n-1 above it, as far as they exist, and puts the cursor at the start of that region. ReadScreenBuffer returns exactly the cells, row by row.", "quantifier": "every reached state, buffer, cursor position and n", "why_tests_cant": "Off-by-one at the last row or column shows for particular sizes and positions only.", "anchors": ["terminal/internal/infrastructure/windows/console.go:Clear", "terminal/internal/infrastructure/windows/console.go:ClearLines", "terminal/internal/infrastructure/windows/console.go:ReadScreenBuffer"]}
{"id": "C235", "title": "Windows console: alternate screen and raw mode", "statement": "IsInAltScreen holds exactly while another buffer than the original one is shown; entering shows a blank screen of the window's size and keeps the original one, whose text, colours and cursor come back on leaving (if nothing was written in between); entering or leaving twice is refused without effect; while IsInRawMode holds, exactly line input, echo and processed input are off and virtual terminal input is on, and otherwise the input mode is the one the program started with; no screen buffer is left behind as long as closing handles works; a refused switch changes nothing visible.", "quantifier": "every sequence of calls and every pattern of failing Win32 calls", "why_tests_cant": "The failure points multiply with the call history; tests cannot make Win32 calls fail.", "anchors": ["terminal/internal/infrastructure/windows/console.go:EnterAltScreen", "terminal/internal/infrastructure/windows/console.go:ExitAltScreen", "terminal/internal/infrastructure/windows/console.go:EnterRawMode"]}
{"id": "C236", "title": "Windows console: what is written appears on the screen", "statement": "Write prints at the cursor of the screen the user sees, in the main and in the alternate screen.", "quantifier": "every reached state and text", "why_tests_cant": "Needs every history of screen switches.", "anchors": ["terminal/internal/infrastructure/windows/console.go:Write", "terminal/internal/infrastructure/windows/console.go:EnterAltScreen", "terminal/terminal.go:Terminal"]}
{"id": "C237", "title": "Windows console: ClearLine leaves the cursor where it is", "statement": "ClearLine clears the line of the cursor; the cursor position remains unchanged.", "quantifier": "every reached state with any cursor position", "why_tests_cant": "Holds for a cursor in column 0, where a test is likely to put it.", "anchors": ["terminal/internal/infrastructure/windows/console.go:ClearLine", "terminal/terminal.go:Terminal"]}
{"id": "C238", "title": "Windows console: Size is the size of the terminal", "statement": "Size returns the dimensions of the terminal window in characters.", "quantifier": "every console, whatever scrollback it has", "why_tests_cant": "In a console without scrollback, or in the alternate screen, the two agree.", "anchors": ["terminal/internal/infrastructure/windows/console.go:Size", "terminal/terminal.go:Terminal"]}
{"id": "C239", "title": "Windows console: saved cursor positions form a stack", "statement": "SaveCursorPosition pushes the position on a stack of the terminal; RestoreCursorPosition restores the previously saved one.", "quantifier": "every nesting of saves and restores, every terminal object", "why_tests_cant": "Single save/restore pairs work.", "anchors": ["terminal/internal/infrastructure/windows/console.go:SaveCursorPosition", "terminal/internal/infrastructure/windows/console.go:RestoreCursorPosition", "terminal/terminal.go:Terminal"]}
{"id": "C240", "title": "Windows console: positions out of bounds are errors", "statement": "SetCursorPosition returns an error if the position is out of bounds.", "quantifier": "every reached state and all x, y", "why_tests_cant": "Any position a test tries in the range of a 16-bit number behaves.", "anchors": ["terminal/internal/infrastructure/windows/console.go:SetCursorPosition", "terminal/terminal.go:Terminal"]}
{"id": "C241", "title": "Windows console: cleared cells have no colours left", "statement": "A cleared cell is blank in the default colours, whichever clearing operation was used.", "quantifier": "every reached state, every clearing operation", "why_tests_cant": "A test reads the characters back, not the attributes.", "anchors": ["terminal/internal/infrastructure/windows/console.go:ClearLine", "terminal/internal/infrastructure/windows/console.go:ClearFromCursor", "terminal/internal/infrastructure/windows/console.go:Clear"]}
{"id": "C242", "title": "Windows clipboard: text goes and comes as UTF-16", "statement": "On Windows, writing a text puts exactly it on the system clipboard as UTF-16 ended by a 0; reading gives exactly the text another program put there, with unpaired surrogates as U+FFFD; so a text without NUL that was written is read back. Whatever system call fails, the clipboard is not left open, and reading changes nothing.", "quantifier": "every text (any characters, surrogate pairs included), every clipboard content, every pattern of failing system calls", "why_tests_cant": "The encodings have to be right for every character; system calls cannot be made to fail in tests.", "anchors": ["clipboard/internal/infrastructure/native/clipboard_windows.go:stringToUTF16Ptr", "clipboard/internal/infrastructure/native/clipboard_windows.go:utf16UintptrToString", "clipboard/internal/infrastructure/native/clipboard_windows.go:Write"]}
{"id": "C243", "title": "Windows clipboard: writing reads only the text's own memory", "statement": "Writing a text to the clipboard neither crashes nor exposes other memory of the process.", "quantifier": "every text, every contents of the memory behind it", "why_tests_cant": "What lies behind a slice varies from run to run; usually nothing is noticed.", "anchors": ["clipboard/internal/infrastructure/native/clipboard_windows.go:copyMemoryFromUintptr", "clipboard/internal/infrastructure/native/clipboard_windows.go:Write"]}
{"id": "C244", "title": "Windows clipboard: a failed write has no effect", "statement": "If writing returns an error the clipboard keeps its contents and no memory is lost.", "quantifier": "every point at which a system call can fail", "why_tests_cant": "Tests cannot make the system calls fail.", "anchors": ["clipboard/internal/infrastructure/native/clipboard_windows.go:Write"]}
{"id": "C245", "title": "Windows clipboard: every text written is read back", "statement": "A text written without an error is read back unchanged, whatever characters it contains.", "quantifier": "every non-empty text", "why_tests_cant": "The text must contain a NUL for this to fail.", "anchors": ["clipboard/internal/infrastructure/native/clipboard_windows.go:Write", "clipboard/internal/infrastructure/native/clipboard_windows.go:Read"]}
{"id": "C246", "title": "Input reader: bytes arrive in order, completely and without waiting for more", "statement": "Whatever the scheduling of the reader's goroutines, the bytes returned by the input reader's Read calls are, at every moment, a prefix of the bytes typed: none is duplicated, reordered or skipped. Unless the reader is cancelled, Read reports the end of input only after every byte typed has been returned and the input has really ended. Left alone, the reader's goroutines come to rest after finitely many steps, and if a Read is then still waiting, everything typed so far has been returned: no byte waits in an internal buffer for the next key press.", "quantifier": "every interleaving of the relay goroutine, the read loop, the caller of Read, typing, the end of the input and Cancel; every split of the data by read and write sizes; every pipe capacity of at least one byte", "why_tests_cant": "Tests fix one schedule and one chunking of the input; ordering and lost wake-ups depend on all interleavings of three goroutines, a pipe and a channel.", "anchors": ["tea/internal/infrastructure/input/cancelable_reader.go:NewCancelableReader", "tea/internal/infrastructure/input/cancelable_reader.go:relayLoop", "tea/internal/infrastructure/input/cancelable_reader.go:Read"]}
{"id": "C247", "title": "Input reader: Cancel releases the readers, WaitForShutdown returns", "statement": "Once Cancel has begun, every Read called from then on returns at once without data; a Read that is waiting when Cancel closes its channel can return at once with the end of input. From the moment the pipe is closed the goroutine that WaitForShutdown waits for has only finitely many steps left, whatever is typed meanwhile, so WaitForShutdown does not hang; on an input that supports read deadlines the goroutine reading the input ends as well.", "quantifier": "every reachable state of the reader at which Cancel is called, and every schedule afterwards", "why_tests_cant": "A hang needs one particular interleaving of Cancel with the goroutines; tests only see the common ones.", "anchors": ["tea/internal/infrastructure/input/cancelable_reader.go:Cancel", "tea/internal/infrastructure/input/cancelable_reader.go:WaitForShutdown"]}
{"id": "C248", "title": "Input reader: nothing is taken from the input after shutdown", "statement": "After Cancel and WaitForShutdown have returned, the reader takes nothing more from the input: what is typed then is left for the external command or for the next reader.", "quantifier": "every schedule of Cancel, WaitForShutdown, the relay goroutine and later typing; inputs with and without read deadlines", "why_tests_cant": "It depends on whether a goroutine is still blocked in a read of the terminal when the 50 ms wait is over.", "anchors": ["tea/internal/infrastructure/input/cancelable_reader.go:WaitForShutdown", "tea/internal/infrastructure/input/cancelable_reader.go:relayLoop"]}
{"id": "C249", "title": "Input reader: type-ahead survives a suspension", "statement": "Keys typed before the reader is cancelled and not yet delivered are not lost: they are returned by a later Read or are still in the input for the next reader.", "quantifier": "every schedule of typing, the reader's goroutines and Cancel", "why_tests_cant": "How far the reader has read ahead when Cancel comes depends on the schedule.", "anchors": ["tea/internal/infrastructure/input/cancelable_reader.go:Cancel", "tea/internal/infrastructure/input/cancelable_reader.go:Read"]}
{"id": "C250", "title": "Suspend stops the input reader, Resume starts one", "statement": "For every history of Run, Suspend and Resume and every schedule of the reader goroutines, provided the 200 ms of Suspend do not pass and Run is not called while an earlier reader is left: the program never panics, at most one goroutine reads the input, none reads it once Suspend has stopped the reader (also when there was nothing to stop) until Resume, and Resume then starts exactly one; a reader Suspend waits for has been cancelled, no other is, and Suspend returns.", "quantifier": "every interleaving of the reader goroutines (ending at any time: end of input, error, cancellation, quit) with a history of Run, its end, Suspend and Resume", "why_tests_cant": "The goroutine's exit closes a channel stored in a field that other calls overwrite; whether that is safe depends on all interleavings.", "anchors": ["tea/internal/application/program/program.go:startInputReader", "tea/internal/application/program/program.go:stopInputReader", "tea/internal/application/program/program.go:restartInputReader"]}
{"id": "C251", "title": "Suspend stops the input reader however slow it is", "statement": "Suspend never returns while the program still reads the input, and a reader that ends late does no harm.", "quantifier": "every schedule, including those in which the reader goroutine does not end within 200 ms", "why_tests_cant": "The timeout branch needs a starved scheduler.", "anchors": ["tea/internal/application/program/program.go:stopInputReader", "tea/internal/application/program/program.go:Suspend"]}
{"id": "C252", "title": "The input is left alone when Run has returned", "statement": "After Run has returned, or Stop has stopped the program, the program takes nothing more from its input: what the user types next goes to whoever reads the terminal then.", "quantifier": "every history and schedule", "why_tests_cant": "Tests end their input with the program.", "anchors": ["tea/internal/application/program/program.go:Run", "tea/internal/application/program/program.go:Start", "tea/internal/application/program/program.go:Stop"]}
{"id": "C253", "title": "A program can be run again", "statement": "After Run has returned the program can be run again with the same effect: one reader of the input, no panic.", "quantifier": "every history of Run, Quit, Run and every schedule of the reader goroutines", "why_tests_cant": "The damage shows only when the goroutine left over from the first Run ends.", "anchors": ["tea/internal/application/program/program.go:Run", "tea/internal/application/program/program.go:startInputReader"]}
{"id": "C254", "title": "External commands started at the same time", "statement": "When several commands run external processes at the same time (a Batch of two ExecProcess commands), every child process finds the terminal in normal mode for as long as it runs, and when all have returned the program has its raw mode and alternate screen back.", "quantifier": "every number of concurrent ExecProcess calls and every interleaving of their critical sections", "why_tests_cant": "The overlap of two Suspend/Resume pairs has many interleavings; tests run one command at a time.", "anchors": ["tea/internal/application/program/program.go:ExecProcess", "tea/internal/application/program/program.go:Suspend", "tea/internal/application/program/program.go:Resume"]}
{"id": "C255", "title": "A running program's screen shows its model", "statement": "In inline mode, after the initial view and any sequence of messages (window size messages among them), the rows of the program's region show exactly the lines of View() of the current model, cut to the terminal size last announced, rows below are blank and what was above is kept, scrolled. Covered are the views for which the inline renderer is correct (C11).", "quantifier": "every Elm model (update and view functions), every message sequence, every terminal size and starting row", "why_tests_cant": "The display depends on the whole history of views and sizes.", "anchors": ["tea/internal/application/program/program.go:renderView", "tea/internal/application/program/program.go:Run"]}
{"id": "C256", "title": "A running program's alternate screen shows its model", "statement": "With WithAltScreen, after every message the screen shows the lines of View() of the current model from the top left corner.", "quantifier": "every model and message sequence, every view", "why_tests_cant": "What is on the screen depends on all frames written before.", "anchors": ["tea/internal/application/program/program.go:renderView", "tea/internal/application/program/options.go:WithAltScreen"]}
{"id": "C257", "title": "A suspended program writes nothing to the terminal", "statement": "Between Suspend and Resume (while an external command owns the terminal) the program writes nothing to it, whatever messages (ticks, command results) arrive meanwhile.", "quantifier": "every model, every sequence of messages while suspended, inline and alternate screen mode", "why_tests_cant": "It concerns all messages that may arrive while another process runs.", "anchors": ["tea/internal/application/program/program.go:Suspend", "tea/internal/application/program/program.go:renderView"]}
{"id": "C258", "title": "Windows: an external command finds the original console mode", "statement": "On Windows, when a program in raw mode runs a command with full terminal control, the command finds the console input mode the program itself found when it entered raw mode, except that VT input sequences are off; afterwards the program is in raw mode again: no line input, no echo, no Ctrl+C processing, VT input on.", "quantifier": "every initial console input mode, every state of the console object in raw mode", "why_tests_cant": "the property is about every combination of console mode bits; tests need a real Windows console", "anchors": ["tea/internal/application/program/tty_control_windows.go:execWithTTYControl", "tea/internal/application/program/tty_control_windows.go:execWithTTYControl", "terminal/internal/infrastructure/windows/console.go:EnterRawMode", "terminal/internal/infrastructure/windows/console.go:ExitRawMode"]}
{"id": "C259", "title": "Windows: the console input mode is restored at exit", "statement": "On Windows, a program that enters raw mode, runs any number of external commands with full terminal control and leaves raw mode leaves the console in the input mode it found.", "quantifier": "every initial console input mode, every number of external commands", "why_tests_cant": "the property is about every combination of console mode bits and every number of commands; tests need a real Windows console", "anchors": ["tea/internal/application/program/tty_control_windows.go:execWithTTYControl", "terminal/internal/infrastructure/windows/console.go:EnterRawMode", "terminal/internal/infrastructure/windows/console.go:ExitRawMode"]}
{"id": "C260", "title": "Table: the selected row is drawn while the sizes stay put", "statement": "After any sequence of operations that changes the height and the header only while the first row is selected, the visible rows are a window of the effective rows and the selected row is inside it.", "quantifier": "all histories that set sizes while the first row is selected", "why_tests_cant": "Unbounded histories.", "anchors": ["components/table/internal/domain/model/table.go: WithHeight, WithShowHeader, VisibleRows"]}
{"id": "C261", "title": "Select, MultiSelect: the Ctrl-C key message quits", "statement": "A Select or MultiSelect returns the quit command exactly for the KeyCtrlC key message, in every state.", "quantifier": "all states and key messages", "why_tests_cant": "The composition of parser and component over all inputs.", "anchors": ["components/select/select.go handleKey", "components/multiselect/multiselect.go handleKey", "tea/internal/infrastructure/ansi/parser.go ParseKey"]}
{"id": "C262", "title": "Form: at a submission the stored values pass", "statement": "When Enter submits a form, every field whose name has a value passes all its validators on the value stored under its name, and every other field shows no error.", "quantifier": "all field lists, components, names and validators", "why_tests_cant": "All component behaviours.", "anchors": ["components/form/form.go extractFieldValues", "components/form/internal/domain/model/form.go ValidateAll"]}
{"id": "C263", "title": "X10 mouse presses and wheel reports decode up to column and row 222", "statement": "Every press and wheel report in the X10 encoding with 0-based column and row up to 222 is decoded to its kind, button, modifiers and position.", "quantifier": "all X10 press and wheel reports the encoding can express", "why_tests_cant": "All button and modifier combinations and positions.", "anchors": ["mouse/internal/infrastructure/parser/x10_parser.go"]}
{"id": "C264", "title": "urxvt mouse reports decode to the right position", "statement": "Every report in the urxvt encoding is decoded to its position, and a press to its modifiers; what the library's own urxvt encoder writes is decoded to its button and position.", "quantifier": "all urxvt reports and events", "why_tests_cant": "Unbounded coordinates.", "anchors": ["mouse/internal/infrastructure/parser/urxvt_parser.go"]}
{"id": "C265", "title": "The X10 encoder is inverted by the decoder up to column and row 222", "statement": "Formatting a press or wheel event with the X10 encoder and parsing the result gives the button and the position back, for columns and rows up to 222.", "quantifier": "all events with positions up to 222", "why_tests_cant": "All positions.", "anchors": ["mouse/internal/infrastructure/parser/x10_parser.go FormatSequence"]}
{"id": "C266", "title": "Layout: measuring respects the size a box is given", "statement": "The measured size of a box is the exact width and height it was given; without an exact size it is at least the minimum and at most the maximum given last.", "quantifier": "all boxes and sizes", "why_tests_cant": "All boxes and sizes.", "anchors": ["layout/layout.go:Box.Width", "layout/layout.go:Box.Render", "layout/internal/domain/service/render_service.go"]}
{"id": "C267", "title": "Layout: a rendered box can be rendered, measured and placed again", "statement": "Rendering a box a second time gives the same text and changes nothing; measuring and placing it give the same result as before rendering.", "quantifier": "all boxes and parent sizes", "why_tests_cant": "All call histories.", "anchors": ["layout/layout.go:Box.Render"]}
{"id": "C268", "title": "Save/RestoreCursorPosition: one pair", "statement": "RestoreCursorPosition returns the cursor to the position of the last SaveCursorPosition, whatever other calls happened in between except switching the screen.", "quantifier": "all call sequences before and in between", "why_tests_cant": "All sequences of calls between the pair.", "anchors": ["terminal/terminal.go", "terminal/internal/infrastructure/unix/ansi.go:SaveCursorPosition", "terminal/internal/infrastructure/unix/ansi.go:RestoreCursorPosition"]}
{"id": "C269", "title": "SetCursorPosition is exact on the screen", "statement": "SetCursorPosition(x, y) with (x, y) on the screen succeeds, puts the cursor at that 0-based cell and changes nothing else.", "quantifier": "all screens and positions on them", "why_tests_cant": "All positions.", "anchors": ["terminal/terminal.go", "terminal/internal/infrastructure/unix/ansi.go:SetCursorPosition"]}
{"id": "C270", "title": "TextInput: a character that stands alone goes before the cursor", "statement": "After typing a character that joins no cluster with its neighbours, the text before the cursor is the old text before it followed by that character, and the text after the cursor is unchanged.", "quantifier": "every content, cursor position, typed character and cluster segmentation in which it stands alone", "why_tests_cant": "depends on how clusters form for all texts", "anchors": ["components/input/internal/input/domain/model/input.go:InsertRune"]}
{"id": "C271", "title": "External commands one after another", "statement": "When external commands run one after another, in any number, each finds the terminal in normal mode while it runs, and when all have returned the program has its raw mode and alternate screen back.", "quantifier": "all numbers of commands and all schedules in which they do not overlap", "why_tests_cant": "The overlap of two Suspend/Resume pairs has many interleavings; tests run one command at a time.", "anchors": ["tea/internal/application/program/program.go:ExecProcess", "tea/internal/application/program/program.go:Suspend", "tea/internal/application/program/program.go:Resume"]}
{"id": "C272", "title": "A Resume that failed on the alternate screen can be retried", "statement": "After a failed Resume the program is still suspended; if the alternate screen was not entered, a later Resume on a terminal that accepts it succeeds and restores the modes.", "quantifier": "all states and device failures", "why_tests_cant": "quantifies over failure points", "anchors": ["tea/internal/application/program/program.go: Resume"]}
{"id": "C273", "title": "Input reader: how much type-ahead a suspension can lose", "statement": "What the user typed is what the program received, then a bounded stretch (at most the pipe's capacity plus 4608 bytes) that is lost, then what is still in the input; order is kept.", "quantifier": "all schedules and inputs", "why_tests_cant": "How far the reader has read ahead when Cancel comes depends on the schedule.", "anchors": ["tea/internal/infrastructure/input/cancelable_reader.go:Cancel", "tea/internal/infrastructure/input/cancelable_reader.go:Read"]}
{"id": "C274", "title": "Input reader: at most one more read after shutdown", "statement": "After Cancel has begun, at most one more read of at most 4096 bytes is taken from the input, and none if the relay goroutine has ended.", "quantifier": "all schedules and inputs", "why_tests_cant": "It depends on whether a goroutine is still blocked in a read of the terminal when the 50 ms wait is over.", "anchors": ["tea/internal/infrastructure/input/cancelable_reader.go:WaitForShutdown", "tea/internal/infrastructure/input/cancelable_reader.go:relayLoop"]}
{"id": "C275", "title": "Form: after Enter the status drawn and IsValid are the truth", "statement": "If field names are distinct and every field has a value, then after Enter each field drawn as valid passes its validators, each error list drawn is the one the validators give for its value, and IsValid holds exactly if all fields pass.", "quantifier": "all forms with distinct names, validators and values", "why_tests_cant": "All histories.", "anchors": ["components/form/form.go: renderField", "components/form/internal/domain/value/field.go", "components/form/internal/domain/model/form.go: UpdateField"]}
{"id": "C276", "title": "No tag is left in plain text read from HTML without references", "statement": "ReadHTMLAsPlainText of a document without character references returns a text that contains no tag.", "quantifier": "all documents without an ampersand", "why_tests_cant": "All documents.", "anchors": ["clipboard/internal/domain/service/richtext_codec.go:StripHTMLTags"]}
{"id": "C277", "title": "Windows console: what is written appears on the normal screen", "statement": "While the alternate screen is not in use and the console accepts its calls, Write puts the text at the cursor of the visible screen and WriteAt at the given cell.", "quantifier": "all reachable consoles, texts and cells", "why_tests_cant": "Needs every history of screen switches.", "anchors": ["terminal/internal/infrastructure/windows/console.go:Write", "terminal/internal/infrastructure/windows/console.go:EnterAltScreen", "terminal/terminal.go:Terminal"]}
{"id": "C278", "title": "Windows console: one saved cursor position", "statement": "RestoreCursorPosition returns the cursor to the position of the last SaveCursorPosition, whatever other calls happened in between, if that cell still exists.", "quantifier": "all reachable consoles and call sequences", "why_tests_cant": "Single save/restore pairs work.", "anchors": ["terminal/internal/infrastructure/windows/console.go:SaveCursorPosition", "terminal/internal/infrastructure/windows/console.go:RestoreCursorPosition", "terminal/terminal.go:Terminal"]}
{"id": "C279", "title": "Windows console: positions within 16 bits", "statement": "SetCursorPosition with coordinates that fit 16 bits fails exactly if the cell does not exist.", "quantifier": "all reachable consoles and 16-bit positions", "why_tests_cant": "Any position a test tries in the range of a 16-bit number behaves.", "anchors": ["terminal/internal/infrastructure/windows/console.go:SetCursorPosition", "terminal/terminal.go:Terminal"]}
{"id": "C280", "title": "Windows clipboard: a write that fails early has no effect", "statement": "If opening the clipboard, emptying it or allocating memory fails, the write reports an error and neither the clipboard nor the memory changes hands.", "quantifier": "all texts, clipboards and failures of the first three calls", "why_tests_cant": "Tests cannot make the system calls fail.", "anchors": ["clipboard/internal/infrastructure/native/clipboard_windows.go:Write"]}
{"id": "C281", "title": "Resume redraws the inline view", "statement": "Whatever text an external command left on the screen and wherever it left the cursor (at the start of a row), after Resume consecutive rows show the lines of View() of the current model, cut to the terminal size, the rows above are kept (scrolled if needed) and the rows below are as they were; the model is unchanged and the program is no longer suspended.", "quantifier": "every model and view, every screen content left by the command, every terminal size", "why_tests_cant": "The screen an external command leaves is arbitrary.", "anchors": ["tea/internal/application/program/program.go:Resume", "tea/internal/application/program/program.go:renderView", "tea/internal/infrastructure/renderer/inline.go:Repaint"]}
{"id": "C282", "title": "The output of an external command stays on screen", "statement": "After an external command returns and the program resumes in inline mode, the text the command printed is still on the screen above the view (or scrolled off), not overwritten by it.", "quantifier": "every view and every command output", "why_tests_cant": "Whether output is overwritten depends on the number of lines drawn before the command and on where it leaves the cursor.", "anchors": ["tea/internal/application/program/program.go:Resume", "tea/internal/infrastructure/renderer/inline.go:Repaint"]}
{"id": "C283", "title": "A mix of text, function keys and Esc is delivered key by key", "statement": "Any sequence of typed characters (control characters included), function keys sent as CSI sequences and Esc presses reaches the program as exactly one message per keystroke in order (none for the unassigned control codes), however the bytes are split into reads, provided no read boundary falls inside a CSI sequence and no byte follows an Esc in its read; characters may be split anywhere.", "quantifier": "all keystroke sequences and all such splits into reads", "why_tests_cant": "Arrival timing decides the splits; there are exponentially many.", "anchors": ["tea/internal/infrastructure/input/reader.go:Read", "tea/internal/infrastructure/ansi/parser.go:ParseKey"]}
{"id": "C284", "title": "What is typed into a text input is what the terminal shows", "statement": "For a program whose model is a focused text input, whatever mix of text, Backspace, Delete, arrows, Home, End, Ctrl+U, Ctrl+E, Enter, Tab, other function keys and Esc the user types, however it arrives in reads, the input's value is what an ordinary line editor would hold, and a row of the terminal shows exactly that text followed by blanks, the rows below are blank and the rows above are kept; for characters one column wide and texts that fit the input and the row.", "quantifier": "all keystroke sequences, all ways they arrive, all terminal sizes and starting rows, all theme colours", "why_tests_cant": "It composes the reader, the decoder, the input, the style package, the event loop and the inline renderer over all histories.", "anchors": ["components/input/input.go:Update", "components/input/input.go:View", "tea/internal/infrastructure/input/reader.go:Read", "tea/internal/application/program/program.go:renderView", "tea/internal/infrastructure/renderer/inline.go:Render"]}
{"id": "C285", "title": "Update sees only what was offered", "statement": "Every message Update is called with, batches flattened, is one that Send, a command's result or the keyboard offered, and each offered message is delivered at most as often as it was offered: the program invents nothing and delivers nothing twice.", "quantifier": "every interleaving of sends, commands, keys, batches, quits, timeouts and restarts", "why_tests_cant": "The space of interleavings is unbounded; a test observes a few.", "anchors": ["tea/internal/application/program/program.go:Run", "tea/internal/application/program/program.go:Send", "tea/internal/application/program/program.go:executeCommand"]}
{"id": "C286", "title": "A program is told the window size", "statement": "A running program's Update is called with a WindowSizeMsg at start and after each resize, as its documentation promises.", "quantifier": "every execution of a program", "why_tests_cant": "A test would have to resize a real terminal; absence of a message cannot be tested.", "anchors": ["tea/tea.go:WindowSizeMsg", "tea/internal/application/program/program.go:Run"]}
{"id": "C287", "title": "Unknown sequences are swallowed", "statement": "A CSI sequence the library has no key for (a modified arrow key, a short report), at most 11 bytes long and arriving in one read, gives no message and takes nothing of the keystrokes before and after it.", "quantifier": "all such sequences, between any other keystrokes, split into reads in any way that splits no sequence", "why_tests_cant": "Infinitely many sequences and surroundings.", "anchors": ["tea/internal/infrastructure/input/reader.go:Read", "tea/internal/infrastructure/ansi/parser.go:ParseKey"]}
{"id": "C288", "title": "A mouse report is never taken for typed text", "statement": "With mouse tracking on, a terminal's SGR mouse report arriving in one read never shows up as typed characters.", "quantifier": "all buttons, columns and rows, press and release", "why_tests_cant": "A test uses small coordinates.", "anchors": ["tea/internal/infrastructure/input/reader.go:Read", "tea/internal/infrastructure/ansi/parser.go:ParseKey"]}
{"id": "C289", "title": "macOS clipboard", "statement": "On macOS the native clipboard is available exactly when pbcopy and pbpaste are installed; a text written is then read back byte for byte, and Read never invents or alters a text.", "quantifier": "all texts, all outcomes of the tools", "why_tests_cant": "All texts; needs macOS.", "anchors": ["clipboard/internal/infrastructure/native/clipboard_darwin.go:Write", "clipboard/internal/infrastructure/native/clipboard_darwin.go:Read", "clipboard/internal/infrastructure/native/clipboard_darwin.go:IsAvailable"]}
{"id": "C290", "title": "List: replacing the filter function never crashes and the next query puts the focus right", "statement": "After WithFilter on a list in a valid state with any function, asking for the focused item does not crash, and setting any query afterwards puts the focus on a visible existing item again.", "quantifier": "all list states, filter functions and queries", "why_tests_cant": "All filter functions.", "anchors": ["components/list/internal/domain/model/list.go: WithFilter, applyFilter, resetFocus"]}
{"id": "C291", "title": "Table: sorting neither loses nor invents rows, whatever the values", "statement": "After any sequence of operations the rows shown are a permutation of the table's rows, for columns of any dynamic types.", "quantifier": "all histories of operations, all values", "why_tests_cant": "All combinations of types.", "anchors": ["components/table/internal/domain/service/sort.go: Compare"]}
{"id": "C292", "title": "Progress: ordinary increments saturate", "statement": "Increment and Decrement by any amount not within 807 of the limits of int give the nearest value in 0..100.", "quantifier": "all bars and all such amounts", "why_tests_cant": "Overflow happens only at extreme values.", "anchors": ["components/progress/internal/domain/value/percentage.go Add, Subtract"]}
{"id": "C293", "title": "Spinner: a single spinner keeps one tick pending", "statement": "A program with one spinner has exactly one tick pending after any number of ticks.", "quantifier": "all spinners and numbers of ticks", "why_tests_cant": "Unbounded numbers of spinners and ticks.", "anchors": ["components/progress/spinner.go Update, tick", "tea/tea.go Tick"]}
{"id": "C294", "title": "A drag that ends away from its start is not a click", "statement": "If the pointer is at least the threshold away from the press when the button is released, the release is reported as a release and not as a click, whatever happened before and in between short of another button change.", "quantifier": "all configurations and event histories", "why_tests_cant": "Unbounded pointer paths.", "anchors": ["mouse/internal/application/event_processor.go", "mouse/internal/domain/service/drag_tracker.go"]}
{"id": "C295", "title": "An ASCII line in a bordered box of any text is as long as the frame", "statement": "Each line of a bordered box's content that is ASCII is rendered exactly as long as the top edge, whatever the other lines are.", "quantifier": "all boxes and texts", "why_tests_cant": "All of Unicode.", "anchors": ["layout/internal/domain/service/render_service.go:Render"]}
{"id": "C296", "title": "Text read from any RTF contains no braces and no outer white space", "statement": "The plain text taken from any RTF document contains no braces, neither starts nor ends with white space, and consists of bytes of the document.", "quantifier": "all byte strings", "why_tests_cant": "All texts including control characters.", "anchors": ["clipboard/internal/domain/service/richtext_codec.go: EncodeRTF, DecodeRTF"]}
{"id": "C297", "title": "ClearLine blanks exactly the cursor's line", "statement": "ClearLine succeeds, blanks the cursor's row and no other cell, and leaves the cursor in that row, at column 0.", "quantifier": "all screens and cursor positions", "why_tests_cant": "All screens and positions.", "anchors": ["terminal/terminal.go", "terminal/internal/infrastructure/unix/ansi.go:ClearLine"]}
{"id": "C298", "title": "ColorDepth is one of three values and true colour follows COLORTERM", "statement": "ColorDepth is 16, 256 or 16777216, true colour is reported exactly when COLORTERM is truecolor or 24bit, and the xterm, screen and tmux 256color names give at least 256.", "quantifier": "all values of COLORTERM and TERM", "why_tests_cant": "All strings.", "anchors": ["terminal/internal/infrastructure/unix/ansi.go:ColorDepth"]}
{"id": "C299", "title": "TextInput: Ctrl with a non-character key types nothing", "statement": "A non-character key pressed with Ctrl leaves the content unchanged unless it carries the letter U.", "quantifier": "all inputs, keys and cluster segmentations", "why_tests_cant": "All keys and contents.", "anchors": ["components/input/internal/input/infrastructure/keybindings.go: Handle"]}
{"id": "C300", "title": "TextInput: length validators count the characters of ASCII texts", "statement": "MinLength and MaxLength accept an ASCII text exactly if its number of characters is within the bound.", "quantifier": "all ASCII texts and bounds", "why_tests_cant": "universally quantified over texts", "anchors": ["components/input/internal/input/domain/service/validation.go:MinLength", "components/input/internal/input/domain/service/validation.go:MaxLength"]}
{"id": "C301", "title": "Short mouse reports are never taken for typed text", "statement": "An SGR mouse report of at most 11 bytes arriving in one read gives no key message.", "quantifier": "all buttons, columns, rows, press and release with a report that short", "why_tests_cant": "A test uses small coordinates.", "anchors": ["tea/internal/infrastructure/input/reader.go:Read", "tea/internal/infrastructure/ansi/parser.go:ParseKey"]}
{"id": "C302", "title": "One sender's messages keep their order", "statement": "Messages of one sender (the keyboard, or a goroutine that calls Send and waits for it to return) reach Update in the order they were sent; if none of its sends was given up, then what it has sent so far is exactly what Update has seen of it, followed by what is still queued and what it is still waiting to hand over.", "quantifier": "all programs, message lists, other senders, batches and interleavings", "why_tests_cant": "Every interleaving of every number of senders with the event loop.", "anchors": ["tea/internal/application/program/program.go:Send", "tea/internal/application/program/program.go:startInputReader", "tea/internal/application/program/program.go:Run"]}
{"id": "C303", "title": "A stopped program is stopped", "statement": "When a program is not running (and no Stop ran into its time limit) it has no event loop, and Update is not called again, whatever commands, keys and senders still do, until it is started again.", "quantifier": "all histories of starts, sends, keys, commands, Quit and Stop", "why_tests_cant": "Every later interleaving of the goroutines that are still alive.", "anchors": ["tea/internal/application/program/program.go:Stop", "tea/internal/application/program/program.go:Start", "tea/internal/application/program/program.go:Run"]}
{"id": "C304", "title": "Stop stops the program", "statement": "After Stop has returned, Update is not called any more: Stop blocks until the program has fully stopped.", "quantifier": "all moments at which Stop is called", "why_tests_cant": "The moment at which Stop is called relative to Update.", "anchors": ["tea/internal/application/program/program.go:Stop"]}
{"id": "C305", "title": "TextInput: what View returns", "statement": "View never fails. While the input is empty and not focused it is the styled placeholder, otherwise the placeholder has no influence. For ASCII text it is, without focus or with the cursor switched off, a plain piece of the text that contains the cursor position, and all of the text if that fits in Width; with focus and the cursor on, exactly the character at the cursor, or a blank behind the text, is highlighted.", "quantifier": "all histories of calls and keys, all widths, placeholders and styles; the text claims: all ASCII contents", "why_tests_cant": "Every content, width, cursor position and scroll offset.", "anchors": ["components/input/input.go:View", "components/input/input.go:renderPlaceholder", "components/input/input.go:renderContent", "components/input/input.go:renderCursor"]}
{"id": "C306", "title": "TextInput: what is drawn fits the width", "statement": "For ASCII text the characters drawn, the highlighted one or the cursor's blank included, number at most Width, unless the text fills the width exactly and the shown cursor is at its end.", "quantifier": "all inputs with ASCII content", "why_tests_cant": "Every content, width and cursor position.", "anchors": ["components/input/input.go:renderContent", "components/input/input.go:renderCursor"]}
{"id": "C307", "title": "TextInput: Width bounds what is drawn", "statement": "What View draws is never wider than Width.", "quantifier": "all inputs", "why_tests_cant": "The boundary case depends on the content's length, the width and the cursor.", "anchors": ["components/input/input.go:Width", "components/input/input.go:renderContent"]}
{"id": "C308", "title": "Send's answer is the truth", "statement": "Send is refused exactly while the program is not running; when it returns nil the message has been or will be handled by the event loop, never lost inside the program; when it returns the timeout error Update is never called with that message. A Send in progress ends in one of these two ways only, also when the program quits meanwhile.", "quantifier": "every reachable history and interleaving of senders, commands, keys and the loop", "why_tests_cant": "the answer races with the loop, the queue and the timer; tests see a few schedules only", "anchors": ["tea/internal/application/program/program.go:Send", "tea/internal/application/program/program.go:Run"]}
{"id": "C309", "title": "A program that is started again starts afresh", "statement": "A run handles only messages sent to it: messages left over from an earlier run of the same program do not influence it.", "quantifier": "every history of one program that is run, ends and is run again", "why_tests_cant": "needs a history in which messages are left in the queue when the loop ends", "anchors": ["tea/internal/application/program/program.go:Run", "tea/internal/application/program/program.go:Send"]}
{"id": "C310", "title": "Form: any Phoenix component works as a field", "statement": "A key that is not one of the form's own does to the focused field's component what the component's own Update does with it: typing into a form fills its fields (Form.Field: any Phoenix component works).", "quantifier": "every component of the library, every state of it, every key", "why_tests_cant": "the components' method signatures decide it, which no test of the form with hand-made stubs exercises", "anchors": ["components/form/form.go:delegateToFocusedField", "components/form/form.go:Field", "components/input/input.go:Update"]}
{"id": "C311", "title": "A panic in Init, Update or View leaves a usable terminal", "statement": "If Init, Update or View panics the terminal has been taken out of raw mode and off the alternate screen when the process dies, whatever was suspended, resumed or executed before, provided the terminal's operations do not fail.", "quantifier": "every history of calls before the panic, either kind of start, any device answers before", "why_tests_cant": "the process dies in the test; needs every state the panic can meet", "anchors": ["tea/internal/application/program/program.go:Run", "tea/internal/application/program/program.go:Start"]}
{"id": "C312", "title": "A panic in a command leaves a usable terminal", "statement": "If a command panics the terminal has been taken out of raw mode and off the alternate screen when the process dies.", "quantifier": "every history of calls before the panic", "why_tests_cant": "the process dies in the test", "anchors": ["tea/internal/application/program/program.go:executeCommand"]}
{"id": "C313", "title": "List: the rows drawn without a renderer", "statement": "Without an item renderer the view consists of min(height, number of shown items) rows, each an item's label behind a mark: the focused item and no other has the arrow, every other drawn item has the check mark exactly if it is selected.", "quantifier": "every list of items, either mode, every history of keys and calls with positive heights", "why_tests_cant": "depends on the focus, window, filter and selection reached by an arbitrary history", "anchors": ["components/list/internal/domain/model/list.go:defaultItemRenderer", "components/list/internal/domain/model/list.go:RenderVisibleItems", "components/list/list.go:View"]}
{"id": "C314", "title": "List: the view shows the selection", "statement": "From the view one can tell for every drawn item, the focused one included, whether it is selected: toggling the selection changes the view.", "quantifier": "every reachable list", "why_tests_cant": "needs two states that differ in the selection only", "anchors": ["components/list/internal/domain/model/list.go:defaultItemRenderer", "components/list/list.go:View"]}
{"id": "C315", "title": "TextArea: the observer's calls are the cursor's path", "statement": "While only movement keys are pressed (arrows, Home, End, Ctrl-A/E/P/N/F/B, Alt-F/B/</>), the calls of the OnCursorMoved callback form a path: the first call starts at the first cursor position, each call starts where the previous one ended, no call has from = to, and the last one ends at the cursor. Any key press makes at most one callback (OnCursorMoved or OnBoundaryHit).", "quantifier": "every text area, validator and sequence of keys", "why_tests_cant": "A test watches a few keys; a gap in the path needs a particular mixture of line lengths, fences and keys.", "anchors": ["components/input/textarea.go:OnCursorMoved", "components/input/textarea.go:OnBoundaryHit", "components/input/internal/textarea/domain/service/navigation.go:moveCursor", "components/input/internal/textarea/infrastructure/keybindings/emacs.go:Handle"]}
{"id": "C316", "title": "TextArea: the observer is told of every cursor move", "statement": "Whenever a key press moves the cursor, the OnCursorMoved callback is called with the old and the new position (so that, say, the new line can be highlighted).", "quantifier": "every text area and key", "why_tests_cant": "Which keys move the cursor depends on the text; a test sees some keys only.", "anchors": ["components/input/textarea.go:OnCursorMoved", "components/input/internal/textarea/domain/service/editing.go:InsertNewline"]}
{"id": "C317", "title": "Modal: an open modal is on the screen", "statement": "A program whose model is an open modal (no dimmed background, ASCII texts, a rectangle inside the terminal, content that leaves the separator's row free) shows every row of the modal's box at its place on the terminal, whatever messages other than resizes it has handled, as long as the modal is open: the rows drawn with cursor addresses survive the program's line-by-line redraws.", "quantifier": "every such modal, terminal size, cursor position, starting screen of single-width characters, and sequence of key and other messages", "why_tests_cant": "All key sequences and screens; what the redraws leave of the rows drawn before depends on the whole history.", "anchors": ["components/modal/modal.go:View, renderModalBox, Update", "tea/internal/infrastructure/renderer/inline.go:Render", "tea/internal/application/program/program.go:renderView"]}
{"id": "C318", "title": "Modal: a closed modal leaves the screen", "statement": "When a program's modal is closed, nothing of its box remains on the screen.", "quantifier": "all modals that were on the screen, all key sequences that close them", "why_tests_cant": "All modals and histories.", "anchors": ["components/modal/modal.go:View", "tea/internal/infrastructure/renderer/inline.go:Render"]}
{"id": "C319", "title": "A program's output is determined by its views", "statement": "What a running program writes to its output depends only on the sequence of strings View returned and on the window sizes announced: two programs, however different their models and messages, that show the same views under the same sizes write the same bytes.", "quantifier": "every pair of models, update and view functions and message sequences, inline and alternate screen", "why_tests_cant": "All programs and histories.", "anchors": ["tea/internal/application/program/program.go:renderView", "tea/tea.go:Run"]}
{"id": "C320", "title": "Println prints", "statement": "The command tea.Println(text) prints the text.", "quantifier": "all programs and texts", "why_tests_cant": "All programs.", "anchors": ["tea/tea.go:Println", "tea/internal/domain/service/builtin_cmds.go:Println"]}
{"id": "C321", "title": "Mouse events reach Update", "statement": "A click in a program's terminal calls Update with a MouseMsg (with WithMouseAllMotion, motion too).", "quantifier": "all programs, executions and mouse reports", "why_tests_cant": "All executions; the absence of a message cannot be tested.", "anchors": ["tea/tea.go:MouseMsg, WithMouseAllMotion", "tea/internal/application/program/options.go:WithMouseAllMotion", "tea/internal/infrastructure/input/reader.go:Read"]}
{"id": "C322", "title": "Form: Email accepts exactly name@host.tld", "statement": "The Email validator accepts a text exactly when it is a non-empty name of letters, digits and . _ % + -, an at sign, a non-empty host of letters, digits, dots and hyphens, a dot and at least two letters; everything else is refused with \"invalid email format\", and a value that is not text with \"invalid type (expected string)\". An accepted text is printable ASCII with no blanks, has exactly one at sign and at least six characters.", "quantifier": "all byte strings and values", "why_tests_cant": "All texts, including invalid UTF-8.", "anchors": ["components/form/internal/domain/value/validator.go:Email"]}
{"id": "C323", "title": "Form: Pattern accepts exactly the texts with a match", "statement": "Every pattern written as an optional ^, single-character expressions (literals, escaped punctuation, dot, \\d \\D \\w \\W \\s \\S, classes of characters and ranges, negated or not) each with an optional + * ? {n} {n,} or {n,m}, and an optional $, is accepted as a pattern, and a text passes exactly when some part of it, tied to the ends the pattern names, divides into one piece per expression, each of as many characters as the repetition allows, all of the expression's kind; a word of letters and digits accepts exactly the texts that contain it.", "quantifier": "all texts and all patterns of the modelled language", "why_tests_cant": "All patterns and all texts.", "anchors": ["components/form/internal/domain/value/validator.go:Pattern"]}
{"id": "C324", "title": "Form: Email accepts the valid addresses and no others", "statement": "A text is accepted by Email exactly when it is a valid (unquoted) mail address: atoms separated by single dots, an at sign and host labels separated by single dots.", "quantifier": "all texts", "why_tests_cant": "All texts.", "anchors": ["components/form/internal/domain/value/validator.go:Email"]}
{"id": "C325", "title": "Terminal: mode calls from several goroutines", "statement": "EnterAltScreen, ExitAltScreen, IsInAltScreen, EnterRawMode, ExitRawMode and IsInRawMode of the Unix terminal, made from any number of goroutines, behave as if made one after another in some order that keeps each goroutine's own; whenever none is under way the two questions tell the truth about the device, so of several goroutines entering a mode at once exactly one succeeds. No schedule deadlocks.", "quantifier": "all goroutines, call sequences, schedules and patterns of system failures", "why_tests_cant": "All schedules.", "anchors": ["terminal/internal/infrastructure/unix/ansi.go:EnterAltScreen", "terminal/internal/infrastructure/unix/ansi.go:EnterRawMode"]}
{"id": "C326", "title": "Clipboard: concurrent writes are each recorded once", "statement": "With history enabled, writes, history listings, clearings and expirations from any number of goroutines act on the history as if made one after another in some order that keeps each goroutine's own. If the goroutines only write and list, the history ends up with every successful write exactly once (the last n of them under a limit of n), each goroutine's in its own order, with rising times. No schedule deadlocks.", "quantifier": "all goroutines, call sequences, limits and schedules", "why_tests_cant": "All schedules.", "anchors": ["clipboard/internal/domain/service/clipboard_history.go:Add", "clipboard/internal/application/clipboard_manager.go:Write"]}
{"id": "C327", "title": "Clipboard: the newest history entry is what the clipboard holds", "statement": "When concurrent writes have all returned successfully, the newest history entry is the text the clipboard holds.", "quantifier": "all goroutines and schedules", "why_tests_cant": "All schedules.", "anchors": ["clipboard/internal/application/clipboard_manager.go:Write"]}
{"id": "C328", "title": "A drawing that failed is made up by the next", "statement": "If the write of a frame fails before the terminal has taken any of it, nothing changes: after any mix of failed and successful drawings, repaints and resizes the screen below the prompt shows the last successfully drawn view, in particular the same view when it is drawn again, and what was above stays.", "quantifier": "all histories of drawings, repaints and resizes with failed writes anywhere", "why_tests_cant": "The failures can come anywhere in an unbounded history, and what is written depends on all earlier frames.", "anchors": ["tea/internal/infrastructure/renderer/inline.go:Render", "tea/internal/application/program/program.go:renderView"]}
{"id": "C329", "title": "A drawing that failed halfway is made up by the next", "statement": "Render errors do not corrupt the renderer: whatever part of the frame the terminal took before the write failed, drawing the view again shows it in its place and leaves the rows above alone.", "quantifier": "all views and all lengths of the part that was written", "why_tests_cant": "Every cut of every frame.", "anchors": ["tea/internal/infrastructure/renderer/inline.go:Render"]}
{"id": "C330", "title": "Renderer: errors tell the truth", "statement": "Whenever and however often the output fails: if all calls on the renderer returned nil then everything was handed to the output and the screen shows the last frame; in every case what the output got is a beginning of what it would have got without failures; after an error nothing more is written; and an output that does not fail gives no errors.", "quantifier": "all sequences of Render, Clear, Resize, HideCursor, ShowCursor; all points of failure; all ways of buffering", "why_tests_cant": "Failures at every byte of every frame sequence.", "anchors": ["render/renderer.go:Render", "render/internal/application/renderer.go", "render/internal/infrastructure/ansi/writer.go"]}
{"id": "C331", "title": "Renderer: a frame that failed can be rendered again", "statement": "When the output failed once and works again, rendering the frame again brings it to the screen.", "quantifier": "all frames and failures", "why_tests_cant": "Any later call in any history could be the one that recovers.", "anchors": ["render/renderer.go:Render", "render/internal/infrastructure/ansi/writer.go:NewWriter"]}
{"id": "C332", "title": "Batch: a finished command's message is not held back by the others", "statement": "A command given to Batch delivers its message when it is done, even while another command of the batch still runs (a Tick, a slow request).", "quantifier": "all command lists and completion orders", "why_tests_cant": "Every prefix of every completion order.", "anchors": ["tea/tea.go:Batch", "tea/internal/domain/model/cmd.go:Batch"]}
{"id": "C333", "title": "Inline drawing from several goroutines: frames are whole", "statement": "The inline renderer may be used from several goroutines at once (the event loop draws, a resize or a repaint comes from elsewhere). Whatever the interleaving, once all calls have returned there is an order of the calls, keeping each goroutine's own order, in which they could have been made one after another: the bytes the terminal received are exactly those, so no frame is interleaved with another, and the screen shows the view drawn last in that order under the assumptions of C11. No interleaving can get stuck.", "quantifier": "all numbers of goroutines, call sequences, schedules, screens", "why_tests_cant": "The guarantee is over every interleaving of field accesses and writes; a race test samples a few.", "anchors": ["tea/internal/infrastructure/renderer/inline.go:InlineRenderer"]}
{"id": "C334", "title": "The tutorials' key names are those of the keys", "statement": "A program that compares KeyMsg.String() with the names the tutorials and examples give (\"up\", \"down\", \"left\", \"right\" for the arrows, \"f1\", \"shift+tab\", \"ctrl+i\", \"ctrl+j\") reacts when that key is pressed.", "quantifier": "all byte inputs and chunkings from the terminal", "why_tests_cant": "No finite set of inputs shows that no input yields such a name.", "anchors": ["tea/internal/domain/model/msg.go:String", "tea/internal/domain/model/msg.go:keyTypeName", "docs/user/tutorials/01-getting-started.md"]}
{"id": "C335", "title": "Typed text carries no control characters", "statement": "Whatever bytes the terminal sends and however they are split into reads, a character key delivered to Update (one without Ctrl) carries a valid Unicode character that is neither a C0 control code nor Space (which has its own key) nor Delete: escape sequences cannot enter a program's text through the keyboard.", "quantifier": "all byte inputs and chunkings from the terminal", "why_tests_cant": "All inputs, malformed UTF-8 and escape sequences included.", "anchors": ["tea/internal/infrastructure/input/reader.go:Read", "tea/internal/infrastructure/ansi/parser.go:ParseKey"]}
{"id": "C336", "title": "Rendering untrusted text through a style is safe", "statement": "Text rendered through a style cannot act on the terminal: escape sequences it contains are not obeyed (SECURITY.md recommends Render as the safe way to show user content).", "quantifier": "all texts and styles", "why_tests_cant": "All texts.", "anchors": ["style/style.go:Render", "style/internal/application/command/render.go:Execute", "SECURITY.md"]}
{"id": "C337", "title": "Mouse positions are validated", "statement": "The position of a mouse event lies within the terminal (SECURITY.md: positions are validated and checked against the terminal's dimensions).", "quantifier": "all reports and terminal sizes", "why_tests_cant": "All reports.", "anchors": ["mouse/internal/infrastructure/parser/sgr_parser.go:Parse", "mouse/internal/application/mouse_handler.go:ParseSequence", "SECURITY.md"]}
{"id": "C338", "title": "TextInput: cursor and placeholder in the theme's colours", "statement": "Theme changes how the input looks and nothing else: content, cursor, selection, focus and the rest are those of the same calls without it. The theme in force is the one given last, or the default theme if none or nil was given. With focus and the cursor on, View shows the window of the text in the terminal's default look except for the character at the cursor (a blank behind the text), which has the theme's Focus colour as background and its Background colour as foreground; afterwards the pen is the default one again. Without focus and without text the placeholder is shown in the theme's PlaceholderColor, and nothing else is. The default theme's colours are blue (96, 165, 250) and black for the cursor and grey (107, 114, 128) for the placeholder.", "quantifier": "every width, every list of calls of any setters, keys and Theme, every theme, every printable ASCII text (cursor), every placeholder without ESC", "why_tests_cant": "Themes, histories and texts are unbounded; the tests call Theme once and look for the text in the output, not at the colours a terminal shows.", "anchors": ["components/input/input.go:renderCursor", "components/input/input.go:renderPlaceholder", "components/input/input.go:Theme", "style/theme.go:DefaultTheme"]}
{"id": "C339", "title": "List: messages in the theme's colours", "statement": "A list shows \"(no matches)\" (with a filter) or \"(empty list)\" (without) in the TextMuted colour of the theme in force in place of its rows when there is nothing to show, and \"Filter: (active)\" in the theme's Info colour on a last line of its own exactly while the filter is shown and has text. The rows are shown as the renderer drew them, in the default look, one per line; the pen is the default one afterwards. The theme in force is the one given last, or the default theme.", "quantifier": "every list of items, every list of calls of setters, keys and Theme, every renderer whose rows have no ESC, every theme", "why_tests_cant": "Histories, items and themes are unbounded; the tests look for substrings in View.", "anchors": ["components/list/list.go:View", "components/list/list.go:Theme"]}
{"id": "C340", "title": "TextArea: what is typed is what the terminal shows", "statement": "A program that is nothing but a TextArea, running in inline mode: whatever keystrokes are made, its text and cursor are those of a plain editor (characters inserted at the cursor, Enter splits the line, Backspace and Delete join lines at their ends, arrows, Home and End, and the Emacs Ctrl keys move), and the terminal shows exactly that text, one line per row, with blanks elsewhere in its rows, while what stood above is kept, scrolled.", "quantifier": "every sequence of one-column characters, control characters other than Ctrl+K, U, W and Y, function keys sent as CSI sequences, Esc and unknown sequences, under every split into reads no boundary of which falls inside a key (C283); every area width, every terminal and starting row, texts that fit the area's height and the terminal, steps that do not run into C148 (fewer lines with an unchanged last line, see C341); any width oracles giving these characters one column", "why_tests_cant": "quantifies over all typing histories through key parser, component, event loop, renderer and terminal together", "anchors": ["components/input/textarea.go:Update", "components/input/textarea.go:View", "components/input/internal/textarea/infrastructure/keybindings/emacs.go:Handle", "tea/internal/infrastructure/input/reader.go:Read", "tea/internal/infrastructure/renderer/inline.go:Render"]}
{"id": "C341", "title": "TextArea: joining lines keeps the last one on the screen", "statement": "Whatever is typed into a TextArea that fits its height and the terminal, the terminal shows every line of its text.", "quantifier": "all keystrokes of C340, with no condition on how the number of lines changes", "why_tests_cant": "the failure needs two lines with equal text and a particular history of joins", "anchors": ["components/input/textarea.go:View", "tea/internal/infrastructure/renderer/inline.go:Render"]}
{"id": "C342", "title": "Modal: a button can have any key", "statement": "A visible modal's button is pressed by its own key whatever that key is, as in the README's example with an OK button on \"enter\" and a Cancel button on \"esc\".", "quantifier": "all modals with the default key bindings, button lists and keys", "why_tests_cant": "the keys that bindings take first are found only by considering every key for every button list and focus", "anchors": ["components/modal/modal.go:handleKeyPress", "components/modal/modal.go:Buttons", "components/modal/internal/infrastructure/keybindings.go"]}
{"id": "C343", "title": "TextArea: the boundary handler is told of exactly what is refused", "statement": "With a movement validator, the OnBoundaryHit handler is called exactly once, with the attempted position, when a movement key other than Home would go to a position the validator refuses (one row beyond the text for Up on the first line and Down on the last), and not at all otherwise; for Home exactly when every column of the line is refused (with the line's start, nothing changing), which is also what Ctrl-U tells; for Backspace when the text may be changed and the position before the cursor is refused. No other key and no key without a validator calls it.", "quantifier": "all texts, cursor positions, settings, validators and keys", "why_tests_cant": "it must hold for every validator, text and key; tests use a handful of validators", "anchors": ["components/input/textarea.go:OnBoundaryHit", "components/input/internal/textarea/domain/service/navigation.go:MoveUp", "components/input/internal/textarea/domain/service/navigation.go:MoveToLineStart", "components/input/internal/textarea/domain/service/editing.go:Backspace"]}
{"id": "C344", "title": "TextArea: a new text area has the documented settings", "statement": "NewTextArea is empty with the cursor at its start, 80 by 24, without wrapping, unlimited in lines and characters, editable, without a validator, and remembers ten kills.", "quantifier": "the one initial state", "why_tests_cant": "the settings are what every history starts from; tests check one or two of them", "anchors": ["components/input/textarea.go:NewTextArea", "components/input/internal/textarea/domain/model/textarea.go:NewTextArea"]}
{"id": "C345", "title": "TextArea: the top and the bottom are told", "statement": "As the cursor control documentation says of the reasons given, Up on the first line tells the boundary handler 'already at top' and Down on the last line 'already at bottom'.", "quantifier": "all texts, positions and settings", "why_tests_cant": "it must hold with and without a validator", "anchors": ["components/input/textarea.go:OnBoundaryHit", "components/input/docs/textarea/CURSOR_CONTROL_API.md", "components/input/internal/textarea/domain/service/navigation.go:MoveDown"]}
{"id": "C346", "title": "Table, Modal, Viewport, Progress, Spinner: a theme disturbs nothing", "statement": "Whatever themes are set and when, a table, modal, viewport, progress bar or spinner has the same state, shows the same view and (for a modal) sends the same messages as after the same calls without those of Theme.", "quantifier": "all lists of calls with calls of Theme anywhere among them, all themes, nil included", "why_tests_cant": "Histories and themes are unbounded.", "anchors": ["components/table/table.go:Theme", "components/modal/modal.go:Theme", "components/viewport/viewport.go:Theme", "components/progress/bar.go:Theme", "components/progress/spinner.go:Theme"]}
{"id": "C347", "title": "Table, Modal, Viewport, Progress, Spinner: drawn with the theme", "statement": "As documented (Theme sets the theme for styling the component; DefaultTheme is used if nil), the theme set can be seen: some two histories that differ only in the themes they set give different views.", "quantifier": "all lists of calls, all themes", "why_tests_cant": "That no theme is ever seen is a statement about all histories.", "anchors": ["components/table/table.go:Theme", "components/modal/modal.go:Theme", "components/viewport/viewport.go:Theme", "components/progress/bar.go:Theme", "components/progress/spinner.go:Theme"]}
{"id": "C348", "title": "Render: pooled buffers", "statement": "Whatever buffers a program gets from a Renderer (Buffer) or makes (NewBuffer), draws in, renders and releases, and whatever the pool hands out again: what the renderer writes is what it would write for the frames as they were at the time they were rendered, so later drawing (in the same buffer or in one sharing its memory) and releasing changes nothing already rendered. Buffer() is always blank. In a program that no longer uses the buffers it released, every buffer not released holds exactly what was drawn in it since it was got, and after it is rendered the terminal shows that.", "quantifier": "all programs of any length, drawing calls, buffer sizes, resizes, pool choices (which buffer Get returns, which ones are lost), terminal sizes", "why_tests_cant": "Which buffer sync.Pool returns is not under a test's control, and aliasing between a frame, the renderer's memory of it and a reused buffer shows only in particular interleavings of draw, render and release.", "anchors": ["render/renderer.go:Buffer", "render/renderer.go:Release", "render/internal/application/renderer.go:GetBuffer", "render/internal/application/renderer.go:PutBuffer", "render/internal/domain/model/buffer.go:Clone"]}
{"id": "C349", "title": "Render: Buffer() after Resize has the new size", "statement": "After Resize(w, h) every buffer Buffer() returns is w x h (the package documentation: \"New buffer with new dimensions\").", "quantifier": "all programs, sizes, pool choices", "why_tests_cant": "Only programs that release a buffer before resizing, with a pool that hands it out again, show the difference.", "anchors": ["render/renderer.go:Buffer", "render/internal/application/renderer.go:Resize", "render/internal/application/renderer.go:GetBuffer"]}
{"id": "C350", "title": "Render: releasing a buffer twice is harmless", "statement": "After Release has been called twice on a buffer, buffers got from Buffer() are still different buffers: drawing in one does not change another.", "quantifier": "all programs, pool choices", "why_tests_cant": "The damage appears later, in two buffers got by unrelated parts of the program.", "anchors": ["render/renderer.go:Release", "render/internal/application/renderer.go:PutBuffer"]}
{"id": "C351", "title": "Render: frames from several goroutines are whole", "statement": "When several goroutines call Render, Clear, Resize, HideCursor and ShowCursor on one Renderer (each rendering buffers nobody draws in meanwhile), then however the calls interleave, there is an order of the calls, keeping each goroutine's own, such that what is written is exactly what the calls made one after another in that order write: frames never mix on the screen, which shows the last frame of that order; and no schedule deadlocks.", "quantifier": "all numbers of goroutines, all programs of calls, all schedules, all frames of single-column characters and terminal sizes", "why_tests_cant": "The race detector sees only schedules that happen to occur; mixed output shows in particular interleavings of cursor moves and cells.", "anchors": ["render/internal/application/renderer.go:Render", "render/internal/application/renderer.go:Resize", "render/internal/application/renderer.go:Clear", "render/renderer.go:Renderer"]}
{"id": "C352", "title": "Render: a buffer may be updated while it is rendered", "statement": "A drawing call made by another goroutine while the buffer is being rendered (\"Thread-safe operations (concurrent buffer updates supported)\") is on the screen after the buffer is rendered again.", "quantifier": "all buffers, drawing calls and moments between the accesses of Render", "why_tests_cant": "The drawing must fall between the comparison and the copy inside one Render.", "anchors": ["render/internal/application/renderer.go:Render", "render/internal/domain/model/buffer.go:Clone", "render/renderer.go:Set"]}
{"id": "C353", "title": "External commands: the program has its terminal back", "statement": "When ExecProcess or ExecProcessWithTTY has returned, with or without an error, the program's process group is the terminal's foreground group and SIGTTOU is no longer ignored. When the command has ended the call goes on to return and, if Resume succeeds, the TUI is back and the command's process has been waited for; the call waits for nothing else.", "quantifier": "every function and option, every behaviour of the command, every sequence of Ctrl-Z, Ctrl-C and shell fg, every schedule and failure of Suspend, Start, the hand-over and Resume", "why_tests_cant": "It depends on when the command reads, when keys are pressed and when the scheduler lets the program hand over the terminal; a test has no shell, no terminal and one schedule.", "anchors": ["tea/internal/application/program/tty_control_linux.go:execWithTTYControl", "tea/internal/application/program/program.go:ExecProcess"]}
{"id": "C354", "title": "External commands: Ctrl-Z never locks the terminal", "statement": "Pressing Ctrl-Z while an external command runs suspends the command, and the user can go on: the TUI comes back, or the shell does and its fg continues.", "quantifier": "every reachable state of a call, every option", "why_tests_cant": "It depends on when the command reads, when keys are pressed and when the scheduler lets the program hand over the terminal; a test has no shell, no terminal and one schedule.", "anchors": ["tea/internal/application/program/tty_control_linux.go:execWithTTYControl", "tea/internal/application/program/program.go:ExecProcess"]}
{"id": "C355", "title": "External commands can read the terminal from their start", "statement": "A command that reads from the terminal gets its input, whenever it reads, until a key ends or stops it.", "quantifier": "every schedule of the program and the command", "why_tests_cant": "It depends on when the command reads, when keys are pressed and when the scheduler lets the program hand over the terminal; a test has no shell, no terminal and one schedule.", "anchors": ["tea/internal/application/program/tty_control_linux.go:execWithTTYControl", "tea/internal/application/program/program.go:ExecProcess"]}
{"id": "C356", "title": "Every combination of TTYOptions runs interactive commands", "statement": "A command that reads from the terminal can be run with each combination of TransferForeground and CreateProcessGroup.", "quantifier": "the four combinations, every schedule, kernels that accept and kernels that refuse a group that does not exist", "why_tests_cant": "It depends on when the command reads, when keys are pressed and when the scheduler lets the program hand over the terminal; a test has no shell, no terminal and one schedule.", "anchors": ["tea/internal/application/program/tty_control_linux.go:execWithTTYControl", "tea/internal/application/program/program.go:ExecProcess"]}
{"id": "C357", "title": "External commands leave no process behind", "statement": "When ExecProcess or ExecProcessWithTTY has returned, no process of the command is left, not even one that was never waited for.", "quantifier": "every option, schedule and failure", "why_tests_cant": "It depends on when the command reads, when keys are pressed and when the scheduler lets the program hand over the terminal; a test has no shell, no terminal and one schedule.", "anchors": ["tea/internal/application/program/tty_control_linux.go:execWithTTYControl", "tea/internal/application/program/program.go:ExecProcess"]}
{"id": "C358", "title": "Ctrl-C in an external command is the command's", "statement": "Ctrl-C pressed while an external command runs goes to the command only: the program is still there afterwards.", "quantifier": "every reachable state of a call while the command runs", "why_tests_cant": "It depends on when the command reads, when keys are pressed and when the scheduler lets the program hand over the terminal; a test has no shell, no terminal and one schedule.", "anchors": ["tea/internal/application/program/tty_control_linux.go:execWithTTYControl", "tea/internal/application/program/program.go:ExecProcess"]}
{"id": "C359", "title": "Windows console: mode calls from several goroutines", "statement": "EnterAltScreen, ExitAltScreen, EnterRawMode, ExitRawMode, IsInAltScreen and IsInRawMode called from any number of goroutines behave as if made one after the other, in an order that keeps each goroutine's own: a call succeeds only in the opposite mode (always, if no Win32 call fails), so that of several goroutines entering at once one succeeds; the questions are answered truthfully; when no call is under way the flags agree with the console, its input mode is the original one or the raw one made from it, and no screen buffer but the visible one and the original is open. Nobody waits forever.", "quantifier": "all programs of mode calls of all goroutines, all schedules, all failures of Win32 calls", "why_tests_cant": "The interleavings of six methods in any number of goroutines with any failures cannot be enumerated, and the code runs on Windows only.", "anchors": ["terminal/internal/infrastructure/windows/console.go:EnterAltScreen", "terminal/internal/infrastructure/windows/console.go:ExitRawMode"]}
{"id": "C360", "title": "Windows console: clearing the alternate screen leaves the user's own alone", "statement": "A Clear that is called while the alternate screen is on never clears what the user had on the screen before the program, also when another goroutine leaves the alternate screen at the same time.", "quantifier": "all schedules of Clear and ExitAltScreen", "why_tests_cant": "It takes another goroutine's ExitAltScreen between two lines of Clear.", "anchors": ["terminal/internal/infrastructure/windows/console.go:Clear", "terminal/internal/infrastructure/windows/console.go:ExitAltScreen"]}
{"id": "C361", "title": "Confirm: the answer given is the button highlighted on the terminal", "statement": "In a program whose model is a confirmation dialog with the buttons Yes, No and possibly Cancel, whatever keys are pressed and however their bytes arrive in reads, the terminal shows the title, the description if there is one, an empty row and the button row with exactly the button in square brackets that a spectator expects who counts arrows, Tabs and letters; No is highlighted at first. Enter gives the answer of the button highlighted at that moment, y, n and c their own, Esc cancels; once answered nothing changes, and the rows above the dialog are only scrolled.", "quantifier": "every sequence of keystrokes except Ctrl-C, Ctrl-N and Ctrl-Y, every way they arrive in reads, every title and description of single-width characters that fit the width, with and without the Cancel button, every terminal of at least 28 columns with enough rows and every cursor row", "why_tests_cant": "key bytes may be split and joined in many ways and the screen is the result of all drawings so far; tests see the key messages and the View string separately", "anchors": ["components/confirm/confirm.go:Update", "components/confirm/confirm.go:View", "components/confirm/internal/domain/model/confirm.go:Confirm", "tea/internal/application/program/program.go:renderView", "tea/internal/infrastructure/renderer/inline.go:Render"]}
{"id": "C362", "title": "The option Enter chooses in a Select is the one marked on the terminal", "statement": "Let a program run a filterable Select of string options through the inline renderer. At every moment the terminal shows the title, up to ten of the options that match what was typed, with \"> \" before exactly one of them (a note if none matches), and what was typed; rows of a longer list that is gone are blank again, and everything above the widget is as before. Typed characters, Backspace, Esc, the arrows, Home, End and the letters j, k, g, G move and filter as on the screen, the mark moving to the last match when its row is gone. Enter chooses the option marked on the screen: the selected value is its text; before Enter nothing is selected.", "quantifier": "every list of options and title of single-width characters that fit the width, every filter that accepts an empty query, every sequence (typing no more than fits its row) of printable ASCII characters, Enter, Tab, Backspace, function keys, Esc and unknown sequences, every way the bytes of the keystrokes arrive in reads, every terminal wide and high enough", "why_tests_cant": "a test compares a string with View() after a few calls; the claim needs every sequence of keys, through the reader's splits and the renderer's differences between frames of different heights", "anchors": ["components/select/select.go:Update", "components/select/select.go:View", "components/select/internal/domain/model/select.go:SetFilterQuery", "components/select/internal/domain/model/select.go:RenderVisibleOptions", "components/select/internal/domain/model/defaults.go:defaultRender", "tea/internal/infrastructure/renderer/inline.go:Render"]}
{"id": "C363", "title": "The options a MultiSelect delivers are the ones ticked on the terminal", "statement": "Let a program run a filterable MultiSelect of string options, with or without a maximum, through the inline renderer. At every moment the terminal shows the title with the number of ticked options and of all options in decimal, up to ten of the options that match what was typed, with \"> \" before the marked one and \"[x]\" before exactly the ticked ones, what was typed and the help; rows of a longer list that is gone are blank again and everything above the widget is as before. Space ticks or unticks the option marked on the screen (ticking none above the maximum), a ticks the matching options from the top until the maximum, n unticks all, also hidden ones; filtering and moving never change the ticks. Enter delivers the texts of the ticked options, in the order of the list, without changing anything.", "quantifier": "every list of options and title of single-width characters that fit the width, every maximum, every filter that accepts an empty query, every sequence (typing no more than fits its row) of printable ASCII characters, Enter, Tab, Backspace, function keys, Esc and unknown sequences, every way the bytes of the keystrokes arrive in reads, every terminal wide and high enough", "why_tests_cant": "a test compares a string with View() or a slice with SelectedItems() after a few calls; the claim needs every sequence of keys, through the reader's splits and the renderer's differences between frames of different heights", "anchors": ["components/multiselect/multiselect.go:Update", "components/multiselect/multiselect.go:View", "components/multiselect/internal/domain/model/multiselect.go:Toggle", "components/multiselect/internal/domain/model/multiselect.go:SelectAll", "components/multiselect/internal/domain/model/multiselect.go:SelectedValues", "components/multiselect/internal/domain/model/defaults.go:defaultRender", "tea/internal/infrastructure/renderer/inline.go:Render"]}
