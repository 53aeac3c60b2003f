# Formal model of phoenix-tui/phoenix in Rocq (Coq 8.16.1)

## Approach

* `/repo` is Go. Nothing is executed; every model definition is hand-translated
  from the source and carries a comment `(* path:lines *)` citing it.
* One group of files per area in `rocq/theories/`:
  `XModel.v` (executable Gallina model, no proofs), `XSpec.v` where a separate
  specification is useful, `XProofs.v` (lemmas) and `XProps.v` (only the property
  theorems, each closed by `exact lemma`, followed by `Print Assumptions`, plus the
  `Example`s that show the hypotheses are satisfiable).
* Only the Coq standard library is used. No axioms are used.
* Go `int` is modelled as `Z` (unbounded) or `nat` where the code keeps it
  non-negative; `uint8` arithmetic is modelled with its wrap-around where relevant.
  Go slices are lists; mutation returns a new value; `nil` is `None`.
* External behaviour (Unicode widths and grapheme segmentation, validators, the OS,
  user callbacks, clocks) is a `Section` variable, i.e. universally quantified in
  the closed theorems.
* Where the code violates the property as a user would state it, the file proves
  `..._refuted : exists ...` with a concrete witness and, beside it, the strongest
  positive statement found (`..._partial`).

## Plan per property

| id | modelled | proof |
|----|----------|-------|
| C01, C02 | frame buffer as function/list of cells, differ as nested loops | induction over rows/columns |
| C03-C05 | renderer + ANSI writer at byte level, VT100 emulator as spec | simulation invariant over call sequences |
| C06 | buffer operations | list algebra |
| C07 | ToANSI and an SGR interpreter | exhaustive attribute cases, decimal round-trip lemma |
| C08 | ParseKey as function on byte lists | case analysis over lengths and bytes |
| C09, C10 | bufio-based reader as a state machine over chunked input | induction over chunk lists |
| C11, C12 | inline renderer, byte level, row emulator | simulation invariant |
| C13-C16 | event loop, queue, senders, command goroutines, quit channel as a labelled transition system | invariants over all traces |
| C17, C18 | terminal mode flags with failure oracles; Run/Suspend/Resume | invariant over all call/failure sequences |
| C19, C20 | Batch/Sequence/conversions | induction (nested messages) |
| C21-C26 | textarea buffer, kill ring, editing, navigation, key map | invariant over key sequences, zipper refinement |
| C27, C28 | text input with left-to-right grapheme break oracle | invariants |
| C29, C30 | viewport, scroll, wrap | invariants |
| C31-C34 | list, table, sort | invariants, permutation/stability |
| C35-C40 | select, multiselect, form, confirm, modal, progress | invariants over key sequences |
| C41-C44 | mouse parsers and event processing, menu/hover | round-trips, state machine invariants |
| C45-C48 | flexbox, size, measure, render services | list induction, lia |
| C49-C52 | colour adapter, borders, spacing, aligner, hex | argmin lemma, width algebra |
| C53-C57 | history, OSC52/base64, HTML/RTF codec, provider choice | induction, round-trip |
| C58 | terminal ANSI ops against screen emulator | computation + list algebra |

<!-- plan C59+ (tools/mkplan.py) -->

| id | property | model | proof |
|----|----------|-------|-------|
| C59 | Key names identify keys | KeysModel | comparison with the table of documented names; case analysis over what Read can return (KeysNameProps.v); induction over byte and chunk lists (KeysProps.v) |
| C60 | External commands run on a restored terminal | LifeModel | invariant over call and failure sequences (LifeProps.v) |
| C61 | TextArea: the movement validator fences the cursor | TaModel | invariant over key sequences (TaKeysProps.v); invariant over key sequences, zipper refinement (TaProps.v) |
| C62 | TextArea: the cursor is always on screen | TaModel | invariant over key sequences (TaKeysProps.v); invariant over key sequences, zipper refinement (TaProps.v) |
| C63 | TextInput: what is drawn is a window of the content at the cursor | InModel | left-to-right cluster oracle, list induction, invariants (InProps.v) |
| C64 | TextInput: validators | InModel | invariant over key sequences, zipper refinement (InKeysProps.v); left-to-right cluster oracle, list induction, invariants (InProps.v) |
| C65 | Viewport: keys, wheel and drag scroll by their documented amounts | VpModel | invariants over scroll operations (VpProps.v) |
| C66 | List: navigation keys move the focus by the documented amount | LsModel | invariants over key sequences, permutation lemmas (LsProps.v); list algebra over the drawn rows (LsViewProps.v) |
| C67 | List: typing narrows the list by the typed text | LsModel | invariants over key sequences, permutation lemmas (LsProps.v) |
| C68 | List: replacing the filter function while a query is active | LsModel | invariants over key sequences, permutation lemmas (LsProps.v) |
| C69 | Table: navigation keys move the selection by the documented amount | TbModel | invariants, permutation and stability (TbProps.v); list algebra over the drawn rows (TbViewProps.v) |
| C70 | Table: cells and lines have exactly the configured widths | TbModel | invariants, permutation and stability (TbProps.v); list algebra over the drawn rows (TbViewProps.v) |
| C71 | Table: the selected row is among the drawn rows | TbModel | invariants, permutation and stability (TbProps.v) |
| C72 | Table: the view is aligned on screen, fits its height and shows every cell | TbModel | invariants, permutation and stability (TbProps.v) |
| C73 | Table: sorting columns of mixed types | TbModel | invariants, permutation and stability (TbProps.v) |
| C74 | Select, MultiSelect: disabled options cannot be chosen | SelModel | invariants over key sequences (SelProps.v) |
| C75 | Select: typing filters by the text typed | SelModel | invariants over key sequences (SelProps.v); list algebra over the drawn lines (SelViewProps.v) |
| C76 | Select, MultiSelect: Ctrl-C quits | SelModel | invariants over key sequences (SelProps.v) |
| C77 | MultiSelect: confirming returns at least the minimum of options | SelModel | invariants over key sequences (SelProps.v) |
| C78 | Form: never submitted with an invalid field | FmModel | invariant over key sequences (FmProps.v) |
| C79 | Form: length validators count characters | FmModel, FmModel, SyModel | invariant over key sequences (FmProps.v); list algebra over the drawn lines (FmViewProps.v) |
| C80 | Form, Confirm, Modal: Shift+Tab moves back | FmModel | invariant over key sequences (FmProps.v) |
| C81 | Form: forms built from a common form are independent | FmModel | invariant over key sequences (FmProps.v) |
| C82 | Confirm: custom buttons keep their meaning | CfModel | invariant over key sequences (CfProps.v) |
| C83 | Confirm: Ctrl-C cancels | CfModel | invariant over key sequences (CfProps.v) |
| C84 | Modal: centred for the current terminal size | MdModel | invariants over key sequences, explicit rows (MdProps.v) |
| C85 | Modal: the drawn box fills the modal's rectangle | MdModel | invariants over key sequences, explicit rows (MdProps.v) |
| C86 | Progress: increments saturate | PgModel | arithmetic, invariants (PgProps.v) |
| C87 | Spinner: frames in order, one tick at a time | PgModel | arithmetic, invariants (PgProps.v) |
| C88 | Spinner: custom frames are shown | PgModel | arithmetic, invariants (PgProps.v) |
| C89 | Spinner: several spinners animate independently | PgModel | arithmetic, invariants (PgProps.v) |
| C90 | Mouse motion and drags reach the program | MsModel | round trips, state-machine invariants (MsProps.v) |
| C91 | X10 mouse reports decode to what happened | MsModel | round trips, state-machine invariants (MsProps.v) |
| C92 | urxvt mouse reports decode to what happened | MsModel | round trips, state-machine invariants (MsProps.v) |
| C93 | The X10 encoder is inverted by the decoder | MsModel | round trips, state-machine invariants (MsProps.v) |
| C94 | A dragging gesture is never also a click | MsModel | round trips, state-machine invariants (MsProps.v) |
| C95 | Hover follows the pointer | MsModel | round trips, state-machine invariants (MsProps.v) |
| C96 | Wheel events scroll the configured number of lines | MsModel | round trips, state-machine invariants (MsProps.v) |
| C97 | Mouse reporting is switched off again | MsModel | round trips, state-machine invariants (MsProps.v) |
| C98 | Stretch fills the cross axis | LyModel | list induction, lia (LyProps.v) |
| C99 | A bordered box of ASCII text is a closed frame around its text | LyModel | list induction, lia (LyProps.v) |
| C100 | A bordered box of any text is a closed frame | LyModel | list induction, lia (LyProps.v) |
| C101 | A box renders at the size it is given | LyModel | list induction, lia (LyProps.v) |
| C102 | The picture of a flex container | LyModel | list induction, lia (LyProps.v) |
| C103 | Rendering a box does not change it | LyModel | list induction, lia (LyProps.v) |
| C104 | Grey colours are mapped to the nearest 256-colour entry | SyModel | finite case analysis lifted by lemmas, arithmetic (SyColorProps.v) |
| C105 | 256-colour palette entries survive conversion | SyModel | finite case analysis lifted by lemmas, arithmetic (SyColorProps.v) |
| C106 | Border colours are mapped like text colours | SyModel | finite case analysis lifted by lemmas, arithmetic (SyColorProps.v) |
| C107 | Text that is too wide is cut to the width | SyModel | width algebra, list induction (SyTextProps.v) |
| C108 | Width and Height set the size of a rendering | SyModel | width algebra, list induction (SyRenderProps.v) |
| C109 | What a styled text looks like on the terminal | SyModel | width algebra, list induction (SyRenderProps.v) |
| C110 | A coloured border keeps the style of its content | SyModel | width algebra, list induction (SyRenderProps.v) |
| C111 | Without colour support no colour escape is written | SyModel | width algebra, list induction (SyRenderProps.v) |
| C112 | Size bounds limit the rendering | SyModel | width algebra, list induction (SyRenderProps.v) |
| C113 | Border sides are switched individually | SyModel | width algebra, list induction (SyRenderProps.v) |
| C114 | Style setters are independent | SyModel | width algebra (SyMoreProps.v); width algebra, list induction (SyRenderProps.v) |
| C115 | Merging themes | SyModel | case analysis, merge algebra (SyThemeProps.v) |
| C116 | A complete theme replaces another when merged over it | SyModel | case analysis, merge algebra (SyThemeProps.v) |
| C117 | Theme manager under concurrency | MxModel, SyMxModel, SyModel | width algebra (SyMoreProps.v); a lock makes calls serialisable (MxProofs), then SyModel.manage for one call at a time (SyMxProps.v); case analysis, merge algebra (SyThemeProps.v) |
| C118 | A margin is as wide as the frame it surrounds | SyModel | case analysis, merge algebra (SyThemeProps.v) |
| C119 | Empty texts are padded too | SyModel | case analysis, merge algebra (SyThemeProps.v) |
| C120 | Clipboard history is listed newest first | CbModel | case analysis over providers; OSC 52 and base64 by list induction (CbApiProps.v); list induction over history, round trips (CbProps.v) |
| C121 | What was written can be read back | CbModel | list induction over history, round trips (CbProps.v) |
| C122 | The reported result of an OSC 52 write is what happened | CbModel | list induction over history, round trips (CbProps.v) |
| C123 | Restoring from the clipboard history | CbModel | list induction over history, round trips (CbProps.v) |
| C124 | Converting between HTML and RTF | RtModel | list induction, round trip with an independent reader (RtRtfProps.v) |
| C125 | Plain text of an HTML document | RtModel | list induction, round trip with an independent reader (RtHtmlProps.v) |
| C126 | No tag is left in plain text read from HTML | RtModel | list induction, round trip with an independent reader (RtHtmlProps.v) |
| C127 | Every text survives the RTF clipboard | RtModel | list induction, round trip with an independent reader (RtRtfProps.v) |
| C128 | ClearLine keeps the cursor | TmModel, TermEmu | computation and list algebra against the emulator (TmProps.v) |
| C129 | ClearLines clears n lines from the cursor | TmModel, TermEmu | computation and list algebra against the emulator (TmProps.v) |
| C130 | Save/RestoreCursorPosition form a stack | TmModel, TermEmu | computation and list algebra against the emulator (TmProps.v) |
| C131 | SetCursorPosition is exact or reported | TmModel, TermEmu | computation and list algebra against the emulator (TmProps.v) |
| C132 | Terminal modes follow the device | TmModel, TermEmu | computation and list algebra against the emulator (TmProps.v) |
| C133 | ColorDepth recognises terminals | TmModel, TermEmu | computation and list algebra against the emulator (TmProps.v) |
| C134 | TextInput: control combinations type nothing | InModel | invariant over key sequences, zipper refinement (InKeysProps.v) |
| C135 | Viewport: a wrapped view fits the height | VpModel | invariants over scroll operations (VpProps.v) |
| C136 | Viewport: follow mode keeps the last line visible across resizes | VpModel | invariants over scroll operations (VpProps.v) |
| C137 | Viewport: scrolling to an end is a one-time action | VpModel | invariants over scroll operations (VpProps.v) |
| C138 | TextInput: the cursor stays right after what was typed | InModel | left-to-right cluster oracle, list induction, invariants (InProps.v) |
| C139 | TextInput: a window of multi-byte content is drawn whole | InModel | left-to-right cluster oracle, list induction, invariants (InProps.v) |
| C140 | TextInput: length validators count characters | InModel | left-to-right cluster oracle, list induction, invariants (InProps.v) |
| C141 | Frame diff: HasChanges agrees with Diff for absent and resized frames | RenderModel, TermEmu | simulation against the terminal emulator (RenderProps.v) |
| C142 | The renderer keeps wide characters on screen | RenderModel, TermEmu | simulation against the terminal emulator (RenderProps.v) |
| C143 | The renderer shows each cell in its own style | RenderModel, TermEmu | simulation against the terminal emulator (RenderProps.v) |
| C144 | An escape sequence split across reads is the same key | KeysModel | induction over byte and chunk lists (KeysProps.v) |
| C145 | F1 to F4 reach the program | KeysModel | induction over byte and chunk lists (KeysProps.v) |
| C146 | Text after Escape is delivered | KeysModel | induction over byte and chunk lists (KeysProps.v) |
| C147 | The inline renderer shows lines as wide as the terminal | InlineModel, TermEmu | simulation against the terminal emulator (InlineProps.v) |
| C148 | The inline renderer shows a shrinking view | InlineModel, TermEmu | simulation against the terminal emulator (InlineProps.v) |
| C149 | The inline renderer clears the screen for an empty view | InlineModel, TermEmu | simulation against the terminal emulator (InlineProps.v) |
| C150 | Line truncation bounds the width of any bytes | InlineModel, TermEmu | simulation against the terminal emulator (InlineProps.v) |
| C151 | The event loop never blocks on itself, whatever the load | TeaModel | invariants over all traces (TeaProps.v) |
| C152 | Quit() stops the program while Update runs | TeaModel | invariants over all traces (TeaProps.v) |
| C153 | Quit() is taken by the event loop | TeaModel | invariants over all traces (TeaProps.v) |
| C154 | At most one event loop even after a timed-out Stop | TeaModel | invariants over all traces (TeaProps.v) |
| C155 | The cursor is visible again when the program ends | LifeModel | invariant over call and failure sequences (LifeProps.v) |
| C156 | Resume after the end changes nothing | LifeModel | invariant over call and failure sequences (LifeProps.v) |
| C157 | A failed Resume can be retried | LifeModel | invariant over call and failure sequences (LifeProps.v) |
| C158 | TextArea: a forward kill can be undone by a yank | TaModel | invariant over key sequences, zipper refinement (TaProps.v) |
| C159 | TextArea: Ctrl-U kills from the line start to the cursor | TaModel | invariant over key sequences, zipper refinement (TaProps.v) |
| C160 | TextArea: yank respects the line limit | TaModel | invariant over key sequences, zipper refinement (TaProps.v) |
| C161 | TextArea: the character limit is respected | TaModel | invariant over key sequences, zipper refinement (TaProps.v) |
| C162 | Measured height of a bordered box | LyModel | list induction, lia (LyProps.v) |
| C163 | ExecProcess keeps a suspended program suspended | LifeModel | invariant over call and failure sequences (LifeProps.v) |
| C164 | TextArea: kills respect the movement validator | TaModel | invariant over key sequences, zipper refinement (TaProps.v) |
| C165 | TextArea: positioning calls and kills keep the cursor on screen | TaModel | invariant over key sequences, zipper refinement (TaProps.v) |
| C166 | List: typed characters extend the filter text | LsModel | invariants over key sequences, permutation lemmas (LsProps.v) |
| C167 | List: any letter can be typed into the filter | LsModel | invariants over key sequences, permutation lemmas (LsProps.v) |
| C168 | Table: the documented sort keys sort | TbModel | list algebra over the drawn rows (TbViewProps.v) |
| C169 | Select: the default value is selected | SelModel | list algebra over the drawn lines (SelViewProps.v) |
| C170 | Select, MultiSelect: configuration does not depend on the order of the calls | SelModel | list algebra over the drawn lines (SelViewProps.v) |
| C171 | Select: every character can be typed into the filter and taken back | SelModel | invariants over key sequences (SelProps.v) |
| C172 | MultiSelect: preselected indices count only if they denote options | SelModel | invariants over key sequences (SelProps.v) |
| C173 | Form: the view shows every field, the focus and its status | FmModel, SyModel | list algebra over the drawn lines (FmViewProps.v) |
| C174 | Form: the status drawn is the truth about the current value | FmModel, SyModel | list algebra over the drawn lines (FmViewProps.v) |
| C175 | Form: IsValid tells whether all fields pass validation | FmModel, SyModel | list algebra over the drawn lines (FmViewProps.v) |
| C176 | Form: the user can reset the form | FmModel, SyModel | list algebra over the drawn lines (FmViewProps.v) |
| C177 | Form: length validators count characters, not bytes | FmModel | invariant over key sequences (FmProps.v) |
| C178 | Form: two forms extended from the same form keep their own fields | FmModel | invariant over key sequences (FmProps.v) |
| C179 | Confirm: the view | CfModel | invariant over key sequences (CfProps.v) |
| C180 | Confirm: any labels keep their meaning | CfModel | invariant over key sequences (CfProps.v) |
| C181 | Modal: placed for the current terminal size even if resized while hidden | MdModel | invariants over key sequences, explicit rows (MdProps.v) |
| C182 | Modal: the box fills the modal's rectangle at any size | MdEeModel on MdModel, PdModel, InlineModel, TermEmu, MdModel | simulation: every drawn row stays on the screen (MdEeProps.v); invariants over key sequences, explicit rows (MdProps.v) |
| C183 | Modal: texts outside ASCII fit the box | MdModel | invariants over key sequences, explicit rows (MdProps.v) |
| C184 | Mouse: positions, boxes, modifiers and kinds are what their names say | MsModel | arithmetic (MsValProps.v) |
| C185 | Mouse: exactly which byte sequences ParseSequence decodes and as what | MsModel | arithmetic (MsValProps.v) |
| C186 | Mouse: only whole mouse reports with positions on the screen are decoded | MsModel | arithmetic (MsValProps.v) |
| C187 | Layout: each fluent call changes its own setting of its own object, and a container keeps boxes as they were added | LyApiModel | induction over the tree, list algebra (LyApiProps.v) |
| C188 | Layout: setters return new instances and leave the receiver alone | LyApiModel | induction over the tree, list algebra (LyApiProps.v) |
| C189 | Layout: aligning in one direction keeps the alignment in the other | LyApiModel | induction over the tree, list algebra (LyApiProps.v) |
| C190 | Layout: a container's own Width and Height bound what it draws | LyApiModel | induction over the tree, list algebra (LyApiProps.v) |
| C191 | Layout: a container is drawn within its width for texts of any script | LyApiModel | induction over the tree, list algebra (LyApiProps.v) |
| C192 | Style: how far off reduced colours can be | SyModel | finite case analysis lifted by lemmas, arithmetic (SyColorProps.v); width algebra (SyMoreProps.v) |
| C193 | Style: a plain text in a coloured frame, and plain output without colours | SyModel | width algebra, list induction (SyRenderProps.v) |
| C194 | Style: when size bounds are missed and what happens then | SyModel | width algebra (SyMoreProps.v); width algebra, list induction (SyRenderProps.v) |
| C195 | Style: border side switches after a border was chosen | SyModel | width algebra, list induction (SyRenderProps.v) |
| C196 | What the clipboard builder builds | CbModel | case analysis over providers; OSC 52 and base64 by list induction (CbApiProps.v) |
| C197 | Which clipboard New prefers | CbModel | case analysis over providers; OSC 52 and base64 by list induction (CbApiProps.v) |
| C198 | The Linux clipboard tools | CbModel | case analysis over providers; OSC 52 and base64 by list induction (CbApiProps.v) |
| C199 | A working clipboard tool is used | CbModel | case analysis over providers; OSC 52 and base64 by list induction (CbApiProps.v) |
| C200 | Fallback to the next clipboard provider | CbModel | case analysis over providers; OSC 52 and base64 by list induction (CbApiProps.v) |
| C201 | The clipboard history is the record of what was written | CbModel | case analysis over providers; OSC 52 and base64 by list induction (CbApiProps.v) |
| C202 | Looking up clipboard history entries | CbModel | case analysis over providers; OSC 52 and base64 by list induction (CbApiProps.v) |
| C203 | No entry older than the age limit is listed | CbModel | case analysis over providers; OSC 52 and base64 by list induction (CbApiProps.v) |
| C204 | Any history limit is accepted | CbModel | case analysis over providers; OSC 52 and base64 by list induction (CbApiProps.v) |
| C205 | The most recent history entry is the text written last | CbModel | list induction over history, round trips (CbProps.v) |
| C206 | What was written over OSC 52 can be read back | CbModel | list induction over history, round trips (CbProps.v) |
| C207 | A failed OSC 52 write wrote nothing | CbModel | case analysis over providers; OSC 52 and base64 by list induction (CbApiProps.v); list induction over history, round trips (CbProps.v) |
| C208 | An OSC 52 write that reached the terminal is reported as a success | CbModel | case analysis over providers; OSC 52 and base64 by list induction (CbApiProps.v) |
| C209 | The zero clipboard builder works | CbModel | case analysis over providers; OSC 52 and base64 by list induction (CbApiProps.v) |
| C210 | RTF written by the library is read correctly by other programs | RtModel | list induction, round trip with an independent reader (RtReaderProps.v) |
| C211 | Every character is readable in RTF | RtModel | list induction, round trip with an independent reader (RtReaderProps.v) |
| C212 | Plain text of RTF documents of other programs | RtModel | list induction, round trip with an independent reader (RtReaderProps.v) |
| C213 | Text and styles of HTML documents of other programs | RtModel | list induction, round trip with an independent reader (RtReaderProps.v) |
| C214 | TextArea: the view is the visible text with the cursor marked | TaViewModel | list algebra over the drawn lines (TaViewProps.v) |
| C215 | TextArea: the placeholder is shown exactly while there is no text | TaViewModel | list algebra over the drawn lines (TaViewProps.v) |
| C216 | TextArea: the cursor is drawn whenever it is switched on | TaViewModel | list algebra over the drawn lines (TaViewProps.v) |
| C217 | TextArea: rows are no wider than Width | TaViewModel | list algebra over the drawn lines (TaViewProps.v) |
| C218 | TextArea: View accepts every size | TaViewModel | list algebra over the drawn lines (TaViewProps.v) |
| C219 | Core terminals are immutable values | CoModel | case analysis over the environment, arithmetic (CoProps.v) |
| C220 | Core: a terminal in raw mode says so | CoModel | case analysis over the environment, arithmetic (CoProps.v) |
| C221 | Core: detected capabilities follow the environment | CoModel | case analysis over the environment, arithmetic (CoProps.v) |
| C222 | Core: NO_COLOR disables colour only | CoModel | case analysis over the environment, arithmetic (CoProps.v) |
| C223 | Core: Apple's Terminal.app is never taken for a true colour terminal | CoModel | case analysis over the environment, arithmetic (CoProps.v) |
| C224 | The two packages agree on the colour depth | CoModel | case analysis over the environment, arithmetic (CoProps.v) |
| C225 | phoenix.NewTerminal is AutoDetectTerminal | CoModel | case analysis over the environment, arithmetic (CoProps.v) |
| C226 | Core: sizes, positions and cells are clamped into range | CoModel | case analysis over the environment, arithmetic (CoProps.v) |
| C227 | Core: colour needs ANSI | CoModel | case analysis over the environment, arithmetic (CoProps.v) |
| C228 | MockTerminal records every call once, under every schedule | MtModel | transition system, invariants (MtProps.v) |
| C229 | MockTerminal: recorded calls tell what was called | MtModel | transition system, invariants (MtProps.v) |
| C230 | MockTerminal's modes behave as the real terminal's | MtModel | transition system, invariants (MtProps.v) |
| C231 | Test terminals keep the promises of the Terminal interface | MtModel | transition system, invariants (MtProps.v) |
| C232 | NullTerminal is a drop-in replacement | MtModel | transition system, invariants (MtProps.v) |
| C233 | Windows console: cursor position, moves and look | WcModel | case analysis over the console calls, simulation (WcProps.v) |
| C234 | Windows console: what clearing clears and reading reads | WcModel | case analysis over the console calls, simulation (WcProps.v) |
| C235 | Windows console: alternate screen and raw mode | WcModel | case analysis over the console calls, simulation (WcProps.v) |
| C236 | Windows console: what is written appears on the screen | WcModel | case analysis over the console calls, simulation (WcProps.v) |
| C237 | Windows console: ClearLine leaves the cursor where it is | WcModel | case analysis over the console calls, simulation (WcProps.v) |
| C238 | Windows console: Size is the size of the terminal | WcModel | case analysis over the console calls, simulation (WcProps.v) |
| C239 | Windows console: saved cursor positions form a stack | WcModel | case analysis over the console calls, simulation (WcProps.v) |
| C240 | Windows console: positions out of bounds are errors | WcModel | case analysis over the console calls, simulation (WcProps.v) |
| C241 | Windows console: cleared cells have no colours left | WcModel | case analysis over the console calls, simulation (WcProps.v) |
| C242 | Windows clipboard: text goes and comes as UTF-16 | CwModel | transition system over writes and cancellations, invariants (CwProps.v) |
| C243 | Windows clipboard: writing reads only the text's own memory | CwModel | transition system over writes and cancellations, invariants (CwProps.v) |
| C244 | Windows clipboard: a failed write has no effect | CwModel | transition system over writes and cancellations, invariants (CwProps.v) |
| C245 | Windows clipboard: every text written is read back | CwModel | transition system over writes and cancellations, invariants (CwProps.v) |
| C246 | Input reader: bytes arrive in order, completely and without waiting for more | CrModel | transition system of Start/Stop/reads, invariants over traces (CrProps.v) |
| C247 | Input reader: Cancel releases the readers, WaitForShutdown returns | CrModel | transition system of Start/Stop/reads, invariants over traces (CrProps.v) |
| C248 | Input reader: nothing is taken from the input after shutdown | CrModel | transition system of Start/Stop/reads, invariants over traces (CrProps.v) |
| C249 | Input reader: type-ahead survives a suspension | CrModel | transition system of Start/Stop/reads, invariants over traces (CrProps.v) |
| C250 | Suspend stops the input reader, Resume starts one | RgModel | induction over the clusters, window invariant (RgProps.v) |
| C251 | Suspend stops the input reader however slow it is | RgModel | induction over the clusters, window invariant (RgProps.v) |
| C252 | The input is left alone when Run has returned | RgModel | induction over the clusters, window invariant (RgProps.v) |
| C253 | A program can be run again | RgModel | induction over the clusters, window invariant (RgProps.v) |
| C254 | External commands started at the same time | XcModel | case analysis (XcProps.v) |
| C255 | A running program's screen shows its model | PdModel, InlineModel | refinement of the inline renderer inside the event loop (PdProps.v) |
| C256 | A running program's alternate screen shows its model | PdModel, InlineModel | refinement of the inline renderer inside the event loop (PdProps.v) |
| C257 | A suspended program writes nothing to the terminal | PdModel, InlineModel | refinement of the inline renderer inside the event loop (PdProps.v) |
| C258 | Windows: an external command finds the original console mode | XwModel | transition system, invariants (XwProps.v) |
| C259 | Windows: the console input mode is restored at exit | XwModel | transition system, invariants (XwProps.v) |
| C260 | Table: the selected row is drawn while the sizes stay put | TbModel | invariants, permutation and stability (TbProps.v) |
| C261 | Select, MultiSelect: the Ctrl-C key message quits | SelModel | invariants over key sequences (SelProps.v) |
| C262 | Form: at a submission the stored values pass | FmModel | invariant over key sequences (FmProps.v) |
| C263 | X10 mouse presses and wheel reports decode up to column and row 222 | MsModel | round trips, state-machine invariants (MsProps.v) |
| C264 | urxvt mouse reports decode to the right position | MsModel | round trips, state-machine invariants (MsProps.v) |
| C265 | The X10 encoder is inverted by the decoder up to column and row 222 | MsModel | round trips, state-machine invariants (MsProps.v) |
| C266 | Layout: measuring respects the size a box is given | LyModel | list induction, lia (LyProps.v) |
| C267 | Layout: a rendered box can be rendered, measured and placed again | LyModel | list induction, lia (LyProps.v) |
| C268 | Save/RestoreCursorPosition: one pair | TmModel, TermEmu | computation and list algebra against the emulator (TmProps.v) |
| C269 | SetCursorPosition is exact on the screen | TmModel, TermEmu | computation and list algebra against the emulator (TmProps.v) |
| C270 | TextInput: a character that stands alone goes before the cursor | InModel | left-to-right cluster oracle, list induction, invariants (InProps.v) |
| C271 | External commands one after another | XcModel | case analysis (XcProps.v) |
| C272 | A Resume that failed on the alternate screen can be retried | LifeModel | invariant over call and failure sequences (LifeProps.v) |
| C273 | Input reader: how much type-ahead a suspension can lose | CrModel | transition system of Start/Stop/reads, invariants over traces (CrProps.v) |
| C274 | Input reader: at most one more read after shutdown | CrModel | transition system of Start/Stop/reads, invariants over traces (CrProps.v) |
| C275 | Form: after Enter the status drawn and IsValid are the truth | FmModel, SyModel | list algebra over the drawn lines (FmViewProps.v) |
| C276 | No tag is left in plain text read from HTML without references | RtModel | list induction, round trip with an independent reader (RtHtmlProps.v) |
| C277 | Windows console: what is written appears on the normal screen | WcModel | case analysis over the console calls, simulation (WcProps.v) |
| C278 | Windows console: one saved cursor position | WcModel | case analysis over the console calls, simulation (WcProps.v) |
| C279 | Windows console: positions within 16 bits | WcModel | case analysis over the console calls, simulation (WcProps.v) |
| C280 | Windows clipboard: a write that fails early has no effect | CwModel | transition system over writes and cancellations, invariants (CwProps.v) |
| C281 | Resume redraws the inline view | PdModel, InlineModel | refinement, with Suspend and Resume (PdResumeProps.v) |
| C282 | The output of an external command stays on screen | PdModel, InlineModel | refinement, with Suspend and Resume (PdResumeProps.v) |
| C283 | A mix of text, function keys and Esc is delivered key by key | KeysModel | induction over chunked input (KeysMixProps.v) |
| C284 | What is typed into a text input is what the terminal shows | EeModel on KeysModel, InModel, PdModel, InlineModel | composition of the refinement theorems of the parts (EeProps.v) |
| C285 | Update sees only what was offered | TeaModel | invariants over all traces (TeaSourceProps.v) |
| C286 | A program is told the window size | TeaModel | invariants over all traces (TeaSourceProps.v) |
| C287 | Unknown sequences are swallowed | KeysModel | induction over chunked input (KeysMixProps.v) |
| C288 | A mouse report is never taken for typed text | KeysModel | induction over chunked input (KeysMixProps.v) |
| C289 | macOS clipboard | CbModel | case analysis over providers; OSC 52 and base64 by list induction (CbApiProps.v) |
| C290 | List: replacing the filter function never crashes and the next query puts the focus right | LsModel | invariants over key sequences, permutation lemmas (LsProps.v) |
| C291 | Table: sorting neither loses nor invents rows, whatever the values | TbModel | invariants, permutation and stability (TbProps.v) |
| C292 | Progress: ordinary increments saturate | PgModel | arithmetic, invariants (PgProps.v) |
| C293 | Spinner: a single spinner keeps one tick pending | PgModel | arithmetic, invariants (PgProps.v) |
| C294 | A drag that ends away from its start is not a click | MsModel | round trips, state-machine invariants (MsProps.v) |
| C295 | An ASCII line in a bordered box of any text is as long as the frame | LyModel | list induction, lia (LyProps.v) |
| C296 | Text read from any RTF contains no braces and no outer white space | RtModel | list induction, round trip with an independent reader (RtRtfProps.v) |
| C297 | ClearLine blanks exactly the cursor's line | TmModel, TermEmu | computation and list algebra against the emulator (TmProps.v) |
| C298 | ColorDepth is one of three values and true colour follows COLORTERM | TmModel, TermEmu | computation and list algebra against the emulator (TmProps.v) |
| C299 | TextInput: Ctrl with a non-character key types nothing | InModel | invariant over key sequences, zipper refinement (InKeysProps.v) |
| C300 | TextInput: length validators count the characters of ASCII texts | InModel | left-to-right cluster oracle, list induction, invariants (InProps.v) |
| C301 | Short mouse reports are never taken for typed text | KeysModel | induction over chunked input (KeysMixProps.v) |
| C302 | One sender's messages keep their order | TeaModel | invariants over all traces (TeaOrderProps.v) |
| C303 | A stopped program is stopped | TeaModel | invariants over all traces (TeaOrderProps.v) |
| C304 | Stop stops the program | TeaModel | invariants over all traces (TeaOrderProps.v) |
| C305 | TextInput: what View returns | InViewModel, SyModel | list algebra over the drawn text, window invariant (InViewProps.v) |
| C306 | TextInput: what is drawn fits the width | InViewModel, SyModel | list algebra over the drawn text, window invariant (InViewProps.v) |
| C307 | TextInput: Width bounds what is drawn | InViewModel, SyModel | list algebra over the drawn text, window invariant (InViewProps.v) |
| C308 | Send's answer is the truth | TeaModel | invariants over all traces (TeaSendProps.v) |
| C309 | A program that is started again starts afresh | TeaModel | invariants over all traces (TeaSendProps.v) |
| C310 | Form: any Phoenix component works as a field | FmCompModel | case analysis over the messages (FmCompProps.v) |
| C311 | A panic in Init, Update or View leaves a usable terminal | LifeModel | case analysis over failure points (LifePanicProps.v) |
| C312 | A panic in a command leaves a usable terminal | LifeModel | case analysis over failure points (LifePanicProps.v) |
| C313 | List: the rows drawn without a renderer | LsRowModel | list algebra over the drawn rows (LsRowProps.v) |
| C314 | List: the view shows the selection | LsRowModel | list algebra over the drawn rows (LsRowProps.v) |
| C315 | TextArea: the observer's calls are the cursor's path | TaModel | case analysis over the keys, invariant (TaObsProps.v) |
| C316 | TextArea: the observer is told of every cursor move | TaModel | case analysis over the keys, invariant (TaObsProps.v) |
| C317 | Modal: an open modal is on the screen | MdEeModel on MdModel, PdModel, InlineModel, TermEmu | simulation: every drawn row stays on the screen (MdEeProps.v) |
| C318 | Modal: a closed modal leaves the screen | MdEeModel on MdModel, PdModel, InlineModel, TermEmu | simulation: every drawn row stays on the screen (MdEeProps.v) |
| C319 | A program's output is determined by its views | PdModel, CmdModel, TeaModel, KeysModel | induction over the messages; traces (PdMiscProps.v) |
| C320 | Println prints | PdModel, CmdModel, TeaModel, KeysModel | induction over the messages; traces (PdMiscProps.v) |
| C321 | Mouse events reach Update | PdModel, CmdModel, TeaModel, KeysModel | induction over the messages; traces (PdMiscProps.v) |
| C322 | Form: Email accepts exactly name@host.tld | FmPatModel | a matcher proved against the language of the pattern; the code's own pattern parsed from its text (FmPatProps.v) |
| C323 | Form: Pattern accepts exactly the texts with a match | FmPatModel | a matcher proved against the language of the pattern; the code's own pattern parsed from its text (FmPatProps.v) |
| C324 | Form: Email accepts the valid addresses and no others | FmPatModel | a matcher proved against the language of the pattern; the code's own pattern parsed from its text (FmPatProps.v) |
| C325 | Terminal: mode calls from several goroutines | MxModel, TmMxModel | a lock makes calls serialisable (MxProofs: invariant over all schedules), then TmProofs for one call at a time (TmMxProps.v) |
| C326 | Clipboard: concurrent writes are each recorded once | MxModel, CbMxModel | a lock makes calls serialisable (MxProofs), then induction over the order of the calls (CbMxProps.v) |
| C327 | Clipboard: the newest history entry is what the clipboard holds | MxModel, CbMxModel | a lock makes calls serialisable (MxProofs), then induction over the order of the calls (CbMxProps.v) |
| C328 | A drawing that failed is made up by the next | InlineModel, InlineIoModel | the failed calls drop out of the history, then C11; the refutation by computation (InlineIoProps.v) |
| C329 | A drawing that failed halfway is made up by the next | InlineModel, InlineIoModel | the failed calls drop out of the history, then C11; the refutation by computation (InlineIoProps.v) |
| C330 | Renderer: errors tell the truth | RenderModel, RenderIoModel | every operation against its counterpart that cannot fail (invariant on the buffered output), then C03 (RenderIoProps.v) |
| C331 | Renderer: a frame that failed can be rendered again | RenderModel, RenderIoModel | every operation against its counterpart that cannot fail (invariant on the buffered output), then C03 (RenderIoProps.v) |
| C332 | Batch: a finished command's message is not held back by the others | CmdModel | induction over nested messages (CmdProps.v) |
| C333 | Inline drawing from several goroutines: frames are whole | MxModel, InlineMxModel | a lock makes calls serialisable (MxProofs), then C11 (InlineMxProps.v) |
| C334 | The tutorials' key names are those of the keys | KeysModel | comparison with the table of documented names; case analysis over what Read can return (KeysNameProps.v) |
| C335 | Typed text carries no control characters | KeysModel, SyModel, MsModel | case analysis over what Read can return; SyRenderProps; computation on the screen model (SecProps.v) |
| C336 | Rendering untrusted text through a style is safe | KeysModel, SyModel, MsModel | case analysis over what Read can return; SyRenderProps; computation on the screen model (SecProps.v) |
| C337 | Mouse positions are validated | KeysModel, SyModel, MsModel | case analysis over what Read can return; SyRenderProps; computation on the screen model (SecProps.v) |
| C338 | TextInput: cursor and placeholder in the theme's colours | ThModel on InViewModel, LsModel, SyModel | fold over the calls; C305 and C31 composed with the render theorem of SyProofs on the emulator (ThProps.v) |
| C339 | List: messages in the theme's colours | ThModel on InViewModel, LsModel, SyModel | fold over the calls; C305 and C31 composed with the render theorem of SyProofs on the emulator (ThProps.v) |
| C340 | TextArea: what is typed is what the terminal shows | TaEeModel on KeysModel, TaModel, TaViewModel, PdModel, InlineModel | the area refines a plain editor, stroke by stroke; composed with C283 and C255 (TaEeProps.v) |
| C341 | TextArea: joining lines keeps the last one on the screen | TaEeModel on KeysModel, TaModel, TaViewModel, PdModel, InlineModel | the area refines a plain editor, stroke by stroke; composed with C283 and C255 (TaEeProps.v) |
| C342 | Modal: a button can have any key | MdModel | invariants over key sequences, explicit rows (MdProps.v) |
| C343 | TextArea: the boundary handler is told of exactly what is refused | TaModel | case analysis over keys; what is attempted is read off the same area without a validator (TaEdgeProps.v) |
| C344 | TextArea: a new text area has the documented settings | TaModel | case analysis over keys; what is attempted is read off the same area without a validator (TaEdgeProps.v) |
| C345 | TextArea: the top and the bottom are told | TaModel | case analysis over keys; what is attempted is read off the same area without a validator (TaEdgeProps.v) |
| C346 | Table, Modal, Viewport, Progress, Spinner: a theme disturbs nothing | CtModel on TbModel, MdModel, VpModel, PgModel | fold over the calls with the Theme calls erased (CtProps.v) |
| C347 | Table, Modal, Viewport, Progress, Spinner: drawn with the theme | CtModel on TbModel, MdModel, VpModel, PgModel | fold over the calls with the Theme calls erased (CtProps.v) |
| C348 | Render: pooled buffers | RpModel, RenderModel | invariant separating the rows of the buffers from those the renderer remembers, then C03 (RpProps.v) |
| C349 | Render: Buffer() after Resize has the new size | RpModel, RenderModel | invariant separating the rows of the buffers from those the renderer remembers, then C03 (RpProps.v) |
| C350 | Render: releasing a buffer twice is harmless | RpModel, RenderModel | invariant separating the rows of the buffers from those the renderer remembers, then C03 (RpProps.v) |
| C351 | Render: frames from several goroutines are whole | RmModel, RpModel, MxModel, RenderModel | each body, step by step, against the call it is; MxProofs serialises them; then C03 (RmProps.v) |
| C352 | Render: a buffer may be updated while it is rendered | RmModel, RpModel, MxModel, RenderModel | each body, step by step, against the call it is; MxProofs serialises them; then C03 (RmProps.v) |
| C353 | External commands: the program has its terminal back | JcModel | transition system of program, command, terminal and shell; invariant over all schedules (JcProps.v) |
| C354 | External commands: Ctrl-Z never locks the terminal | JcModel | transition system of program, command, terminal and shell; invariant over all schedules (JcProps.v) |
| C355 | External commands can read the terminal from their start | JcModel | transition system of program, command, terminal and shell; invariant over all schedules (JcProps.v) |
| C356 | Every combination of TTYOptions runs interactive commands | JcModel | transition system of program, command, terminal and shell; invariant over all schedules (JcProps.v) |
| C357 | External commands leave no process behind | JcModel | transition system of program, command, terminal and shell; invariant over all schedules (JcProps.v) |
| C358 | Ctrl-C in an external command is the command's | JcModel | transition system of program, command, terminal and shell; invariant over all schedules (JcProps.v) |
| C359 | Windows console: mode calls from several goroutines | WcMxModel, WcModel, MxModel | each body, step by step, against the call it is; MxProofs serialises them; then the invariants of WcProps (WcMxProps.v) |
| C360 | Windows console: clearing the alternate screen leaves the user's own alone | WcMxModel, WcModel, MxModel | each body, step by step, against the call it is; MxProofs serialises them; then the invariants of WcProps (WcMxProps.v) |
| C361 | Confirm: the answer given is the button highlighted on the terminal | CfEeModel on KeysModel, CfModel, PdModel, InlineModel | the dialog refines a spectator, stroke by stroke; composed with C283 and C255 (CfEeProps.v) |
| C362 | The option Enter chooses in a Select is the one marked on the terminal | SelEeModel on KeysModel, SelModel, PdModel, InlineModel | the Select refines a spectator, stroke by stroke; frames of changing height are admissible; composed with C283 and C255 (SelEeProps.v) |
| C363 | The options a MultiSelect delivers are the ones ticked on the terminal | MsEeModel on KeysModel, SelModel, PdModel, InlineModel | the MultiSelect refines a spectator, stroke by stroke; frames of changing height are admissible; composed with C283 and C255 (MsEeProps.v) |

<!-- end of plan -->

No property is considered inexpressible; where runtime behaviour (timing, OS
scheduling) matters it is represented by nondeterministic steps or oracles.

## Trusted base

What has to be believed for the theorems to say something about phoenix:

1. **Coq's kernel** (8.16.1), including its `vm_compute` reduction, which some finite
   case checks and the `_refuted` witnesses use. No kernel check is switched off; there is
   no `Admitted`, no `Axiom`/`Parameter`, no section-less `Variable`/`Hypothesis`, no
   functor, module type or `Declare Module`, no plugin.
2. **Axioms: none.** Every `…Props.v` file ends with a `Print Assumptions` for each of its
   theorems; each of them prints *Closed under the global context*. Only the standard library
   is imported (`List ZArith Lia Bool Arith Permutation Sorted String Ascii` and the
   `Zify` instances); no theorem uses one of its axioms. (`vcheck` additionally lists
   `Coq.ssr.ssrunder.*`, which are module fields of a file the standard library loads, not
   something a theorem depends on.)
3. **The hand translation.** The models were written by reading the Go text; nothing checks
   them against a running phoenix. Each definition cites its file and lines, and each
   simplification is stated in the file header or beside the definition.
4. **The specifications of what is not phoenix**: the terminal (`TermEmu.v`), UTF-8
   (`Utf8.v`), the Win32 console and clipboard (`WcModel.v`, `CwModel.v`), Go channels,
   mutexes, goroutines, `select`, `defer` and panics as used in `TeaModel.v`, `RgModel.v`,
   `CrModel.v`, `XcModel.v`, `LifePanicModel.v`; the HTML and RTF readers in the `Rt…` files.
5. **Oracles**, universally quantified in the theorems (with the stated hypotheses where a
   theorem needs any): display widths (`core.StringWidth`/uniwidth: `sw`, `wd`, `cw`),
   grapheme boundaries (uniseg: `brk`), the zero-width class of `unicode.In` (`zw`),
   case folding, user callbacks (renderers, validators, filters, Init/Update/View, commands),
   environment variables, the operating system's answers and failures, clocks.

### Conventions of the models

* `int` is `Z`: overflow of Go's 64-bit integers is not modelled, except in `PgModel.v`
  (progress) where it is, and `uint8` where it matters.
* Allocation never fails; `io.Writer` errors are modelled where the code reacts to them
  (`TmModel`, `LifeModel`, `WcModel`, `CbModel`, `RenderIoModel`, `InlineIoModel`), elsewhere writes succeed.
* A lock held for a whole method makes the method atomic (proved from steps that access the shared state one at a
  time in `MxProofs`, and used so for C117, C325, C326, C333, C351 and C359; assumed elsewhere).

### Modelled code

| package | models |
|---------|--------|
| `render` (buffer, differ, ANSI writer, renderer) | RenderModel, RenderIoModel (failing output), RpModel (buffers as shared memory, buffer pool), RmModel (several goroutines, over MxModel) |
| `tea`: key parser, reader, cancelable reader, reader goroutines | KeysModel, CrModel, RgModel |
| `tea`: inline renderer, display of the model | InlineModel, InlineIoModel (failing output), InlineMxModel (over MxModel), PdModel |
| `tea`: event loop, commands, Batch/Sequence, conversions | TeaModel, CmdModel |
| `tea`: life cycle, Suspend/Resume, ExecProcess(WithTTY), panics | LifeModel, LifePanicModel, XcModel, XwModel, JcModel (job control) |
| `terminal` unix (ANSI) and windows (console) | TmModel, TmMxModel (over MxModel), WcModel, WcMxModel (over MxModel) |
| `core` | CoModel |
| `components/input` (TextInput, TextArea, views) | InModel, InViewModel, ThModel, TaModel, TaViewModel, EeModel, TaEeModel |
| `components/{list,table,viewport}` | LsModel, LsRowModel, ThModel, TbModel, VpModel, CtModel (themes; also modal, progress) |
| `components/{select,multiselect,form,confirm,modal,progress}` | SelModel, FmModel, FmPatModel, FmCompModel, CfModel, MdModel, MdEeModel, PgModel |
| `layout` (fluent API, boxes, flex, measuring, rendering) | LyModel, LyApiModel |
| `style` (colours, spacing, borders, alignment, rendering, themes) | SyModel, SyMxModel (over MxModel) |
| `mouse` | MsModel |
| `clipboard` (providers, OSC 52, history, rich text, Windows) | CbModel, CbMxModel (over MxModel), RtModel, CwModel |
| `testing` (mock and null terminals) | MtModel |

### Not modelled

* `examples/`, `benchmarks/`, tests, and the version and documentation files.
* Plain getters, `String()` methods and constructors of value types that only store their
  arguments, where no property depends on them.
* `core`'s unicode service beyond the width oracle: `StringWidth`, the uniwidth and uniseg
  tables. Its `isEmoji`/`isCJK` helpers are dead code and `WithConfig` is not public.
* `layout`'s `LayoutNode` trees (`layout_service` beyond what `Box`/`Flex` reach) are not public.
* `clipboard` images (codec, `ImageData`): no provider hands images over, so the calls always
  report "not supported"; custom providers, whose type is internal.
* Regular expressions of the form's pattern validator outside the language of `FmPatModel` (no groups,
  alternatives, flags, lazy repetitions or named classes).
* Mouse `TerminalMode.Enable` variants that are not reachable through the public API.
* The cancelable reader's fallback without a pipe, and the Windows `UnblockStdinRead`.
* Job control beyond `JcModel`: the shell's `bg`, commands that change their group or start others. The darwin
  `tty_control` (same text as the Linux file) and the darwin clipboard beyond the
  command it runs.
* Custom key bindings of list and table: the type is internal, so a user cannot build one.

* In the RTF reader used as specification, the `\'` escapes (the writer never emits them).

### Violated properties

Where the code does not do what its documentation (or a reasonable user) says, the property is
kept as stated, has status `partial` in `MANIFEST.json` with a note starting "Violated:", a
`…_refuted` theorem with a concrete witness, and where natural a `…_partial` theorem saying
when it does hold. Properties with status `proved` hold of the model as stated.

### Testing the theorems

`seeded/LOG.jsonl` records the wrong programs tried: edits of one model definition, the claim
they break, the theorems that no longer compile, and the theorems tightened when one survived.
