# A machine-checked model of nullxx/mpp

`nullxx/mpp` is a simulator of the "m++" teaching CPU: a C core
(`mpp-cpu/src`, compiled to WebAssembly), and a TypeScript front end
(`mpp-front/src`) with an assembler, a disassembly view, an editor and run
buttons.  `properties.jsonl` lists what a user relies on, `MANIFEST.json` names
the theorems, `seeded/LOG.jsonl` records the wrong programs the theorems were
tested against.

Conventions: a file `Props*.v` contains only theorems, their proofs and
examples that meet their hypotheses.  Theorem `Cnn_...` is about property
`Cnn`.  A name ending in `_refuted` is a finding: the obvious claim is false of
the code, and the theorem proves so.  `None` is undefined behaviour of the C
code, never a legal result.

## 1. The model, file by file (all in `rocq/theories`)

### Models of code

| file | models | level |
|------|--------|-------|
| `Word.v` | `definitions.c`, `utils.c:get_bit`: 32-cell words, `word_to_int` (undefined when bit 31 is set), `int_to_word`, `get_used_bits` | data |
| `Prog.v` | the statements component code is made of: bus reads/updates, publish, register and memory access, notices | language |
| `Tables.v` | `rom.c:ROM`, `seq.c:truth_table`, transcribed by a script | data |
| `Components.v` | every `run_*` function of `mpp-cpu/src/lib/components`, statement by statement | code |
| `Machine.v` | **L2**: meaning of `Prog` over one value per topic plus one current copy per bus variable | semantics |
| `PubSub.v` | `electronic/bus.c`, `pubsub.c` over heaps of buses, subscriptions, middlewares | code |
| `PubSubPtr.v` | `pubsub.c`, `watcher.c` again, down to list nodes and the middleware array | code |
| `LinkedList.v` | `linkedlist.c`, node by node | code |
| `Gates.v` | `electronic/and.c` (the multiplexers are in `Components.v`) | code |
| `Api.v` | **L1**: meaning of `Prog` over the heap, static pointers, subscription list, watcher list; `init`/`shutdown` of every component; the exported functions of `mpp-cpu/src/linker`; `call`, `do_call`, `run_calls` | code |
| `Front.v`, `Buttons.v` | `RunButtons.tsx`, `Coder/index.tsx`: run loops, saving; then all interleavings of the buttons with running loops | code |
| `JsStr.v`, `AsmTable.v`, `Asm.v` | JavaScript strings and regular expressions, `operations.json`, `lib/traslator/index.ts` | code |
| `Disasm.v` | `lib/debugger/index.ts` | code |
| `View.v` | the widgets of the diagram, `useUpdateEdges.ts`, `constants/{nodes,edges}.tsx`, the state-transition list, the memory box | code |
| `Editor.v` | Save button and programs in the URL | code |
| `NumBox.v` | `NumberBaseInput.tsx`, `constants/bases.ts` | code |
| `Settings.v` | `lib/storage.ts`, `Settings.tsx` and the readers of settings | code |
| `Tabs.v` | the same with several tabs of one browser; what each tab should show | code and specification |
| `Notify.v` | `notifyUpdateToSubscribers` when the callbacks subscribe, unsubscribe and throw | code |
| `Floating.v` | `lib/ReactFlow/utils.ts`: end points and sides of floating arrows | code |
| `I18n.v`, `I18nTable.v` | `lib/i18n`, `components/i18n.tsx`; keys transcribed by a script | code |
| `Logger.v` | `logger.c`, `error.c` | code |
| `Utils.v` | `utils.c`, `lib/utils.ts:sleep` | code |
| `AppStart.v` | `App.tsx`: the start of the page, welcome screen and table | code |
| `Connect.v` | `lib/core/index.ts`: loading, closing, subscriptions | code |
| `TextIo.v` | links from the documentation, files, the stored draft; UTF-8, UTF-16 and URL codecs | code |
| `Runner.v` | `RunButtons.tsx` whole, `lib/utils.ts: sleep`, with the clock, the Stop button and the question | code |
| `Labels.v` | specification: reader of the texts of the microstates (StateTransition/constants.json and the documentation's states.json) and what they say of a cycle |
| `Marks.v` | error and label marks, notes and listing of the editor (traslator/index.ts, CodeEditor.tsx, TranslatedEditor.tsx) |
| `CycleTime.v` | `CycleTimeNode`, `lib/core/index.ts` | the time of a clock cycle as measured, stored by the buttons and shown by the widget |
| `Screen.v` | `RunButtons.tsx`, `Coder/index.tsx`, `MemoryNode.tsx`, `DebuggerNode/index.tsx`: what each event calls and which parts of the page are drawn again | code |
| `Exercises.v` | exercises and solutions of `docs/src/pages/es/instructions` | data, with the aims as specification |
| `Completer.v`, `Highlight.v` | `Completer.js`, `MppMode.js` | code |
| `DocsHighlight.v` | `docs/src/components/Code/Code.tsx` | the rules; the library that applies them as one regular expression |
| `DocLang.v` | `docs/src/languages.ts`, `LanguageSelect.tsx`, `AvatarList.astro` | code |
| `DocsSite.v` | `LeftSidebar.astro`, `MainLayout.astro`, `ThemeToggleButton.tsx`, `HeadCommon.astro`, `Transpiler.tsx` of the documentation | code; the parser is a parameter |
| `Changelog.v` | `Changelog/index.tsx` with late answers | code |

### Specifications (independent of the models' helpers)

| file | specifies |
|------|-----------|
| `Usage.v` | which call histories a client may make, and what the getters show (`obs`) |
| `Access.v` | specification: the memory cells each instruction reads and writes (C88) |
| `Relocate.v` | specification: a program moved to another place, and the rules it keeps to (C107) |
| `Isa.v` | the instruction set: effect of every opcode on a programmer-visible state |
| `Rtl.v` | the register transfer of each of the 45 microstates |
| `PubSubSpec.v` | a bus system as a set of live subscriptions |
| `AsmSpec.v` | the assembly language: lines, operands, labels, images |
| `Source.v` | what a program does, read from its source lines |
| `BusSpec.v`, `ViewSpec.v` | what the bus getters and the diagram should show |
| `Whole.v` | the machine of `Rtl.v`, the microprograms and `BusSpec.v`, answering the calls of the interface (C97, C98) |
| `Alone.v` | what one component does when it is driven alone, and what it must leave alone (C101) |

### Proof layers

`WordFacts`, `ZMachine`, `ZWord`, `ZRefine`, `ZRefineB`, `ZRefineC` (words to
integers); `Micro`, `MicroIsa`, `IsaOps` (microstates to instructions);
`HeapSim`, `Lifecycle`, `Drive`, `ApiFacts`, `Track`, `Reach` (heap to one value
per topic, and all call histories); `Runs`, `IsaFacts`, `IsaRun`, `IsaExamples`,
`DocRuns`, `Shown` (programs); `AsmRe`, `AsmLine`, `AsmFacts`, `AsmExec`, `AsmProg`,
`AsmErr` (assembler); `DisasmFacts`, `Buses`.

The refinement goes L1 -> L2 (simulation by induction over `Prog`), L2 -> an
integer version with range invariants, that -> `Rtl` (one lemma per
microstate), `Rtl` -> `Isa` (each of the 256 opcodes), lifted to all API
histories by induction.

## 2. Per property: what is modelled and how it is proved

| id | modelled by | how it is proved |
|----|-------------|------------------|
| C01-C12 | `Api`, `Isa` | refinement: cycles until `get_next_state()=0` are one `Isa` step, from every reachable between-instructions state |
| C13 | same | path length for all opcodes and flags, lifted over all states |
| C14 | same | induction on the number of instructions |
| C15, C16 | `Tables`, `Api` | sweep of the complete finite table domain (64*256*4), lifted to all histories by an invariant |
| C17, C18, C51 | `Api`, `Usage` | invariant over all allowed histories; C17 also shows that the guards are needed |
| C19, C20 | `Isa` with saturating PC/SP | instances of the refinement plus refutations of wrap-around |
| C21, C22 | `Isa` + refinement | induction over the list of bytes / the body |
| C23, C24 | `Isa` + refinement | case analysis over all opcodes |
| C25, C26 | `Word` | induction over bit positions |
| C27-C30 | `PubSubPtr`, `PubSubSpec` | representation invariant over histories; C30 refuted |
| C31, C32 | `LinkedList`, `PubSubPtr` | list-segment invariant, refinement to Coq lists |
| C33-C36, C38 | `Api` | over all states satisfying the invariant |
| C37 | `Api` | simulation between the re-initialised and a fresh world, for every later sequence of calls |
| C39 | `Api` | separate invariant that does not assume in-range memory |
| C40, C41 | `Front` | the loops as relations; termination by C13; equivalence with `Isa` runs to FIN |
| C42 | `Front`, `Asm` | induction over bytes; `C42_source` starts from program text |
| C43-C46 | `Asm`, `AsmSpec` | regular-expression matcher over UTF-16 units proved equal to the language; induction over programs |
| C47, C48, C55 | `Disasm` | induction over the window; round trip through the assembler |
| C49, C56 | `Asm` + `Front` + `Isa` | assembled, saved, run with the button; loop invariants on `Isa` |
| C50 | `Components`, `Gates` | induction over arrays |
| C52 | `Api` | arithmetic on all random sequences |
| C53 | `Rtl` | one lemma per microstate |
| C54 | `Usage` | construction of a call history for every valid state |
| C57 | `Api`, `BusSpec` | invariant on the bus copies after a cycle |
| C58-C60 | `View`, `ViewSpec` | invariant over all histories of page events |
| C61 | `NumBox` | uniqueness of plain numerals in a base by induction on digits; invariant over events |
| C62 | `Buttons` | transition system of presses, wake-ups and saves; invariant relating it to the single uninterrupted run |
| C63, C66 | `Connect` | invariant over all schedules; induction over subscription events |
| C64, C65 | `Editor`, `Asm` | invariant over edits, composed with C42-C46 |
| C67-C69 | `Editor`, `Asm`, `Isa` | texts of `docs/src/pages/es/examples`; the bytes are followed on `Isa` by induction on the recursion and on the loops (`DocRuns`), C68 by an invariant at the call; composed with C65, C44, C42, C41 |
| C70 | `MicroIsa.path` | the lists of `docs/src/pages/es/instructions`; induction along the path of microstates |
| C71 | `Editor`, `Buttons`, `Asm`, `Api` | `Source.v` (lines performed from the text); the image of the text in memory, one line = one `step`, then C40 and C62 |
| C72 | `Settings` | pages and storage as a transition system; the specification reads the last choice from the history; invariant |
| C73 | `I18n`, `I18nTable` | components and listeners as a transition system; invariant pairing listeners and components; key tables by computation |
| C74 | `Logger` | invariant: slots hold the first 32 callbacks in order |
| C75, C76 | `Utils` | induction on the number of digits; on the schedule |
| C77, C78 | `TextIo` | codecs inverted by induction on the text; invariant: the storage holds the shown text |
| C79 | `Completer` | membership of the filtered list against `AsmSpec`; assembler for every offered number |
| C80 | `Changelog` | invariant over all schedules of clicks and answers |
| C81 | `Highlight` | induction on an inductive specification of a coloured line, then on the forms of `AsmSpec` |
| C82 | `Screen` over `View`, `Buttons`, `Disasm`, `NumBox` | invariant over the history of the page; the boxes from C59, the listing from C47 and C55 |
| C83 | `Exercises` (solutions and aims) over `Source`, `Editor`, `TextIo`, `Buttons` | each solution followed line by line for every state, then C71 and C77 |
| C84 | `Screen` over `Source`, `Editor`, `Buttons`, `View` | C71 gives what the lines do, C82 that the page shows the machine; induction over the page's other events |
| C85 | `PubSub`, `Api` (`lexec`) | per statement of init and shutdown the blocks added are counted; every other call keeps the heap's domain |
| C86 | `Runner`: the handlers of RunButtons.tsx with the clock, the stored cycle time and the question | `told` ties the handler's variables to a stopwatch read off the observations; refinement into `Buttons` |
| C87 | `Labels`: a reader for the texts of the microstates and their meaning | the next microstate is always one on the path of the opcode in RI (invariant over all calls); each label against its register transfer |
| C88 | `Access`: the cells each instruction reads and writes | a relation between two machine states preserved by every instruction, lifted to the clock by C14; frame lemma for the cells not written |
| C89 | `Marks`: columns of the marks, notes beside the lines, listing | induction over the lines; captured groups are substrings; join and split of strings without line ends |
| C90 | `Asm`, `Editor` | label addresses are invariant under one-to-one renaming; bytes are determined by the specification's encoding (C44) |
| C91 | `Isa`, `Access`, `Front` | equal states run equally (C88 with all cells); pigeonhole on a numbering of the valid states |
| C92 | `CycleTime`: clock readings, the variable `clockCycleTime`, the widget | invariant: the variable is the last cycle's time, the widget that of the history before its last drawing |
| C93 | the calls `SetMem` of `Api` between instructions, cells read and written from `Access` | frame and agreement lemmas of C88 with the edited cells left out |
| C94 | `AppStart`: the two states of `App.tsx`, its effects, timers and drawings, over `Connect` | invariant: five stages of a visit, with the position of the first drawing in the history |
| C95 | `Disasm` over the memory of `Api` | induction over the loop of the list; the instructions frame memory (C88's lemmas) |
| C96 | `DocsHighlight`: the rules of `Code.tsx` over a whole program, beside `Highlight` | induction over the words of each line (C81's specification), then over the lines |
| C97 | `Whole`: the machine of register transfers, microprograms and bus rules answering calls | refinement: induction over the history with the invariant of `Reach` and that the next microstate lies on the microprogram of RI; commutation of a store with each microstate |
| C98 | `Whole` | both simulators are tied to one machine, then C97's step for every further call |
| C99 | `DocsSite`: state of `Transpiler.tsx`, with the parser as a parameter, and its tables | induction over the edits; `findIndex` tables equal to a filter by names seen |
| C100 | `DocsSite`: `LeftSidebar.astro`, `MainLayout.astro`, `ThemeToggleButton.tsx` with `HeadCommon.astro` | induction over the list, the texts and the events with the invariant that stored, checked and drawn theme agree |
| C101 | the `run_*` functions of `Components`, each on its own, against `Alone` | symbolic execution of the statement list, case analysis on the control lines, a frame predicate over all buses, registers and cells |
| C102 | `Tabs`: one shared storage, one page state per tab, any interleaving, against `told` | the storage after an action does not depend on the page that acts, so the storage is that of a single page; invariant over the history |
| C103 | `Notify`: slots with holes visited by index, behaviours as functions of the trace, against `subscribed` of C66 and `served` | invariant: a slot is left of the index exactly if its callback was called since it was last unsubscribed |
| C104 | `Floating`: the geometry of `lib/ReactFlow/utils.ts` over the rationals, against border, ray and side of a box | closed form: the point is the middle plus k times the difference, k the inverse of twice the larger of the two relative differences |
| C105 | `DocLang`: the regular expression as a matcher, its first match, the reading and the change of language | the matcher accepts exactly the codes followed by a slash; induction on the directories |
| C106 | `DocLang`: `removeDups` as insertion into an ordered map, null authors as a failure | the keys of the map are the authors in order of first appearance; invariant on the value of each key |
| C107 | `Relocate`: two states of `Isa`, the second with a block moved; which cells hold return addresses is followed along the run | simulation instruction by instruction (`step_cop`), composed with C14 and C41 |
| C108 | `Asm`, `save_to_memory`, `SetPc` and `Relocate` together | induction over the program: the two images differ at the label operands only (`moved_image`); then C42, C35 and C107; for the programs without stack, the invariant that PC is at a line of the program gives the rules of C107 (`run_tames`) |
| C109 | `Asm`, `save_to_memory` and `Isa` together | invariant: the program is in memory and PC is at one of its lines (`next_line`); induction over the instructions; then C14 and C41 |
| C110 | `Asm`, `save_to_memory`, `Isa` and `run_program` together | variant: PC grows with every instruction (`forward_line`), so the number of lines below it shrinks; then C41 and C14 |
| C111 | `Asm`, `save_to_memory`, `Isa` and `run_program` together | two runs side by side (`pair`): work registers, PC, program and LDA cells agree; induction over the instructions (`pair_runs`); then C41 |
| C112 | `Asm`, `save_to_memory`, `Isa` and `run_program` together | invariant: the program is in memory, PC is at one of its lines and SP is where the number of that line says (`dep_step`); induction over the instructions; then C14 and C41 |
| C113 | `Asm`, `save_to_memory`, `Isa` and `run_program` together | invariant: the program is in memory, PC is at one of its lines, and the stack is a chain of return addresses, each that of a line (`frames`); induction over the instructions (`frame_step`); the same with the routine called as the outermost one (`inner_step`, `inner_kept`) for returning and for the caller's bytes; ending by induction on the stack the routine needs, then on the lines left (`routine_ends`); then C14 and C41 |

No property was dropped as inexpressible.

## 3. Trusted base

* Coq 8.16.1's kernel, including its virtual machine (`vm_compute`); no
  `native_compute`, no plugins beyond those of the distribution, no switched-off
  check.
* Axioms: none.  `Print Assumptions` answers "Closed under the global context"
  for every theorem named in `MANIFEST.json` (and is run in the `Props*` files).
  Loading `lia`/`ZifyBool` brings in `Coq.ssr.ssrunder`, whose module-type
  parameters (`Under_rel.*`) a search for axioms finds in the library; no theorem
  here depends on them.
* That the definitions of the models say what the cited lines of `/repo` do.
  Each definition cites its lines.  There is no extraction and no translation
  tool except the script that transcribed `ROM` and `truth_table`
  (`Tables.v`) and `operations.json` (`AsmTable.v`).
* C semantics used: 32-bit `int`, signed overflow / NULL / dangling / freed
  access / out-of-bounds access undefined; `malloc` and `realloc` succeed; the
  callback registered with `set_update_ui` does not call state-changing
  functions.  Compilation to WebAssembly is taken to preserve this.
* JavaScript semantics used: run to completion between awaits, order of effects
  in React (child before parent), batching of setters.

## 4. Modelled and not modelled

Modelled: all of `mpp-cpu/src/lib/components`, `electronic`, `definitions.c`,
`linkedlist.c`, `pubsub.c`, `watcher.c`, `linker/*`, the notices of `error.c`;
in the front end `App.tsx`, `lib/traslator`, `lib/debugger`, `lib/core/index.ts`,
`RunButtons.tsx`, `Coder/index.tsx`, `CodeEditor.tsx` (code, Save, URL),
`NumberBaseInput.tsx`, the diagram's nodes and edges, `StateTransition`,
`MemoryNode.tsx`, the shipped examples, `lib/storage.ts`, `Settings.tsx`,
`lib/i18n`, `components/i18n.tsx`, `sleep`, `useTextFile`,
`Completer.js`, `MppMode.js`, `CycleTimeNode`, `Changelog/index.tsx`, the documentation's link, colours, menu, theme, transpiler page, language and contributors; also `logger.c`, `error.c`, `utils.c`.

Not modelled:

* Formatting and time stamps of `logger.c`, `time`/`srand`.
* Everything drawn (layout, styles, the example `createNodesAndEdges`), toasts,
  the tour's steps, the texts themselves, file dialogs.
* `FlagsNode`'s animated blob.

Simplifications, also stated beside the definitions:

* A cell of a `Word` is a boolean (every writer writes 0 or 1).
* `subscription_count` is an unbounded number (it is an `int` in C); C85_count_fits says this makes no difference up to 27183337 initialisations.
* The assembler's constant error text is left out;
  `toUpperCase` acts on ASCII letters only (it is applied to hexadecimal digits and texts of the page; regular expressions with flag `i` and without `u` never take another character for an ASCII letter); `parseInt` is exact.
* Browser codecs (UTF-8, URL query) are modelled from their standards, not from code.
* Number boxes: numbers above 2^53 - 1 are outside the model.
* Run buttons (`Buttons.v`): in immediate mode the loop may give way after every cycle, which
  adds schedules and removes none.
* Subscribers do not start a notification while they are notified; they may subscribe and unsubscribe (C103).

## 5. Findings

Proved as `_refuted` theorems (or inside the theorem where noted): PC sticks at
0xFFFF (C19); SP saturates (C20); `word_to_int` overflows on negatives (C25);
`rm_topic_middleware` writes past the array and leaves a dangling pointer (C30);
`set_memory_value` dereferences NULL for bad offsets and stores over-wide values
(C34); PCH/PCL stale after `set_register_pc` (C35); one subscription leaks per
init/shutdown (C37); 2OP, H, L and the data bus are unguarded and `init_buses`
is never called (C39, C29); overlong save undefined (C42); `AC` ambiguous
(C43, C48); label used as immediate breaks the layout (C45); stray carriage
return and lost reference (C46); undocumented two-byte opcodes listed as one
byte (C47); unpadded addresses (C48); AND gate not bitwise (C50); no 255 in
random memory (C52); highlight inside an instruction (C55); data bus shows a
value other than the one loaded (C57); S44 labelled S43 and un-executed states
listed (C58); pulse without arrow, stale page after reset (C59); memory box wraps
at 2^32 (C60); stale error mark (C61); one cycle too many after a stop inside
FIN, Stop forgotten in the first 100 ms of an immediate run (C62); overlapping connections lose stores (C63); Save enabled for a text
that does not assemble (C64); a comment taken for FIN (C65); truth-table
overlaps and wrong labels (C16); the documented factorial gives 0 for 0 (C67);
three documented microprograms list other microstates than those executed (C70);
emptied cycle-time box, tour switch (C72); stale text after a language change,
listener removed by a second removal, missing key (C73); silent fatal errors in
the release build (C74); 0 has no digits, texts of negative numbers (C75);
surrogate halves and byte-order marks (C77); a link overwrites the draft, edits
to a linked program lost (C78); small letters complete nothing, labels not
offered (C79); changelog items out of order, twice, lost, old error kept (C80);
numbers coloured as names, comment coloured as label (C81);
a saved empty program is not shown (C82);
POP solution reads another cell, PUSH solution overwrites itself on a fresh page, SFA text swaps the flags (C83);
n restarts leave n buses, n list nodes and 79 n subscriptions allocated (C85);
Setting the cycle time to 0 during a slow run disables Stop while the run goes on; a cycle time set to 0 by another tab lets a run started here freeze the page, for ever if the program is endless; an immediate run whose cycle time is changed in its first 100 ms waits between cycles it does not show (C86);
The documentation's table of states gives S43 the text of state 44 ("RD <- 2OP"); state 43 increments SP (C87);
A program that reads a cell nobody wrote depends on the random initial memory (C88_unset_refuted);
Marks on an indented line miss by the indentation; with an error in the text the listing shows addresses as if the bad line did not exist (C89);
A label such as T-a can be defined but not referred to; labels depend on letter case (C90_names_refuted);
Coming back to the same registers, flags and pointers does not mean a program is endless (C91_registers_refuted);
The cycle-time widget shows the time of the cycle before the last one, and -1000 ms after the first cycle (C92_late, C92_refuted);
A module that cannot be loaded leaves the welcome screen for ever; in development a failed second load leaves a blank page (C94_failed_refuted, C94_twice_refuted);
One more address at the start of the debugger's window can change every line (C95_shift_refuted);
A value made of two register names, and a number after $, have other colours in the documentation than in the editor (C96_other_refuted);
After a fetch the data bus shows the cell after the opcode, so it tells when that cell was written although no cycle used it (C97_edit_time_data_refuted);
In the documentation a page name with a dot is not marked in the menu, the edit link of an index file is wrong, choosing the checked theme is not remembered, two pairs of theme buttons can disagree with the page, and a foreign stored theme leaves no button checked (C100);
The unit test of AND (`test_run_alu_and`) is never called and its last assertion is false: 0 AND 1 sets FZ (C101);
With two tabs, a tab in immediate mode can wait 500 ms per cycle without drawing and with Stop disabled (C102_immediate_refuted); the drawer and the drawn base can disagree (C102_base_refuted); the kept program of one tab is replaced by the other's (C102_text_refuted);
A callback that throws makes the ones subscribed after it miss the notification (C103_missed_refuted); one that unsubscribes and subscribes itself never lets it end (C103_endless_refuted). The page's callbacks do neither;
Floating arrows are not the line between the middles of boxes of different sizes (C104_middle_refuted) and miss boxes drawn inside another (C104_inner_refuted);
Changing the language of a documentation page whose language is not its first directory does not lead to the same page (C105_place_refuted); a commit without a known author makes the list of contributors throw (C106_unknown);
Copying the bytes of a program to another place does not give the same program: jumps are absolute (C107_bytes_refuted);
A program that names one of its own cells by a number cannot be assembled for another address (C108_numbers_refuted);
A program whose last line is neither FIN nor a jump runs on into whatever is in memory after it (C109_open_refuted);
A program of one line that jumps to itself keeps 'run program' running for ever (C110_backwards_refuted).
