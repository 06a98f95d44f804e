# Formal model of nxas

nxas is an assembler for NVIDIA Maxwell GPUs.  `/repo` holds its C++ source,
which is read as text only.  `rocq/theories` holds a model of it in Rocq 8.16.1
and proofs about the model.  `properties.jsonl` lists the properties in plain
words, `MANIFEST.json` says which theorem settles which property.

## Layout

Model:

| file | contents |
| --- | --- |
| `Base.v` | texts, machine words and the outcome type shared by the whole model |
| `Float.v` | the floating-point conversions the assembler performs |
| `Lexer.v` | /repo/src/context.cpp, tokenizer and label collection |
| `Operand.v` | `helper.cpp`, the hand-written operands of `operand.h`, and the operand syntax `opnd` |
| `Catalogue.v` | every operand named by `operand.h`; generated by `tools/gen_table.py` |
| `Table.v` | the table of `table.h`; generated by `tools/gen_table.py` |
| `Parse.v` | /repo/src/parse.cpp and /repo/src/options.cpp |
| `Assemble.v` | `nxas.cpp`, `write.cpp`, `dksh.cpp`, `command_line.cpp` |
| `Golden.v` | the 1085+25 tests of the repository run on the model (tests of the model, not proofs) |
| `Diag.v` | what is printed on stderr. /repo/src/error.cpp, and how /repo/src/command_line.cpp ends |
| `Device.v` | files that are not plain ones |
| `Tester.v` | /repo/tests/tester.cpp, the program behind each test |
| `Source.v` | reading the C++ text of operand.h and table.h |
| `SourceText.v` | the lines of /repo/src/operand.h, table.h, helper.cpp, parse.cpp and opcode.h, as they are |
| `Idioms.v` | the bodies of operand.h and the operands of the model that stand for them |
| `Cxx.v` | reading functions of the C++ sources from their text |
| `Exec.v` | running the functions that [Cxx] reads |
| `Functions.v` | the functions of operand.h, helper.cpp and parse.cpp, read from their text |

Specifications, which use no helper of the model beyond its data types, and theorems named in `MANIFEST.json`, each followed by `Print Assumptions`:

| file | contents |
| --- | --- |
| `Spec.v` | vocabulary of the theorems, independent of the model's helpers |
| `SpecOperand.v` | how every operand may be written and the bits it stands for |
| `SpecInsn.v` | how an instruction may be written and what it stands for |
| `SpecLex.v` | what the characters of a token look like |
| `SpecSafe.v` | what to keep out of a text so that nothing undefined happens |
| `SpecProgram.v` | which texts are programs, and the file each of them stands for |
| `SpecLink.v` | programs side by side, and programs laid out differently |
| `SpecFloat.v` | rounding to nearest, ties to even, on bit patterns |
| `Properties.v` | the theorems, one block per entry of properties.jsonl |
| `Properties2.v` | what operands leave in the words |
| `SpecOpts.v` | what the option lines of a program say |
| `SpecContainer.v` | layout of a container (.dksh) file |
| `SpecCli.v` | argument vectors and files |
| `Properties3.v` | how texts are read |
| `Properties4.v` | annotations, forms and errors |
| `Properties5.v` | options, containers and the command line |
| `Properties6.v` | floating-point literals and immediates |
| `Properties7.v` | composition and undefined behaviour |
| `SpecSame.v` | when two spellings of an operand say the same |
| `Properties8.v` | what a word says |
| `Properties9.v` | the language of the assembler |
| `Properties10.v` | tokens, line breaks and linking |
| `SpecDiag.v` | what a diagnostic may say |
| `SpecEdit.v` | replacing one instruction of a program |
| `SpecWritable.v` | the words an operand knows, and programs of one instruction |
| `SpecDevice.v` | what a run may leave on a device |
| `Properties11.v` | diagnostics (C67 - C73) |
| `Properties12.v` | writing one instruction of a program differently |
| `Properties13.v` | every form and word can be written; counters; devices; exact rules for diagnostics (C78 - C85) |
| `SpecDepth.v` | how many label definitions stand in front of a token |
| `SpecAsserts.v` | what to keep out of a text so that no assert fails |
| `Properties14.v` | names of labels, recursion of the tokenizer, the test driver, exact rules for messages (C86 - C91) |
| `SpecTidy.v` | one way to write every token, and tidy programs |
| `Properties15.v` | builds with and without asserts (C92) |
| `Properties16.v` | longer, shorter and faulty programs (C93, C94, C95) |
| `Properties17.v` | tokens, words and tidied programs (C96, C97, C98) |
| `SpecRename.v` | programs with other labels |
| `SpecTester.v` | which tests pass |
| `Properties18.v` | the table and its source (C99) |
| `SpecSheet.v` | programs with one statement per line and without labels |
| `Properties19.v` | programs without labels (C100) |
| `SpecRuns.v` | an instruction whose operands are run from the text of operand.h |
| `Properties20.v` | operands run from the text of operand.h (C101) |
| `Properties21.v` | predicates and annotations run from the text of parse.cpp (C102) |
| `SpecScan.v` | the tokenizer and the search for labels, run from the text of context.cpp |
| `Properties22.v` | the tokenizer and the search for labels run from the text of context.cpp (C103, C104) |

Proofs:

| file | contents |
| --- | --- |
| `Bits.v` | masks, shifts and disjoint unions of machine words |
| `LexFacts.v` | the tokenizer moves left to right and always stops |
| `SchedFuel.v` | the annotation loop and the option loop never run out of fuel |
| `Param.v` | everything the parser does is parametric in positions |
| `Reach.v` | where the parser can be, and where its diagnostics point |
| `ParseFacts.v` | inversion of the instruction parser |
| `Outcomes.v` | which outcomes each part of the instruction parser can have |
| `Decode.v` | the decode loop of [assemble] and the label scan |
| `Emit.v` | the layout of the emitted words |
| `Program.v` | facts about a whole run of [assemble] |
| `Modes.v` | builds with and without asserts |
| `Footprint.v` | which bits of the word an operand can change |
| `Operands.v` | the model of every operand accepts exactly the spellings of [SpecOperand] and writes exactly their bits |
| `Operands2.v` | registers, predicates, floating point, memory and texture operands against [SpecOperand]; all operands together |
| `Operands3.v` | every operand of the table is written as [SpecOperand] says |
| `Encode.v` | what is known of every decoded instruction |
| `Quiet.v` | when the asserts of [opcode::add_bits] and [opcode::add_reuse] cannot fail |
| `Notes.v` | the scheduling annotations against their description |
| `Insn.v` | instructions against their description |
| `Words.v` | the fields of a word belong to its operands |
| `Position.v` | the tokenizer looks at characters only, never at positions |
| `Literals.v` | the libc conversions taken apart |
| `Lexemes.v` | the tokenizer reads exactly the tokens of [SpecLex] |
| `Stream.v` | a program is what its tokens say |
| `Cut.v` | a NUL character ends the text |
| `Forms.v` | which form of an instruction is taken, and which error is shown |
| `Sched.v` | the scheduling annotations of whole instructions |
| `Where.v` | diagnostics point at tokens |
| `Text.v` | what the characters of a text are read as, in any surroundings |
| `Compose.v` | one program after another |
| `Safe.v` | texts on which nothing undefined happens |
| `Language.v` | the assembler accepts exactly the programs and writes their files |
| `Link.v` | the words of a program do not depend on its line numbers, nor on whole groups in front of it |
| `Clash.v` | which forms can fail the asserts on overlapping bits |
| `Recover.v` | reading the operands back from the emitted words |
| `Fields.v` | what each kind of operand leaves in the word, for every instruction of every program |
| `Reject.v` | what operands accept, and that they report everything else |
| `Fields2.v` | guards, opcodes, floating-point immediates, mirrored registers and texture modes in the emitted words |
| `Fields3.v` | floating-point immediates, mirrored registers, extended immediates and texture modes in the emitted words |
| `Demo.v` | programs on which the hypotheses of the theorems hold |
| `Layout.v` | the output words of a program and the addresses of its labels |
| `Round.v` | the conversions of Float.v round to nearest, ties to even |
| `Half.v` | the conversion of src/fp16.h rounds to nearest, ties to even, for every binary32 pattern; and the other conversions of Float.v |
| `Floats.v` | floating-point literals and the immediates they become |
| `Opts.v` | option lines are read as they are written and settle as specified |
| `Container.v` | the output of a program with options |
| `Cli.v` | the command line tool |
| `Same.v` | the word determines what was written (C49) |
| `Unique.v` | the word of an instruction determines its guard and operands (C49) |
| `Kin.v` | forms with the same word (C50) |
| `Twins.v` | pairs of instructions with the same word, by running the assembler |
| `Message.v` | what the diagnostics say |
| `Told.v` | every diagnostic is explained by the text at its position |
| `Report.v` | the diagnostic of a rejected program |
| `Run.v` | the command line tool, and rules on what diagnostics say |
| `Edit.v` | what changes when one instruction of a program is written differently |
| `Writable.v` | every form can be written, and every word of its operands |
| `Counters.v` | lines, columns and addresses stay in range |
| `DeviceFacts.v` | runs on any device (C82 - C84) |
| `Depth.v` | how deep the tokenizer recurses |
| `Astray.v` | messages of several lines, and messages that point at what they ask for |
| `Asserts.v` | texts on which the build with asserts does what the build without them does |
| `Local.v` | an error is found whatever follows the statement it is in |
| `Tidy.v` | every token can be written; every program can be tidied up |
| `Tidied.v` | a tidied program has the same tokens, labels and words |
| `Growth.v` | what is written behind a program does not change it |
| `Rename.v` | only the addresses of labels matter |
| `TesterFacts.v` | the test driver judges the second word, and there is one |
| `Reading.v` | the table of the model is the one written in table.h |
| `Sheet.v` | every program can be written without labels, one statement per line |
| `Runs.v` | symbolic execution of the functions of operand.h |
| `Runs1.v` | operands run from their text, part 1 |
| `Runs2.v` | operands run from their text, part 2 |
| `Runs3.v` | operands run from their text, part 3 |
| `Runs4.v` | operands run from their text, part 4 |
| `Runs5.v` | operands run from their text, part 5 |
| `Runs6.v` | operands run from their text, part 6 |
| `Lines.v` | every operand of every line of the table does what its text says |
| `RunsParse.v` | symbolic execution of assemble_predicate and assemble_sched of parse.cpp |
| `Scan.v` | reading the functions of context.cpp from their text |
| `SourceContext.v` | the lines of /repo/src/context.cpp, as they are |
| `ScanExec.v` | running the functions that [Scan] reads |
| `ScanFunctions.v` | the functions of context.cpp that find tokens and labels, read from their text |
| `ScanRuns.v` | the tokenizer run from its text does what the model says |
| `ScanTokens.v` | [context::tokenize] run from its text is the tokenizer of the model |
| `ScanTokenize.v` | the predicates, the operators and the whole of [context::tokenize] run from its text |
| `ScanLabels.v` | [context::generate_labels] run from its text finds the labels of the model |

## How the code is modelled

* Every C++ function is one Gallina definition with a comment giving file and
  lines.  Simplifications are stated in those comments.
* A run ends in `Ok`, `Err` (a returned `error`), `Fatal` (diagnostic and
  `exit`), `Abort` (failed `assert`), `Undef` (undefined behaviour, tagged) or
  `OutOfFuel` (model artefact, proved impossible for `assemble`).
* The build mode (`asserts`) is a parameter, so theorems cover both.
* The source text is an arbitrary list of bytes.  Reading beyond the
  terminating NUL is `Undef`.
* The instruction table is data (`opnd`), generated from the C++ table; static
  analyses of it are computed inside Rocq and lifted to all programs.

## Plan per property

| property | subject | method |
| --- | --- | --- |
| C01 | Assembling always ends with one well-defined kind of outcome | fuel lemmas: progress of the tokenizer bounds every loop; induction on fuel |
| C02 | Output layout: one control word per three instructions, padded with NOPs | closed form of the emitter proved by induction over instruction groups |
| C03 | Scheduling control words decode to the annotations of the right instruction | bit-level lemma on shifted, disjoint 21-bit records, composed with C02 and C25 |
| C04 | The decode buffer is never overrun | every parsed instruction consumes one ";" token; counting invariant on the cursor |
| C05 | In a debug build, success means every ';' ends exactly one instruction | same counting invariant plus the final assert |
| C06 | A label denotes the byte offset of the instruction that follows it | invariant of the label scan: pc is a function of the number of ";" passed; combined with C05 |
| C07 | Branches encode the exact distance to their target | arithmetic on the label operand, then through the whole instruction by C10/C11 |
| C08 | Duplicate labels: the first definition wins, and labels exist only at line starts | relational specification of the label scan by lines |
| C09 | Debug and release builds agree whenever the debug build does not abort | simulation between the two build modes, operand by operand |
| C10 | Instruction words contain the form's opcode and nothing outside its operand fields | static footprint of every operand, induction over operand lists, computed over the table |
| C11 | Operand fields of one form do not overlap (except a known list) | disjointness of footprints computed over the table; witnesses for the exceptions |
| C12 | Guard predicates are encoded in bits 16..19 and default to always | guard bits proved outside all footprints, so they survive to the final word |
| C13 | Instructions that cannot be predicated reject predicates | case analysis of the flag check |
| C14 | 20-bit signed immediates are exact two's complement or rejected | arithmetic (two's complement) for all integers |
| C15 | Fixed-width integer operands are range-checked and recoverable | parametric arithmetic in width and address |
| C16 | IADD3 immediates stay inside their 20-bit field | refuted by a witness; exact for all other literals |
| C17 | Constant buffer operands encode bank and aligned offset exactly | arithmetic for all banks and offsets |
| C18 | Memory operands encode base register and offset | arithmetic, parametric in size, address and shift; witness for the lossy shift |
| C19 | Floating-point literals are correctly rounded to binary32 | nearest-even specification over integers scaled by a power of two, proved for round_ratio |
| C20 | 20-bit float immediates are the truncation of the binary32 value | bit arithmetic for all patterns plus a round-toward-zero specification |
| C21 | Double immediates keep sign and top 19 bits | bit arithmetic; witness for negative zero |
| C22 | Half-precision conversion rounds to nearest even for every float | independent nearest-even specification of binary16, proved for all patterns by case analysis on the exponent |
| C23 | Half immediates place sign and magnitude correctly | composition of C19/C22 with the placement; witness for negative zero |
| C24 | Half literals are rounded only once | refuted by a crafted decimal literal |
| C25 | Scheduling annotations are validated and packed losslessly | invariant of the annotation loop against a list specification |
| C26 | Register reuse flags reach the control word slot of their operand | case analysis of try_reuse, footprint of the reuse flags over the table |
| C27 | Register fields hold the register number | operand lemma, then lifted to the final word by the static disjointness |
| C28 | Integer literals denote their mathematical value | refuted by a witness; lexer lemma for digit strings of any length, value defined by Horner evaluation in the specification |
| C29 | Register and predicate names are lexed exactly | lexer lemmas for all digit strings and continuations |
| C30 | White space between tokens never matters | tokenizer commutes with leading blanks; token-stream bisimulation |
| C31 | Encoding is insensitive to the position of an instruction in the text | bisimulation on cursors carried through every operand |
| C32 | Label definitions are invisible to the instruction stream | tokenizer lemma, induction on the number of definitions |
| C33 | Form selection is first match, and failed attempts leave no trace | characterisation of the table walk by the first accepting form |
| C34 | The diagnostic shown is that of the attempt that got furthest | characterisation of the table walk on failure as an argmax |
| C35 | Diagnostics point at a real place in the source | cursor invariant: line and column are determined by the consumed prefix |
| C36 | Characters are consumed strictly left to right | suffix and progress lemmas for the tokenizer |
| C37 | Well-formed sources never trigger undefined behaviour | absence-of-UB invariant under a syntactic condition; one witness per clause |
| C38 | Assembling is compositional | token-stream bisimulation applied to the decode loop |
| C39 | Program options are applied once and in order | relational specification of option sequences |
| C40 | The .num_gprs option sets the register count | refuted: no program with this option assembles |
| C41 | Container header layout | closed form of the header words |
| C42 | Container size agrees with its header | refuted with a witness; exact characterisation of when it holds |
| C43 | Entry point must start an instruction group | case analysis of the writer plus C06 |
| C44 | Graphics programs are always rejected | case analysis of the writer |
| C45 | The command line writes output only on success | case analysis of the command line over an abstract file system |
| C46 | Command-line arguments are order independent | specification of argument vectors, induction over the list |
| C47 | Mirrored operands must equal the destination | bit arithmetic on the cleared and rewritten field, disjointness from the table |
| C48 | TEXS and TLDS mode tables | finite case analysis with an arbitrary surrounding word |
| C49 | Different accepted operand values give different words | refuted by a witness; recoverability of each operand field from the final word elsewhere |
| C50 | No two forms share an encoding | refuted by a witness; comparison of all pairs of forms elsewhere |
| C51 | Nothing after an embedded NUL is assembled | cursor lemma: a token stream ends at NUL |
| C52 | The accepted language and its meaning | token, instruction and option specifications joined into one grammar; both inclusions by induction over the decode loop and the grammar |
| C53 | Line breaks only matter to options | the grammar of C52 is invariant under renumbering lines |
| C54 | Programs can be linked by concatenation | relocation of sentences of the grammar by whole groups, then C52 |
| C55 | IADD3 immediates: exact rule | as C16, with the overflowing literal described |
| C56 | Half literals: exact rule | as C24: double rounding is harmless away from the middles |
| C57 | Register and predicate fields: exact rule | as C27, with the IADD3 exception described |
| C58 | Integer literals: exact rule | as C28, with the terminators the lexer really accepts |
| C59 | Register and predicate names: exact rule | as C29, with names that start with RZ |
| C60 | Which error is shown: exact rule | as C34, with the scores of the table walk |
| C61 | Options: exact rule | as C39, with the exact line condition |
| C62 | .num_gprs is never accepted | case analysis of the option parser |
| C63 | Container size: exact rule | arithmetic on the padding |
| C64 | Operands can be read off the word: exact rule | as C49; the exceptions are listed and each is shown necessary |
| C65 | Forms can be read off the word: exact rule | as C50: static comparison of all pairs of forms |
| C66 | The lexical grammar | equivalence of the tokenizer with a relation on characters |
| C67 | What is printed about a rejected program | printf and the error paths modelled; a relation lists what may be said of a token; invariant carried through every operand, the options and the decode loop |
| C68 | printf arguments have the types of their conversions | refuted by a witness; the four wrong formats are the only ones |
| C69 | Collected errors are printed like immediate ones | arithmetic on the two snprintf calls; outputs contain no NUL |
| C70 | Range errors show the number that is out of range | refuted by a witness; exact modulo 2^32 |
| C71 | A diagnostic is one line | refuted by a witness; inversion of the relation of C67 |
| C72 | Exit status | case analysis of the outcomes of C67 |
| C73 | 'expected X' never points at an X | refuted by witnesses; the conditions of the sentences computed against the words they name |
| C74 | A guard changes only the guard field | general lemma: replacing an instruction of a sentence (C52) replaces its words; no operand looks at or writes bits 16..19, for every form |
| C75 | Annotations change only their control record | same lemma; operands end before the first annotation |
| C76 | The order of annotations is irrelevant | same lemma with the record of a permutation |
| C77 | A jump target is its address | same lemma; tokens of the operands of jumps |
| C78 | No form of the table is dead | a sample instruction for every entry, run through the parser of every earlier entry by computation; lifted by the equivalence of parser and specification |
| C79 | Every modifier can be written | same for every word of every operand; the swizzle R from the lexical grammar (C66) |
| C80 | Counters do not overflow | induction over the text |
| C81 | What a successful run leaves on the disk | case analysis of the command line over an arbitrary device |
| C82 | Only a successful run touches the output file, on any device | same |
| C83 | Inputs without a size | same; agreement with the command line of C45 |
| C84 | printf argument types: exact rule | as C68, with a program for each case |
| C85 | Range errors: exact rule | as C70 |
| C86 | Only the addresses of labels matter | induction over the sentence of the specification (C52); no operand but a jump target looks at labels |
| C87 | Depth of the tokenizer's recursion | induction over the labels in front of the token |
| C88 | The test driver stays inside the result | the text ends in ';', so at least one instruction is written |
| C89 | What a passing test says | case analysis; digits read and printed as in C66 |
| C90 | Diagnostics of several lines: exact rule | as C71 |
| C91 | Sentences that ask for what is there: exact rule | as C73, with a program for each exception |
| C92 | Builds with and without asserts agree | the footprints of every form of the table that these rules leave are disjoint (whole table by computation); the ';' counted are the ';' read |
| C93 | What is written behind a program leaves its instructions as they are | the reading of an accepted text is unique; tokens of the first part are the first tokens of the whole |
| C94 | The beginning of a program is a program | a sentence split behind a ';' gives two sentences; labels agree unless cut off |
| C95 | An error does not depend on what follows its statement | a simulation of the tokenizer and the parser by a text that goes on with another ';'-tail, with equal diagnostics; positions only grow |
| C96 | Which tokens can be written | a canonical spelling of every token; floats are multiples of 2^-149 and written out exactly; induction over lists |
| C97 | The words of accepted programs | induction over the sentences of the grammar of C52; the vocabulary is read off the table |
| C98 | Tidied programs have the same file | induction over tokens and gaps; the labels with the number of ';' in front of them are kept; then C86 |
| C99 | The table of the model is the table in the source | a reader for the C++ of the two files, run on their text by computation |
| C100 | Labels can always be replaced by addresses | statement by statement; numbers only stand where jumps had labels, so the rules of C37 and C92 are kept |
| C101 | Every operand does what its C++ text says | symbolic execution of an interpreter for C++ text, use by use; the uses are put back into the lines of the table by computation |
| C102 | Predicates and annotations do what the C++ text says | symbolic execution of the body of the loop, induction on its rounds |
| C103 | The tokenizer does what the C++ text says | symbolic execution of each part, induction on the text |
| C104 | Labels are found as the C++ text says | symbolic execution of the lambdas, induction on the text |

## Trusted base

* The kernel of Coq 8.16.1 (and the VM for `vm_compute`).
* The axioms printed by `Print Assumptions`: see the list at the end.
* The transcription of the C++ code into Gallina, which the golden tests
  exercise but cannot prove.  The instruction table and the operands are not
  part of it: C99 compares the table with the text of `operand.h` and `table.h`,
  and C101 runs the functions of `operand.h` and the error functions of
  `helper.cpp` from their text.  C102 does the same for `assemble_predicate` and
  `assemble_sched` of `parse.cpp`, with the bit-fields of `opcode.h`,
  and C103 and C104 for `tokenize` and `generate_labels` of `context.cpp`.  What remains there is that `SourceText.v`
  and `SourceContext.v` hold the lines of these files (`tools/embed.py /repo` and
  `tools/embed.py /repo context` print them again), that
  `Cxx.v` and `Exec.v` read and run C++ as the language says (both stop at
  anything they do not know; nothing is guessed), and the functions `Exec.v`
  takes from the model: `tokenize`, `add_bits`, `add_reuse`, `equal`, `find_in_table`,
  `find_label`, `max_bits`, `name`, `info`, `fp32_to_fp16` and the arithmetic of
  floating-point numbers.
* For C103 and C104: `Scan.v` and `ScanExec.v` read and run `context.cpp` as the language
  says.  `std::strtoll` and `std::strtof` are those of the model.  `char` is signed.
  Lines, columns and differences of pointers are unbounded.  The local variables
  of a call share one scope, the members of the union `data` are separate
  variables, and a `const char*` argument of a diagnostic stands for the
  characters up to the cursor.  Lambdas run in the scope of their caller.
  `labels.insert` is that of the model (an existing key is kept).
* libc: `strtof` and integer-to-float conversions are correctly rounded,
  `strtoll` behaves as C17 says in the C locale, `std::from_chars` as C++17 says.
* Bit-fields are allocated from the least significant bit and reading `raw`
  after writing `values` is accepted (as GCC, Clang and MSVC document).
* Little-endian target with 64-bit `size_t` and `long`, where `va_arg(ap, int)`
  of a 64-bit argument gives its low half (used by `strict = false` in `Diag.v`;
  `strict = true` asks for the exact types instead).
* `printf("%.*s", 0, nullptr)` prints nothing.
* Streams throw only if asked to; a failing `read`, `write` or destructor of a
  stream transfers a prefix and sets a flag nobody looks at (`Device.v`).

Not modelled: overflow of the `int` line and column counters and of `pc` (C80
gives the lengths below which there is none), exceptions from opening files,
memory exhaustion, the stack used by the recursive call in `tokenize` (C87 says
how many calls are nested), and `stg::size`, which no table entry uses.  Diagnostics are modelled as formats
with arguments (`message`) and printed by `Diag.v`.  `parse_instruction` saves
and restores the context around every attempt; the model passes it by value.

## Axioms

`Print Assumptions` says "Closed under the global context" for every theorem
named in `MANIFEST.json`: none of them rests on an axiom, neither ours nor the
library's.  `coqchk` lists seven entries of `Coq.ssr.ssrunder` for the
whole development (`Over_rel`, `Under_rel_from_rel`, `over_rel`,
`over_rel_done`, `Under_rel`, `Under_relE`, `under_rel_done`).  They belong to a
module type of the standard library that is loaded with its tactics; no proof
uses them.
