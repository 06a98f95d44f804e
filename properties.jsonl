{"id": "C01", "title": "Assembling always ends with one well-defined kind of outcome", "statement": "For every source text, in debug and release builds, assemble() stops: it returns a word vector, exits with a diagnostic, trips an assert, or hits one of the enumerated undefined behaviours. No input makes it loop or recurse forever, and no recoverable parse error is ever silently dropped or returned to the caller as success.", "quantifier": "every byte string given as source, both build modes", "why_tests_cant": "Non-termination and lost errors can only be excluded by an argument about every possible text, including nested label definitions, option chains and scheduling chains of any length.", "anchors": ["src/nxas.cpp: assemble", "src/context.cpp: context::tokenize, context::generate_labels", "src/parse.cpp: parse_instruction, assemble_sched", "src/options.cpp: context::parse_option"]}
{"id": "C02", "title": "Output layout: one control word per three instructions, padded with NOPs", "statement": "When assemble() succeeds on a program of n instructions without a container header, the output has exactly 4*ceil(n/3) words; word 4k is the scheduling control word of group k, and words 4k+1..4k+3 are instructions 3k..3k+2 in source order, missing ones being the NOP word 0x50B0000000070F00.", "quantifier": "every source text that assembles, of any length", "why_tests_cant": "Tests look at the first instruction of one-instruction programs; the layout must hold for every program length and every residue mod 3.", "anchors": ["src/nxas.cpp: assemble, generate_sched", "src/write.cpp: context::binary"]}
{"id": "C03", "title": "Scheduling control words decode to the annotations of the right instruction", "statement": "In every control word, bits 21j..21j+20 hold the scheduling record of the j-th instruction of the group (stall 4 bits, yield 1, write barrier 3, read barrier 3, wait mask 6, reuse 4 bits), 0x7E0 (no barriers) when that instruction does not exist, and bit 63 is zero. No record leaks into a neighbour.", "quantifier": "every list of decoded instructions whose records are in range, every group, every slot", "why_tests_cant": "Cross-talk between slots depends on the combination of three arbitrary records; no test in the suite inspects a control word at all.", "anchors": ["src/nxas.cpp: generate_sched, assemble", "src/opcode.h: struct opcode", "src/parse.cpp: assemble_sched"]}
{"id": "C04", "title": "The decode buffer is never overrun", "statement": "assemble() sizes its instruction buffer by counting ';' characters. For every source text, in debug and release builds, the decode loop never writes past that buffer.", "quantifier": "every byte string given as source, both build modes, every loop iteration", "why_tests_cant": "A memory-safety claim about all inputs, including texts whose ';' are swallowed by malformed identifiers; a fuzzer can only sample.", "anchors": ["src/nxas.cpp: assemble (opcodes, max_decode_instructions)"]}
{"id": "C05", "title": "In a debug build, success means every ';' ends exactly one instruction", "statement": "If assemble() succeeds with asserts enabled, the number of instructions equals the number of ';' in the text and when the k-th instruction starts being parsed exactly k ';' lie before it.", "quantifier": "every source text that assembles with asserts on, every instruction index", "why_tests_cant": "It couples the tokenizer with a raw character count over arbitrary texts; label addresses depend on it.", "anchors": ["src/nxas.cpp: assemble (assert(index == max_decode_instructions))", "src/parse.cpp: parse_instruction"]}
{"id": "C06", "title": "A label denotes the byte offset of the instruction that follows it", "statement": "If assemble() succeeds with asserts enabled on a text without NUL characters, then the address of every label equals the byte offset, inside the emitted code, of the first instruction whose terminating ';' comes after the label (or of the position the next instruction would take at the end of the program), control words included.", "quantifier": "every source text that assembles with asserts on, every label in it", "why_tests_cant": "Addresses depend on the number of preceding instructions modulo three for unboundedly long programs; the suite has only a label on the first instruction.", "anchors": ["src/context.cpp: context::generate_labels", "src/nxas.cpp: assemble"]}
{"id": "C07", "title": "Branches encode the exact distance to their target", "statement": "A label operand writes target - (address of the branch + 8) as a 24-bit two's complement number in bits 20..43; decoding the field and adding the branch address plus 8 gives back the target address. Distances outside [-2^23, 2^23-1] are rejected with a diagnostic, never truncated.", "quantifier": "every target address, every branch address, every instruction with a label operand", "why_tests_cant": "The suite checks one backward branch of distance -8; sign handling and range ends must hold for every pair of positions.", "anchors": ["src/operand.h: label", "src/context.cpp: context::find_label"]}
{"id": "C08", "title": "Duplicate labels: the first definition wins, and labels exist only at line starts", "statement": "The address bound to a name is that of its first definition at the start of a line; later definitions of the same name never change it, and a branch to a name with no such definition is rejected.", "quantifier": "every source text, every label name", "why_tests_cant": "Depends on the whole history of definitions in an arbitrary text.", "anchors": ["src/context.cpp: context::generate_labels, context::find_label", "src/operand.h: label"]}
{"id": "C09", "title": "Debug and release builds agree whenever the debug build does not abort", "statement": "If the build with asserts returns a word vector or exits with a diagnostic on a text, the NDEBUG build produces exactly the same result on that text.", "quantifier": "every source text", "why_tests_cant": "Two builds compared on all inputs; asserts guard bit overlaps deep inside 265 instruction forms.", "anchors": ["src/opcode.h: opcode::add_bits, opcode::add_reuse", "src/nxas.cpp: assemble"]}
{"id": "C10", "title": "Instruction words contain the form's opcode and nothing outside its operand fields", "statement": "Every instruction word emitted is the opcode pattern of a table form with the same mnemonic, plus the guard predicate in bits 16..19, plus bits inside the union of that form's operand fields: no operand can set a stray bit.", "quantifier": "every instruction accepted, all 265 table forms, all operand values", "why_tests_cant": "The operand value space is astronomically large (registers, immediates, modifiers); golden tests sample about four words per form.", "anchors": ["src/table.h: table", "src/operand.h", "src/parse.cpp: parse_insn"]}
{"id": "C11", "title": "Operand fields of one form do not overlap (except a known list)", "statement": "For every table form outside an explicit exception list, the fields of different operands, the opcode pattern and the guard field are pairwise disjoint, so the overlap assertion in the encoder can never fire for it, in any program; every form in the exception list has a concrete program that trips it.", "quantifier": "all table forms, all operand values and modifier combinations", "why_tests_cant": "An overlap shows only for particular modifier combinations (e.g. .PO together with a negated source); enumerating combinations is infeasible.", "anchors": ["src/table.h: table", "src/opcode.h: opcode::add_bits", "src/operand.h: po, image::ba, uimm_extended"]}
{"id": "C12", "title": "Guard predicates are encoded in bits 16..19 and default to always", "statement": "An instruction guarded by @Pn or @!Pn (n in 0..6 or T) carries n in bits 16..18 and the negation in bit 19; an unguarded instruction carries 7 in bits 16..19. The guard changes no other bit of the word.", "quantifier": "every guard, every instruction form and operands", "why_tests_cant": "All pairs of guard and instruction form with arbitrary operands.", "anchors": ["src/parse.cpp: assemble_predicate, parse_instruction"]}
{"id": "C13", "title": "Instructions that cannot be predicated reject predicates", "statement": "PBK, SSY, CAL and PCNT are accepted only when the guard index is 7; any @P0..@P6 or @!P0..@!P6 guard is a diagnostic. (@!PT, i.e. never execute, is let through.)", "quantifier": "every guard predicate, every operand list", "why_tests_cant": "Ranges over all guards and continuations of the text.", "anchors": ["src/parse.cpp: parse_insn", "src/table.h: NO_PRED"]}
{"id": "C14", "title": "20-bit signed immediates are exact two's complement or rejected", "statement": "The immediate operand of integer instructions accepts exactly the integers in [-2^19, 2^19-1]; the 19 low bits go to bits 20..38 and the sign to bit 56, and reading these 20 bits back as two's complement gives the literal. Everything else is a diagnostic.", "quantifier": "every integer literal, every form with this operand", "why_tests_cant": "2^20 accepted values and an unbounded set of rejected ones.", "anchors": ["src/helper.cpp: assemble_signed_20bit_immediate, convert_integer"]}
{"id": "C15", "title": "Fixed-width integer operands are range-checked and recoverable", "statement": "For every n-bit unsigned (or signed) integer operand at bit a, exactly the integers in [0, 2^n-1] (or [-2^(n-1), 2^(n-1)-1]) are accepted and bits a..a+n-1 of the added bits read back as that integer; others are rejected, never truncated.", "quantifier": "every width and position used in the table, every integer literal", "why_tests_cant": "Parametric in width and value.", "anchors": ["src/operand.h: assemble_uint, assemble_int, uinteger, sinteger, uimm32, simm32, uimm16, mask4"]}
{"id": "C16", "title": "IADD3 immediates stay inside their 20-bit field", "statement": "The unsigned immediate of IADD3 is meant to be a 20-bit number split over bits 20..38 and 56. Every accepted literal must be recoverable from those bits.", "quantifier": "every integer literal", "why_tests_cant": "Only one value out of 2^20+1 violates it (0x100000), which random testing will not hit.", "anchors": ["src/operand.h: uimm_extended"]}
{"id": "C17", "title": "Constant buffer operands encode bank and aligned offset exactly", "statement": "c[b][o] is accepted iff 0 <= b <= 31, -2^15 <= o < 2^15 and 4 divides o; bits 34..38 then hold b and bits 20..33 hold (o mod 2^16)/4, from which (b, o) is recovered.", "quantifier": "every bank and offset literal", "why_tests_cant": "Two unbounded integer parameters.", "anchors": ["src/helper.cpp: assemble_constant_buffer"]}
{"id": "C18", "title": "Memory operands encode base register and offset", "statement": "[Rn+o] puts n in bits 8..15 (RZ when omitted) and o as an s-bit field at the operand's address; o ranges over the signed s-bit integers, or over the unsigned s-bit integers when the base is RZ. The pair is recoverable from the field whenever the operand applies no scaling; scaled operands (ATOMS) drop the low bits of unaligned offsets.", "quantifier": "every base register, offset literal and memory operand instance", "why_tests_cant": "Parametric in size, address, shift; unbounded literals.", "anchors": ["src/operand.h: memory::address, ldc::address", "src/table.h: ATOM, ATOMS, RED, STG, LDG, LDC"]}
{"id": "C19", "title": "Floating-point literals are correctly rounded to binary32", "statement": "For every literal [+-]digits.digits, the 32-bit float immediate written by the assembler is the IEEE-754 binary32 nearest to the exact decimal value, ties to even, overflowing to infinity at 2^128 - 2^103.", "quantifier": "every decimal literal of any length", "why_tests_cant": "Infinitely many literals; rounding ties need adversarial digits. (Relies on strtof being correctly rounded, which is part of the model of libc.)", "anchors": ["src/context.cpp: context::tokenize", "src/helper.cpp: assemble_float_immediate (bits == 32)"]}
{"id": "C20", "title": "20-bit float immediates are the truncation of the binary32 value", "statement": "FADD-style immediates store sign in bit 56 and the top 19 magnitude bits in bits 20..38 of the binary32 value: the encoded number is the binary32 value rounded toward zero to 11 fraction bits, also for QNAN and INF; the low 12 bits are dropped silently.", "quantifier": "every float token, all 2^32 bit patterns", "why_tests_cant": "2^32 patterns.", "anchors": ["src/helper.cpp: assemble_float_immediate (bits == 20)"]}
{"id": "C21", "title": "Double immediates keep sign and top 19 bits", "statement": "DADD-style immediates store the sign in bit 56 and bits 44..62 of the binary64 value in bits 20..38, for every literal except that a negative zero literal loses its sign.", "quantifier": "every literal, including integers converted to double", "why_tests_cant": "2^64 integers and all float literals.", "anchors": ["src/helper.cpp: assemble_double_immediate"]}
{"id": "C22", "title": "Half-precision conversion rounds to nearest even for every float", "statement": "fp32_to_fp16 maps every one of the 2^32 binary32 patterns to the nearest binary16 value (ties to even), infinities and overflow (|x| >= 65520) to infinity, NaN to NaN, preserving the sign, including subnormals and the carry from the largest subnormal and the largest finite half.", "quantifier": "all 2^32 bit patterns", "why_tests_cant": "Proved by argument over all patterns rather than exhaustive execution; ties and subnormal boundaries are adversarial.", "anchors": ["src/fp16.h: fp32_to_fp16"]}
{"id": "C23", "title": "Half immediates place sign and magnitude correctly", "statement": "16-bit half immediates store the binary16 pattern at bits 20 or 36; 9-bit ones store bits 6..14 of the pattern at bit 20 or 30 and the sign in the operand's sign bit, for every literal except that negative zeros lose their sign in the 9-bit form.", "quantifier": "every literal, every half immediate operand", "why_tests_cant": "All float and integer literals.", "anchors": ["src/helper.cpp: assemble_half_float_immediate", "src/operand.h: fimm9_low, fimm9_high, fimm16_low, fimm16_high"]}
{"id": "C24", "title": "Half literals are rounded only once", "statement": "A decimal literal used as a half immediate is the binary16 nearest to its exact decimal value.", "quantifier": "every decimal literal", "why_tests_cant": "The assembler rounds decimal->binary32->binary16; only crafted literals near a tie expose the double rounding.", "anchors": ["src/helper.cpp: assemble_half_float_immediate", "src/fp16.h"]}
{"id": "C25", "title": "Scheduling annotations are validated and packed losslessly", "statement": "@WAIT n (0..15), @WB n, @RB n (0..5), @DEP n (0..5, any set), @Y/@YIELD may come in any order after the operands; each at most once (each barrier index once for @DEP). The packed record decodes to exactly the given values, barriers default to 7, stall to 0. Any out-of-range or repeated annotation rejects the instruction.", "quantifier": "every finite sequence of annotations", "why_tests_cant": "Unbounded sequences in any order.", "anchors": ["src/parse.cpp: assemble_sched", "src/opcode.h: struct opcode"]}
{"id": "C26", "title": "Register reuse flags reach the control word slot of their operand", "statement": ".reuse is accepted only on registers in the operand positions 8, 20 and 39 and sets reuse bit 0, 1, 2 respectively of that instruction's scheduling record and no bit of the instruction word; anywhere else it is rejected.", "quantifier": "every register operand in every form", "why_tests_cant": "All forms and operand combinations.", "anchors": ["src/helper.cpp: try_reuse, assemble_gpr", "src/operand.h: memory::address", "src/nxas.cpp: generate_sched"]}
{"id": "C27", "title": "Register fields hold the register number", "statement": "Rn (0 <= n <= 254) and RZ as a register operand at address a put n (255 for RZ) in bits a..a+7, for every form in the table; R255 and larger indices, and anything else, are rejected.", "quantifier": "every register token and register operand", "why_tests_cant": "Every form times 256 registers times the other operands.", "anchors": ["src/helper.cpp: assemble_gpr", "src/context.cpp: context::tokenize"]}
{"id": "C28", "title": "Integer literals denote their mathematical value", "statement": "A decimal literal, a 0x/0X hexadecimal literal or an octal literal (leading 0), optionally signed and followed by a separator, becomes the integer it denotes if that fits in 64 bits signed, and the nearest end of the 64-bit range otherwise; a literal with trailing garbage is a diagnostic, never a shorter literal.", "quantifier": "every literal of any length in every context", "why_tests_cant": "Unbounded digit strings.", "anchors": ["src/context.cpp: context::tokenize (immediate branch)"]}
{"id": "C29", "title": "Register and predicate names are lexed exactly", "statement": "The text R<n> followed by a separator is register n for n in 0..254 and a diagnostic for larger n; RZ is register 255; P0..P6, PT, and their !-forms are predicates with that index; P7..P9 are diagnostics. Longer identifiers that merely start like a register or predicate (R2P, P2R, PSET) are identifiers.", "quantifier": "every digit string and following text", "why_tests_cant": "Unbounded digit strings and continuations.", "anchors": ["src/context.cpp: context::tokenize (predicate and register branches)"]}
{"id": "C30", "title": "White space between tokens never matters", "statement": "Inserting or removing blanks, tabs, carriage returns or newlines before a token changes neither the token read nor anything read after it, except reported line and column.", "quantifier": "every text, every amount of white space", "why_tests_cant": "Unbounded insertions at any position.", "anchors": ["src/context.cpp: context::tokenize"]}
{"id": "C31", "title": "Encoding is insensitive to the position of an instruction in the text", "statement": "If two texts yield the same sequence of tokens (positions aside), parsing one instruction from either gives the same word, reuse flags, scheduling record and the same kind of failure.", "quantifier": "every pair of texts with equal token sequences, every table form", "why_tests_cant": "A relational property over pairs of unbounded inputs.", "anchors": ["src/parse.cpp: parse_insn, parse_instruction", "src/context.cpp: context::tokenize"]}
{"id": "C32", "title": "Label definitions are invisible to the instruction stream", "statement": "A label definition (an identifier ending in ':') before a token, or any number of them, leaves the tokens read unchanged.", "quantifier": "every text, any number of label definitions", "why_tests_cant": "Unbounded nesting of skipped definitions.", "anchors": ["src/context.cpp: context::tokenize (recursion on ':')"]}
{"id": "C33", "title": "Form selection is first match, and failed attempts leave no trace", "statement": "The word emitted for an instruction is the one produced by the first table form with that mnemonic which accepts the rest of the instruction, parsed as if it were the only form; forms that were tried before and failed influence neither the word nor the reuse flags nor the scheduling record nor the position where parsing continues.", "quantifier": "every instruction text, every number of earlier failing forms", "why_tests_cant": "Requires reasoning about state restoration across all failing prefixes.", "anchors": ["src/parse.cpp: parse_instruction, parse_insn"]}
{"id": "C34", "title": "The diagnostic shown is that of the attempt that got furthest", "statement": "When no form accepts an instruction, the reported error is the one of a form whose number of successfully parsed operands is maximal among all forms with that mnemonic (the first such form); an unknown mnemonic is reported at the mnemonic itself.", "quantifier": "every rejected instruction", "why_tests_cant": "Quantifies over all forms and rejected texts.", "anchors": ["src/parse.cpp: parse_instruction, parse_insn"]}
{"id": "C35", "title": "Diagnostics point at a real place in the source", "statement": "Whenever a diagnostic carries a position, its line is the number of newlines before some position of the text and its column is that of the same position (tabs counting four): the position is that of a token start.", "quantifier": "every source text that is rejected", "why_tests_cant": "All rejected texts.", "anchors": ["src/error.cpp: fail, fatal_error", "src/context.cpp: context::next, context::tokenize"]}
{"id": "C36", "title": "Characters are consumed strictly left to right", "statement": "Every token read, other than the end of input, consumes at least one character, and the text left over is always a suffix of the text before; the end of input consumes only white space and label definitions.", "quantifier": "every cursor position in every text", "why_tests_cant": "Progress and suffix invariants over all texts.", "anchors": ["src/context.cpp: context::tokenize, context::next"]}
{"id": "C37", "title": "Well-formed sources never trigger undefined behaviour", "statement": "On texts meeting an explicit syntactic condition (ending in a newline or a separator, no bare P, no INT64_MIN branch targets, none of the sentinel-less tables missed, no wrong-typed option arguments), assemble() never performs an operation with undefined behaviour. Each clause is necessary: dropping it admits a concrete source that does.", "quantifier": "every source text meeting the condition, both build modes", "why_tests_cant": "Undefined behaviour is invisible to tests unless it happens to crash.", "anchors": ["src/context.cpp", "src/helper.cpp: find_in_table", "src/operand.h: ldg::size, tex_type, s2r, label", "src/options.cpp", "src/dksh.cpp"]}
{"id": "C38", "title": "Assembling is compositional", "statement": "If two programs without labels and options assemble, their concatenation assembles, and its instruction sequence is the concatenation of theirs: no instruction's word depends on its neighbours.", "quantifier": "every pair of label-free, option-free programs, of any length", "why_tests_cant": "Relational over pairs of unbounded programs.", "anchors": ["src/nxas.cpp: assemble", "src/parse.cpp: parse_instruction"]}
{"id": "C39", "title": "Program options are applied once and in order", "statement": "The program type can be set at most once (by .type or .dksh); .shared_memory, .local_memory and .workgroup_size keep the last value given, reduced to 32 bits; each option must be alone on its line; unknown options are ignored; options after the last instruction are an error.", "quantifier": "every sequence of options", "why_tests_cant": "Unbounded option sequences.", "anchors": ["src/options.cpp: context::parse_option", "src/parse.cpp: parse_instruction"]}
{"id": "C40", "title": "The .num_gprs option sets the register count", "statement": "A program with '.num_gprs n' gets n in the register-count field of its container header.", "quantifier": "every n", "why_tests_cant": "It is false for every n: the type check is inverted; no test uses the option.", "anchors": ["src/options.cpp: context::parse_option (.num_gprs)"]}
{"id": "C41", "title": "Container header layout", "statement": "For a compute program with .dksh the output starts with 256 bytes: magic, sizes, program record with type 5, entry point = address of label main minus 8, 8 registers, scratch = 32*align16(local)+0x800, workgroup dimensions, align256(shared), align16(local), in the documented little-endian positions; the code follows unchanged and is padded with zeros.", "quantifier": "every accepted compute program and option values", "why_tests_cant": "All option values, code lengths and entry points.", "anchors": ["src/dksh.cpp: context::write_dksh", "src/write.cpp: context::binary"]}
{"id": "C42", "title": "Container size agrees with its header", "statement": "The output length in bytes of a .dksh program equals control_sz + code_sz as stated in the header.", "quantifier": "every accepted .dksh program", "why_tests_cant": "Fails exactly when the code length is a multiple of 32 words, i.e. for programs of 24k-2..24k instructions.", "anchors": ["src/write.cpp: context::binary (resize)", "src/dksh.cpp: header.code_sz"]}
{"id": "C43", "title": "Entry point must start an instruction group", "statement": "A .dksh program is accepted only if it defines the label main at line start with an address that is 8 modulo 32, i.e. on the first instruction of a group; otherwise it is a diagnostic.", "quantifier": "every .dksh program", "why_tests_cant": "All label placements in programs of any length.", "anchors": ["src/dksh.cpp: context::write_dksh"]}
{"id": "C44", "title": "Graphics programs are always rejected", "statement": "A program declared vertex, tessellation, geometry or fragment never produces output.", "quantifier": "every source text declaring such a type", "why_tests_cant": "All texts.", "anchors": ["src/write.cpp: context::binary, context::write_gfx_header"]}
{"id": "C45", "title": "The command line writes output only on success", "statement": "The nxas command modifies the file system only if the arguments name exactly one input and one output and the input assembles; then exactly the output file changes and its contents are the little-endian bytes of the assembled words. In every failing run no file changes.", "quantifier": "every argument vector, every file system, every input file", "why_tests_cant": "Crash/failure points anywhere in the pipeline.", "anchors": ["src/command_line.cpp: main, read_file"]}
{"id": "C46", "title": "Command-line arguments are order independent", "statement": "-o <file> and the input file may come in either order; a second input, a second -o, a dangling -o or a missing input/output is rejected.", "quantifier": "every argument vector", "why_tests_cant": "Unbounded argument vectors.", "anchors": ["src/command_line.cpp: main"]}
{"id": "C47", "title": "Mirrored operands must equal the destination", "statement": "FFMA32I and HFMA2_32I accept their accumulator operand only if it names the destination register, and it adds no bits to the word.", "quantifier": "every pair of registers, all other operands", "why_tests_cant": "256x256 register pairs times all other operands.", "anchors": ["src/operand.h: mirror_dgpr", "src/table.h: FFMA32I, HFMA2_32I"]}
{"id": "C48", "title": "TEXS and TLDS mode tables", "statement": "For every combination of lod mode, .DC/.AOFFI/.MS and texture type, TEXS and TLDS either reject it or write the documented target code in bits 53..56 with no residue of the temporary payload; accepted combinations of TEXS get pairwise different codes.", "quantifier": "all combinations of modifiers and types, all other operands", "why_tests_cant": "The payload is stored temporarily inside the instruction word next to arbitrary other operands.", "anchors": ["src/operand.h: texs_mode, texs_type, tlds_type, texs_swizzle"]}
{"id": "C49", "title": "Different accepted operand values give different words", "statement": "Within one form, two instructions that differ in a register, predicate, integer or modifier operand have different words, so no information in the source is lost (float literals and scaled offsets excepted).", "quantifier": "all forms, all pairs of operand values", "why_tests_cant": "Pairs of unbounded operand lists.", "anchors": ["src/operand.h", "src/table.h"]}
{"id": "C50", "title": "No two forms share an encoding", "statement": "Two instructions assembled from different table forms that mean different things have different words.", "quantifier": "all pairs of forms and operands", "why_tests_cant": "ICMP with a constant buffer as second source violates it: swapping two operands gives the same word.", "anchors": ["src/table.h: ICMP"]}
{"id": "C51", "title": "Nothing after an embedded NUL is assembled", "statement": "If the text contains a NUL character where a token could start, the instructions emitted are those of the text before it.", "quantifier": "every text with embedded NUL bytes", "why_tests_cant": "All texts; relevant to callers passing std::string.", "anchors": ["src/nxas.cpp: assemble", "src/context.cpp"]}
{"id": "C52", "title": "The accepted language and its meaning", "statement": "A text without undefined behaviour is accepted exactly if it is a program: its tokens are options, each on a line of its own, and instructions, each spelling a form of its mnemonic with an optional guard, operands and scheduling annotations; labels denote the instruction after them; a container needs a main label at the start of a group. The words written are then exactly the file that program stands for. Every other text ends with a diagnostic, and no program has two meanings.", "quantifier": "every text without NUL bytes, undefined behaviour excluded, up to 2^57 characters; both build modes for soundness", "why_tests_cant": "It is the equality of two infinite relations: accepted texts with their output, and the grammar. Tests can only sample accepted texts and cannot show that nothing else is accepted.", "anchors": ["src/nxas.cpp: assemble", "src/parse.cpp", "src/context.cpp", "src/options.cpp", "src/operand.h", "src/table.h", "src/write.cpp", "src/dksh.cpp"]}
{"id": "C53", "title": "Line breaks only matter to options", "statement": "Two texts with the same tokens, the same labels in front of the same instructions, and the same tokens on the lines of their options are both accepted, with the same words, or both rejected with a diagnostic. (C31 with the line breaks it forgets.)", "quantifier": "all pairs of NUL-free texts without undefined behaviour up to 2^57 characters", "why_tests_cant": "All pairs of texts, instructions and layouts.", "anchors": ["src/context.cpp: tokenize", "src/options.cpp", "src/parse.cpp: parse_instruction"]}
{"id": "C54", "title": "Programs can be linked by concatenation", "statement": "If a program that ends at a line end fills whole groups of three instructions, a second program with other labels and symbolic jump targets can follow it in the same text: the output is the output of the first followed by that of the second. (C38 with its exceptions; labels and jumps allowed.)", "quantifier": "all pairs of texts without options, the concatenation free of undefined behaviour", "why_tests_cant": "All pairs of programs; needs relocation of every label and form.", "anchors": ["src/context.cpp: generate_labels", "src/nxas.cpp: assemble", "src/operand.h: label", "src/write.cpp"]}
{"id": "C55", "title": "IADD3 immediates: exact rule", "statement": "Exactly the literals 0..2^20 are accepted. Each one below 2^20 is recoverable from bits 20..38 and 56; 2^20 itself ends in the lowest bit of the register behind it. (C16 corrected.)", "quantifier": "every program and 64-bit literal", "why_tests_cant": "All literals and all surrounding operands.", "anchors": ["src/operand.h: uimm_extended"]}
{"id": "C56", "title": "Half literals: exact rule", "statement": "A literal used as half immediate is rounded to binary32 and then to binary16. The result is the binary16 nearest to the literal whenever the binary32 is exact or is not a middle of two binary16 numbers; integers up to 2^24 are exact. (C24 corrected.)", "quantifier": "every literal and every form with a half immediate", "why_tests_cant": "All decimal literals.", "anchors": ["src/operand.h: half immediates", "src/fp16.h"]}
{"id": "C57", "title": "Register and predicate fields: exact rule", "statement": "Register operands put their number in their field in every form; the register behind the immediate of IADD3 does so unless that is 2^20, when its lowest bit is set as well. Predicates do so with their sign, inverted predicates as 7 minus the index. Everything else is rejected. (C27 corrected.)", "quantifier": "every assembled instruction of every program", "why_tests_cant": "All instructions and neighbours.", "anchors": ["src/operand.h: gpr, pred", "src/table.h"]}
{"id": "C58", "title": "Integer literals: exact rule", "statement": "A literal is read as its value, saturated to 64 bits, iff what follows it is a separator other than '+', '-' and '.'; otherwise it is read as a decimal fraction or the text is rejected. Every integer token comes from such a literal. (C28 corrected.)", "quantifier": "every text", "why_tests_cant": "All digit strings and continuations.", "anchors": ["src/context.cpp: number tokens"]}
{"id": "C59", "title": "Register and predicate names: exact rule", "statement": "Rn, RZ, Pn, PT and their negations are read as C29 says; other names that start like them are identifiers, except that a name that starts with RZ is rejected. (C29 corrected.)", "quantifier": "every text", "why_tests_cant": "All names and continuations.", "anchors": ["src/context.cpp: register and predicate tokens"]}
{"id": "C60", "title": "Which error is shown: exact rule", "statement": "When no form of a mnemonic is accepted, the error shown is that of the first form with the highest score, where a form scores 0 if it refuses the guard, 1 plus the number of operands read if one of them fails, and 1001 plus that number if only annotations or ';' fail; a diagnostic of the tokenizer ends the search. If no form reads all of its operands this is the form that read most. Unknown mnemonics are reported at themselves. (C34 corrected.)", "quantifier": "every instruction text and every table", "why_tests_cant": "All texts and failures of all forms.", "anchors": ["src/parse.cpp: parse_instruction"]}
{"id": "C61", "title": "Options: exact rule", "statement": "The options in front of an instruction are those the text spells; the type is set at most once, the last value of the others wins, reduced to 32 bits; unknown options are ignored; only the token right behind an option has to be on a line other than that of its name; options behind the last instruction are an error. (C39 corrected.)", "quantifier": "every program", "why_tests_cant": "All sequences of options.", "anchors": ["src/options.cpp: parse_option", "src/parse.cpp"]}
{"id": "C62", "title": ".num_gprs is never accepted", "statement": "No text with the option .num_gprs is accepted, and the register count of a container is always 8. (C40 corrected.)", "quantifier": "every program", "why_tests_cant": "All programs.", "anchors": ["src/options.cpp", "src/dksh.cpp"]}
{"id": "C63", "title": "Container size: exact rule", "statement": "The file is control_sz + code_sz bytes long iff the code does not fill a multiple of 32 words (code below 4 GiB); otherwise it is 256 bytes longer. (C42 corrected.)", "quantifier": "every .dksh program", "why_tests_cant": "All code sizes.", "anchors": ["src/dksh.cpp"]}
{"id": "C64", "title": "Operands can be read off the word: exact rule", "statement": "Two instructions of one form with the same word have the same guard and the same operands, unless one of them has a token from an explicit list of ambiguous modifiers, each of which really is ambiguous; with equal reuse flags, .reuse agrees as well. (C49 corrected.)", "quantifier": "all pairs of assembled instructions of one form", "why_tests_cant": "All pairs of instructions.", "anchors": ["src/table.h", "src/operand.h"]}
{"id": "C65", "title": "Forms can be read off the word: exact rule", "statement": "Instructions with the same word have the same mnemonic and guard, and they are of one form, or of two forms of a family and say the same operands, or of the two ICMP forms with a constant buffer. (C50 corrected.)", "quantifier": "all pairs of assembled instructions", "why_tests_cant": "All pairs of instructions of all forms.", "anchors": ["src/table.h"]}
{"id": "C66", "title": "The lexical grammar", "statement": "The next token at any place of any text is the one a declarative grammar of tokens gives, with its line and column, behind blanks and label definitions; a diagnostic appears exactly at the texts the grammar calls malformed, and points at them; the tokenizer reads past the end exactly for a lone P at the end of the text.", "quantifier": "every text and position", "why_tests_cant": "All texts.", "anchors": ["src/context.cpp: tokenize"]}
{"id": "C67", "title": "What is printed about a rejected program", "statement": "A run that is rejected prints one of a fixed list of sentences about the command line or the program, or the file name, line and column of a token (or of a text that is no token), and a sentence that is true of it: quoted words, descriptions and numbers are those of the token, labels and mnemonics called unknown are unknown. Every run has one of seven outcomes, each described.", "quantifier": "every command line, every set of files below 2^31 bytes, every program", "why_tests_cant": "All programs and all of the hundreds of places that report an error.", "anchors": ["src/error.cpp", "src/error.h", "src/helper.cpp", "src/operand.h", "src/parse.cpp", "src/options.cpp", "src/context.cpp", "src/command_line.cpp"]}
{"id": "C68", "title": "printf arguments have the types of their conversions", "statement": "Every diagnostic is printed with arguments of the types the C standard asks for.", "quantifier": "every rejected program below 2^31 bytes", "why_tests_cant": "Wrong types work by accident on the platform the tests run on.", "anchors": ["src/error.cpp", "src/error.h", "src/helper.cpp: convert_integer", "src/operand.h: label", "src/parse.cpp: parse_instruction"]}
{"id": "C69", "title": "Collected errors are printed like immediate ones", "statement": "The buffer in which an error of an attempt is kept is never overrun and never cut short, and printing it later gives the bytes that reporting it at once would have given.", "quantifier": "every message, file name and place whose text is below 2^31 bytes", "why_tests_cant": "All messages and lengths; an off-by-one of the buffer shows only under a sanitizer.", "anchors": ["src/error.cpp", "src/error.h"]}
{"id": "C70", "title": "Range errors show the number that is out of range", "statement": "The integer an out-of-range message shows is that of the literal in the source.", "quantifier": "every rejected program below 2^31 bytes", "why_tests_cant": "All 64-bit literals.", "anchors": ["src/helper.cpp: convert_integer"]}
{"id": "C71", "title": "A diagnostic is one line", "statement": "The message of a diagnostic contains no line break.", "quantifier": "every rejected program below 2^31 bytes", "why_tests_cant": "All words a message may quote.", "anchors": ["src/error.cpp", "src/error.h", "src/context.cpp: tokenize"]}
{"id": "C72", "title": "Exit status", "statement": "The tool exits with 0 exactly when it prints nothing and has written the output file; otherwise it exits with 1, has printed an error and has changed no file.", "quantifier": "every command line and every set of files below 2^31 bytes", "why_tests_cant": "All runs.", "anchors": ["src/command_line.cpp", "src/error.cpp"]}
{"id": "C73", "title": "'expected X' never points at an X", "statement": "A message that names the tokens it expects does not point at one of these tokens.", "quantifier": "every rejected program below 2^31 bytes", "why_tests_cant": "All programs and all messages.", "anchors": ["src/operand.h", "src/table.h", "src/options.cpp"]}
{"id": "C74", "title": "A guard changes only the guard field", "statement": "If an accepted program is changed in the guard of one instruction (added, removed or replaced; not to a condition on an instruction that must always execute), it is still accepted, and the file differs in bits 16..19 of the word of that instruction, which hold the new guard, and in nothing else.", "quantifier": "every accepted program, every instruction of it, every guard", "why_tests_cant": "All programs, positions and forms; in particular that no guard makes another form of the mnemonic match.", "anchors": ["src/parse.cpp: parse_instruction, parse_sched", "src/nxas.cpp: assemble, generate_sched"]}
{"id": "C75", "title": "Annotations change only their control record", "statement": "If an accepted program is changed in the annotations of one instruction, to valid ones, it is still accepted, and the file differs in the record of that instruction in its control word, and in nothing else.", "quantifier": "every accepted program, every instruction of it, all valid annotations", "why_tests_cant": "All programs, positions and sets of annotations.", "anchors": ["src/parse.cpp: parse_instruction, parse_sched", "src/nxas.cpp: assemble, generate_sched"]}
{"id": "C76", "title": "The order of annotations is irrelevant", "statement": "Annotations of an instruction can be written in any order: the program is still accepted and the file is the same.", "quantifier": "every accepted program, every instruction of it, every order", "why_tests_cant": "All programs and orders.", "anchors": ["src/parse.cpp: parse_instruction, parse_sched", "src/nxas.cpp: assemble, generate_sched"]}
{"id": "C77", "title": "A jump target is its address", "statement": "In a jump of an accepted program a label, its address and any other label of the same address can be exchanged: the program is still accepted and the file is the same.", "quantifier": "every accepted program, every jump of it, every label", "why_tests_cant": "All programs, labels and jumps.", "anchors": ["src/operand.h: label", "src/context.cpp: find_label", "src/parse.cpp: generate_labels"]}
{"id": "C78", "title": "No form of the table is dead", "statement": "For every entry of the instruction table there is a program of one instruction that is read as this entry, which no earlier entry of the same mnemonic fits, and both builds assemble it to the word the entry stands for.", "quantifier": "every entry of the table, against all earlier entries", "why_tests_cant": "The tests name mnemonics, not entries; an entry hidden by an earlier one is never noticed.", "anchors": ["src/table.h", "src/parse.cpp: parse_instruction"]}
{"id": "C79", "title": "Every modifier can be written", "statement": "For every operand of every entry and every word it knows (flags, names of its tables, special names) there is a program of one instruction that is read as this entry, uses the word in this operand and is assembled. The only exception is the texture swizzle R, which is never read as a word.", "quantifier": "every entry, operand and word (3366 combinations)", "why_tests_cant": "Needs an instruction for every combination, and that no other entry takes it.", "anchors": ["src/table.h", "src/operand.h", "src/helper.cpp: find_in_table", "src/context.cpp: tokenize"]}
{"id": "C80", "title": "Counters do not overflow", "statement": "In texts below 2^29 characters the line and column of every place and token fit an int with one to spare; in texts below 2^58 characters addresses of labels and instructions fit 64 bits. The first bound is sharp: 2^29 tabs overflow the column.", "quantifier": "every text and place", "why_tests_cant": "Needs texts of half a gigabyte.", "anchors": ["src/context.h", "src/context.cpp: next, generate_labels", "src/error.cpp"]}
{"id": "C81", "title": "What a successful run leaves on the disk", "statement": "Whatever the device does, a run that ends with status 0 leaves the leading bytes of the assembled words in the output file, as many as could be written; the file is complete exactly when there was room. A full disk is not noticed. Short reads are padded with blanks.", "quantifier": "every command line, input device and amount of room", "why_tests_cant": "All devices, sizes and failures.", "anchors": ["src/command_line.cpp"]}
{"id": "C82", "title": "Only a successful run touches the output file, on any device", "statement": "The output file is opened exactly when the run ends with status 0; every rejection is for the command line, the program or an output that cannot be opened, so the message of the handler for write errors is never shown.", "quantifier": "every command line and device", "why_tests_cant": "All devices and failures.", "anchors": ["src/command_line.cpp"]}
{"id": "C83", "title": "Inputs without a size", "statement": "An input that opens but does not tell its size, or tells one beyond the longest string, ends the tool by an uncaught exception before any output is opened; on plain files and with enough room the tool does what C45 says.", "quantifier": "every command line and device", "why_tests_cant": "All devices; pipes and directories are not tested.", "anchors": ["src/command_line.cpp: read_file"]}
{"id": "C84", "title": "printf argument types: exact rule", "statement": "A diagnostic is printed with arguments of the wrong types exactly when it is about an integer out of range, an undefined label, an unexpected test or an unknown mnemonic; each of these occurs; where the types are right the bytes are the same on every platform.", "quantifier": "every rejected program below 2^31 bytes", "why_tests_cant": "Wrong types work by accident on the platform the tests run on.", "anchors": ["src/error.cpp", "src/helper.cpp: convert_integer", "src/operand.h: label", "src/parse.cpp: parse_instruction"]}
{"id": "C85", "title": "Range errors: exact rule", "statement": "An out-of-range message shows the low 32 bits of the literal as a signed number, which is the literal exactly when it fits 32 bits.", "quantifier": "every rejected program below 2^31 bytes", "why_tests_cant": "All 64-bit literals.", "anchors": ["src/helper.cpp: convert_integer"]}
{"id": "C86", "title": "Only the addresses of labels matter", "statement": "If a text has the tokens of an accepted program, except that jumps may name their targets differently (another label or a number for the same address), with the same layout of options, and every other word that is a label stays in front of the same instruction, then it is accepted and gives the same file. So labels can be renamed, dropped when no jump uses them, and replaced by numbers.", "quantifier": "every pair of such programs", "why_tests_cant": "All programs and all choices of names.", "anchors": ["src/context.cpp: generate_labels, tokenize", "src/operand.h: label", "src/nxas.cpp"]}
{"id": "C87", "title": "Depth of the tokenizer's recursion", "statement": "Reading the token (or the end, or the rejected text) behind n label definitions takes exactly n+1 nested calls of the tokenizer. Every gap between tokens consists of white space and some number of labels, and no depth is enough for all texts.", "quantifier": "every text and position", "why_tests_cant": "The depth depends on the input; a test only finds the stack of its machine large enough.", "anchors": ["src/context.cpp:217-219"]}
{"id": "C88", "title": "The test driver stays inside the result", "statement": "For any arguments, the test driver has undefined behaviour only where assembling the expression has; in particular result[1] exists whenever it is read.", "quantifier": "every argument vector", "why_tests_cant": "All expressions, including empty ones and ones with options.", "anchors": ["tests/tester.cpp"]}
{"id": "C89", "title": "What a passing test says", "statement": "The test driver exits with 0, given an expected opcode, exactly when the expression assembles and its second word is the number written behind 0x in the expectation. If the number differs it exits with 1 and names both words in upper-case hex; otherwise the expectation was malformed. Text behind the digits of the expectation is ignored.", "quantifier": "every argument vector", "why_tests_cant": "The driver is what the tests trust.", "anchors": ["tests/tester.cpp"]}
{"id": "C90", "title": "Diagnostics of several lines: exact rule", "statement": "A diagnostic about a place of the program contains a line break exactly when it is the message for a stray '!' or when it quotes the name made of a lone P and the line break behind it.", "quantifier": "every rejected program", "why_tests_cant": "All programs and diagnostics.", "anchors": ["src/context.cpp: tokenize", "src/error.cpp"]}
{"id": "C91", "title": "Sentences that ask for what is there: exact rule", "statement": "Of the sentences that name the words or kinds of tokens they expect, exactly the five of the lists of exceptions are ever printed about a token they name; each is, for some program.", "quantifier": "every sentence that names what it expects, over all programs", "why_tests_cant": "Needs all programs for the sentences that are right.", "anchors": ["src/operand.h", "src/options.cpp"]}
{"id": "C92", "title": "Builds with and without asserts agree", "statement": "On every text that keeps seven rules about its characters and tokens (no negation behind .PO, no largest immediate in IADD3, no .BA behind SUST.D, no upper byte in a video operand, no nameless comparison in VSETP, no lone P directly in front of a ';', no NUL) no assert fails, so a debug and a release build do the same. Every rule is needed: for each there is a text that keeps the others, aborts in a debug build and is accepted by a release build. With the rules of C37 both builds accept exactly the programs of the language and report an error for every other text.", "quantifier": "every text and both builds", "why_tests_cant": "Covers every form of the table with every operand; a test compares single programs.", "anchors": ["src/opcode.h: add_bits", "src/nxas.cpp: assert(index == max_decode_instructions)", "src/table.h", "src/operand.h"]}
{"id": "C93", "title": "What is written behind a program leaves its instructions as they are", "statement": "If a text that ends with a line break is accepted, and is accepted again with more text behind it, then the settings and instructions of the first are the first settings and instructions of the second, with the same operands and jump targets: all full groups of the code are unchanged, and so is the word of every instruction. An accepted text has a single meaning.", "quantifier": "every accepted text and every text written behind it, in both builds", "why_tests_cant": "A test appends a few lines to a few programs; labels, options and group boundaries interact over the whole text.", "anchors": ["src/parse.cpp: generate_labels, parse_instruction", "src/nxas.cpp: assembling loop", "src/context.cpp: find_label, add_label"]}
{"id": "C94", "title": "The beginning of a program is a program", "statement": "If a text without options is accepted, then its first statements, up to any line end behind a ';', are a program with the same instructions, provided they use no label that only the rest defines. Without the condition on labels this is false.", "quantifier": "every accepted text without options and every cut behind a ';'", "why_tests_cant": "Every cut of every program would have to be assembled.", "anchors": ["src/parse.cpp: generate_labels, parse_instruction", "src/nxas.cpp: assembling loop"]}
{"id": "C95", "title": "An error does not depend on what follows its statement", "statement": "If a text is rejected with an error at a place in front of a ';', then it is rejected with the same error, in the same words and at the same place, whatever is written behind that ';', as long as the same labels are defined. Not so if the ';' is swallowed by a lone 'P' in front of it, or if labels change.", "quantifier": "every rejected text, every ';' behind the error and every continuation, in both builds", "why_tests_cant": "The continuations are unbounded; the tokenizer, libc's number parsing and the table walk all look ahead.", "anchors": ["src/context.cpp: tokenize, next", "src/parse.cpp: parse_instruction", "src/nxas.cpp: assembling loop"]}
{"id": "C96", "title": "Which tokens can be written", "statement": "The tokenizer only yields registers up to 255, predicates up to 7, 64-bit integers, binary32 numbers that are no NaN, operators and names that do not end with a colon. Each of these has a spelling that is read back as that token, and every list of them is the list of tokens of some text.", "quantifier": "every token and every list of tokens", "why_tests_cant": "There are 2^64 integers, 2^32 floats and unboundedly many names and lists.", "anchors": ["src/context.cpp: tokenize", "src/token.h: token"]}
{"id": "C97", "title": "The words of accepted programs", "statement": "Every name in an accepted program is a mnemonic, modifier, operand name, annotation or option of the language, or a label defined in the program, or a word starting with '.' that is no known option and is ignored.", "quantifier": "every accepted text and every name read from it, in both builds", "why_tests_cant": "It speaks about all accepted texts; a test can only try some unknown words at some places.", "anchors": ["src/parse.cpp: parse_instruction", "src/options.cpp: parse_option", "src/table.h", "src/context.cpp: find_label"]}
{"id": "C98", "title": "Tidied programs have the same file", "statement": "Spelling every token in one way, with one blank in front, and keeping of the rest only the ends of lines and the labels at their beginnings, gives a program with the same file. Every readable text has exactly one tidied form and tidying it again changes nothing. Not so if a ';' is swallowed by a lone 'P' in front of it.", "quantifier": "every accepted text that contains no 'P;' and obeys the safety rules, in both builds", "why_tests_cant": "It quantifies over all accepted programs and all ways to space and spell them.", "anchors": ["src/context.cpp: tokenize, generate_labels", "src/nxas.cpp: assembling loop"]}
{"id": "C99", "title": "The table of the model is the table in the source", "statement": "Reading the text of operand.h and table.h gives exactly the instruction table used by all other theorems: the same entries in the same order, with the same opcodes, flags, mnemonics and operands, where the names, addresses, defaults and word lists of the operands are read from their definitions. The one body that is not read, stg::size, is named by no entry.", "quantifier": "all 265 INSN lines and all 168 definitions of operands", "why_tests_cant": "Tests exercise some operands of some entries; a wrong word in a table of operand.h, or a wrong address in a seldom used form, would go unnoticed.", "anchors": ["src/table.h", "src/operand.h"]}
{"id": "C100", "title": "Labels can always be replaced by addresses", "statement": "For every accepted program there is a program with the same file that has one statement per line, every token spelled in one way, and no labels: each line is an option or an instruction that is valid when no label is defined. Only a container keeps its label main. If the program keeps the rules of C92 the new one is accepted by both builds.", "quantifier": "all accepted texts without NUL of at most 2^49 characters that keep the rules of C37 (containers: also no lone P in front of a ';')", "why_tests_cant": "Whether the numbers put in for labels change the reading of anything else depends on all forms of the table and all positions of labels; tests compare a few programs.", "anchors": ["src/context.cpp:260", "src/operand.h", "src/options.cpp"]}
{"id": "C101", "title": "Every operand does what its C++ text says", "statement": "The functions of operand.h and the error functions of helper.cpp, read from the text of these files and run by an interpreter of C++ (integer types with their widths and conversions, signed overflow and inactive union members undefined), do for every operand of every line of table.h exactly what the model of that operand does: the same word, reuse flags, tokens consumed, diagnostic with its arguments, failed assertion or undefined behaviour. So does the loop over the operands of an instruction.", "quantifier": "all 265 lines of the table, all 2572 operands written in them, all tokens and continuations of the text, all opcode words below 2^64, all labels and program counters, both builds", "why_tests_cant": "There are 290 different uses of about 170 functions with unbounded integer and text arguments; a difference between function and model in one branch would need a test that reaches this branch.", "anchors": ["src/operand.h", "src/helper.cpp", "src/table.h", "src/parse.cpp:106"]}
{"id": "C102", "title": "Predicates and annotations do what the C++ text says", "statement": "assemble_predicate and assemble_sched, read from the text of parse.cpp and run by the interpreter of C++ with the bit-fields in the order and widths the text of opcode.h declares, do what the model does: the same word, scheduling bits, tokens consumed, and diagnostic with its arguments. A line of table.h whose operands and annotations are all run from their text has the same result as in the model, for each of the 265 lines.", "quantifier": "all tokens and continuations of the text, any number of annotations in any order, all shifts below 64, all integers for is_negable, both builds", "why_tests_cant": "The loop over annotations is unbounded and its variables depend on all earlier rounds; a test runs finitely many sequences.", "anchors": ["src/parse.cpp:17", "src/parse.cpp:31", "src/parse.cpp:106", "src/opcode.h:28"]}
{"id": "C103", "title": "The tokenizer does what the C++ text says", "statement": "context::tokenize, read from the text of context.cpp together with the functions it calls (next, is_contained, is_operator, is_separator, is_decimal, is_alnum, is_alpha, get_operator_type) and run by an interpreter of C++, ends for every text with the token, its position and the new cursor of the model, or with the diagnostic of the model, its position and its arguments. The program counter and the labels stay as they are. Every read is inside the text and its terminating NUL unless the model says that it is not.", "quantifier": "all texts, positions in them, characters behind the cursor, label tables and program counters, both builds", "why_tests_cant": "The loops and the recursion over label definitions are unbounded, and the classes of characters meet in more ways than any set of texts shows.", "anchors": ["src/context.cpp:16", "src/context.cpp:46", "src/context.cpp:80", "src/context.cpp:235"]}
{"id": "C104", "title": "Labels are found as the C++ text says", "statement": "context::generate_labels with its lambdas advance and next_line, and context::reset, read from the text of context.cpp and run by the interpreter of C++, give for every text the labels and addresses of the model, put the cursor back to the start of the text and the address back to 0, and read behind the terminating NUL exactly when the model says so.", "quantifier": "all texts, all values of pc before the call, both builds", "why_tests_cant": "The search is three nested unbounded loops whose address and column depend on every character in front; a test runs finitely many texts.", "anchors": ["src/context.cpp:252", "src/context.cpp:260", "src/context.cpp:281"]}
