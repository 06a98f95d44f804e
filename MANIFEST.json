{
 "claims": [
  {
   "property": "C01",
   "status": "proved",
   "theorems": [
    "c01_outcomes",
    "c01_program",
    "c01_program_unique"
   ],
   "note": "All texts, both build modes. The enumerated undefined behaviours are the four of the statement."
  },
  {
   "property": "C02",
   "status": "proved",
   "theorems": [
    "c02_layout"
   ],
   "note": "All texts that assemble without .dksh, both build modes."
  },
  {
   "property": "C03",
   "status": "proved",
   "theorems": [
    "c03_control"
   ],
   "note": "All decoded programs, all groups and slots."
  },
  {
   "property": "C04",
   "status": "proved",
   "theorems": [
    "c04_no_overrun"
   ],
   "note": "All texts, both build modes."
  },
  {
   "property": "C05",
   "status": "proved",
   "theorems": [
    "c05_semicolons"
   ],
   "note": ""
  },
  {
   "property": "C06",
   "status": "proved",
   "theorems": [
    "c06_labels"
   ],
   "note": "Texts without NUL characters. A label in the middle of an instruction gets the address of that instruction."
  },
  {
   "property": "C07",
   "status": "proved",
   "theorems": [
    "c07_distance",
    "c07_rejects",
    "c07_overflow_refuted"
   ],
   "note": "Every branch of every program. Rejection is proved for targets within 2^62 of zero; a literal at the end of the 64-bit range overflows the subtraction instead (undefined behaviour, c07_overflow_refuted)."
  },
  {
   "property": "C08",
   "status": "proved",
   "theorems": [
    "c08_first",
    "c08_undefined"
   ],
   "note": "Texts without NUL characters."
  },
  {
   "property": "C09",
   "status": "proved",
   "theorems": [
    "c09_modes"
   ],
   "note": "All texts."
  },
  {
   "property": "C10",
   "status": "proved",
   "theorems": [
    "every_instruction",
    "c10_shape"
   ],
   "note": ""
  },
  {
   "property": "C100",
   "status": "proved",
   "theorems": [
    "c100_sheet"
   ],
   "note": "The program without labels is built from the sentence of C52: operands that name labels become numbers, which only the five jumps have; the rules of C37 and C92 are shown to hold for it too."
  },
  {
   "property": "C101",
   "status": "proved",
   "theorems": [
    "c101_operands"
   ],
   "note": "The interpreter is Exec.v, the reader Cxx.v; each of the 290 uses is proved for all states by symbolic execution of both sides (Runs1 to Runs6) and put back into the lines of the table by computation. Hypotheses: the token is one the tokenizer can give, the word has 64 bits; both are kept by all operands, which gives the part about whole instructions."
  },
  {
   "property": "C102",
   "status": "proved",
   "theorems": [
    "c102_parse_text"
   ],
   "note": "The body of the loop is run symbolically with an arbitrary continuation, and the loop by induction on the rounds of the model; its variables stay in the range of their bit-fields. Fuel: any amount of at least 100 steps and the length of the remaining text."
  },
  {
   "property": "C103",
   "status": "proved",
   "theorems": [
    "c103_tokenizer_text"
   ],
   "note": "Symbolic execution of each part of the function with an arbitrary continuation, loops by induction on the text, the recursive call by induction on its length. The bounds on loops and on nested calls are any numbers above the length of the remaining text."
  },
  {
   "property": "C104",
   "status": "proved",
   "theorems": [
    "c104_labels_text"
   ],
   "note": "Each lambda and each loop is run symbolically with an arbitrary continuation; the loops by induction on the remaining text. The bound on loops is any number above the length of the text, the depth of calls any number from 5."
  },
  {
   "property": "C11",
   "status": "proved",
   "theorems": [
    "c11_disjoint",
    "c11_silent",
    "c11_assert",
    "c11_listed"
   ],
   "note": "The exception list has sixteen forms; each has a program that trips the assert. The other assert of the decoder is the one of C05."
  },
  {
   "property": "C12",
   "status": "proved",
   "theorems": [
    "c10_shape",
    "c12_guard_alone",
    "c12_unguarded",
    "c12_guarded"
   ],
   "note": ""
  },
  {
   "property": "C13",
   "status": "proved",
   "theorems": [
    "c13_rejects",
    "c13_accepted"
   ],
   "note": ""
  },
  {
   "property": "C14",
   "status": "proved",
   "theorems": [
    "c14_field",
    "c14_rejects",
    "c14_accepts"
   ],
   "note": ""
  },
  {
   "property": "C15",
   "status": "proved",
   "theorems": [
    "c15_unsigned",
    "c15_widths",
    "c15_signed",
    "c15_unsigned_rejects",
    "c15_signed_rejects",
    "c15_unsigned_accepts",
    "c15_signed_accepts"
   ],
   "note": ""
  },
  {
   "property": "C16",
   "status": "partial",
   "theorems": [
    "c16_field_partial",
    "c16_rejects",
    "c16_refuted"
   ],
   "note": "False as stated: the literal 2^20 is accepted and sets bit 39. True for all smaller literals."
  },
  {
   "property": "C17",
   "status": "proved",
   "theorems": [
    "c17_field",
    "c17_accepts"
   ],
   "note": ""
  },
  {
   "property": "C18",
   "status": "proved",
   "theorems": [
    "c18_memory",
    "c18_ldc",
    "c18_attribute",
    "c18_patch",
    "c18_physical",
    "c18_unaligned"
   ],
   "note": ""
  },
  {
   "property": "C19",
   "status": "proved",
   "theorems": [
    "c19_token",
    "c19_immediate",
    "c19_overflow",
    "c19_unique"
   ],
   "note": "'Nearest' is stated on bit patterns by distance to all other patterns (SpecFloat.nearest), ties to even. strtof is modelled as correctly rounding; that the modelled algorithm is, is proved."
  },
  {
   "property": "C20",
   "status": "proved",
   "theorems": [
    "c20_truncated",
    "c20_full",
    "c20_literal"
   ],
   "note": "c20_literal ties the pattern to the exact value of the literal."
  },
  {
   "property": "C21",
   "status": "proved",
   "theorems": [
    "c21_double",
    "c21_literal"
   ],
   "note": "c21_literal: fractions go through binary32 and are widened exactly; integers are rounded to binary64 directly."
  },
  {
   "property": "C22",
   "status": "proved",
   "theorems": [
    "c22_rounding",
    "c22_nan",
    "c22_overflow"
   ],
   "note": "All 2^32 patterns, by arithmetic and not by enumeration."
  },
  {
   "property": "C23",
   "status": "proved",
   "theorems": [
    "c23_half",
    "c23_literal"
   ],
   "note": "c23_literal ties the pattern to the nearest binary16 of the binary32 of the literal."
  },
  {
   "property": "C24",
   "status": "partial",
   "theorems": [
    "c24_refuted",
    "c24_partial",
    "c24_exact",
    "c24_twice",
    "c24_small"
   ],
   "note": "False: literals are rounded to binary32 first (c24_refuted, a literal just above the middle of two binary16 numbers). True whenever the binary32 is exact or is not such a middle (c24_partial); integers up to 2^24 are exact (c24_small)."
  },
  {
   "property": "C25",
   "status": "proved",
   "theorems": [
    "c25_decodes",
    "c25_unique",
    "c25_order",
    "c25_form",
    "c25_instruction"
   ],
   "note": "The annotation list alone decides acceptance and the packed record, in any order, for every form of the table and for whole instructions."
  },
  {
   "property": "C26",
   "status": "proved",
   "theorems": [
    "c27_register_partial",
    "c27_iadd3",
    "c26_reuse_rejected",
    "c18_memory",
    "c18_ldc",
    "c18_patch",
    "c18_physical"
   ],
   "note": "That reuse flags are no bits of the word is c10_shape. c27_iadd3 covers the one register operand excepted in c27_register_partial."
  },
  {
   "property": "C27",
   "status": "partial",
   "theorems": [
    "c27_register_partial",
    "c27_iadd3",
    "c27_refuted",
    "c27_rejects",
    "c27_accepts",
    "c27_predicate",
    "c27_inverted",
    "c27_predicate_rejects"
   ],
   "note": "False for the register after the immediate of IADD3 when that is 2^20 (C16); proved for everything else. The lexing of register names is C29."
  },
  {
   "property": "C28",
   "status": "partial",
   "theorems": [
    "c28_value_partial",
    "c28_whole_partial",
    "c28_source",
    "c28_refuted"
   ],
   "note": "Values, saturation and rejection of trailing garbage are proved; refuted as stated because strtoll stops at a sign or other separator the lexer accepts as the end of a literal, so that \"5+3\" is read as two tokens."
  },
  {
   "property": "C29",
   "status": "partial",
   "theorems": [
    "c29_register_partial",
    "c29_zero_partial",
    "c29_predicate_partial",
    "c29_like_register_partial",
    "c29_like_predicate_partial",
    "c29_refuted"
   ],
   "note": "Proved for all register and predicate spellings; refuted for identifiers starting with RZ, which are diagnostics."
  },
  {
   "property": "C30",
   "status": "proved",
   "theorems": [
    "c30_before",
    "c30_between",
    "c30_replaced",
    "c30_program",
    "c30_label_lines"
   ],
   "note": "Blanks may be inserted, removed and replaced anywhere between tokens. The label pre-pass is the exception, shown by c30_label_lines: it looks for labels at line starts only."
  },
  {
   "property": "C31",
   "status": "partial",
   "theorems": [
    "c31_instruction_partial",
    "c31_program_partial",
    "c31_refuted"
   ],
   "note": "Proved for texts without options; refuted in general since an option ends at its line end, which is not a token."
  },
  {
   "property": "C32",
   "status": "proved",
   "theorems": [
    "c32_one",
    "c32_many"
   ],
   "note": ""
  },
  {
   "property": "C33",
   "status": "proved",
   "theorems": [
    "c33_first",
    "c33_program"
   ],
   "note": ""
  },
  {
   "property": "C34",
   "status": "partial",
   "theorems": [
    "c34_shown",
    "c34_scores",
    "c34_furthest_partial",
    "c34_unknown",
    "c34_refuted"
   ],
   "note": "c34_shown and c34_scores say exactly which error is shown; the claim is proved when no form reads all of its operands and refuted otherwise, because such a form gets a bonus and wins over forms that read more."
  },
  {
   "property": "C35",
   "status": "proved",
   "theorems": [
    "c35_where"
   ],
   "note": ""
  },
  {
   "property": "C36",
   "status": "proved",
   "theorems": [
    "c36_progress"
   ],
   "note": ""
  },
  {
   "property": "C37",
   "status": "proved",
   "theorems": [
    "c37_defined",
    "c37_needed"
   ],
   "note": "The syntactic condition is the list of eight rules in SpecSafe.v, stated on characters and tokens; besides it the text must hold no NUL (C51 covers those) and at most 2^57 characters, so that addresses fit a signed 64-bit integer. Each of the eight rules is shown necessary by a text that keeps the other seven."
  },
  {
   "property": "C38",
   "status": "partial",
   "theorems": [
    "c38_refuted",
    "c38_range_refuted",
    "c38_partial",
    "c38_words_partial"
   ],
   "note": "False as stated: a branch target written as a number is an absolute address, so the same instruction encodes a different offset at a different address (c38_refuted) and can leave the 24-bit range (c38_range_refuted). Proved for every pair where the second program has no labels and none of the five relative instructions BRA, PBK, SSY, CAL, PCNT."
  },
  {
   "property": "C39",
   "status": "partial",
   "theorems": [
    "c39_instruction",
    "c39_settle",
    "c39_program",
    "c39_unique",
    "c39_trailing",
    "c39_twice",
    "c39_refuted"
   ],
   "note": "Exact characterization of the options in front of every instruction and of the settings they leave (type at most once, last value wins, 32 bits, unknown ignored, trailing options fatal). 'Alone on its line' is false: only the line of the option name is compared with the token that follows (c39_refuted)."
  },
  {
   "property": "C40",
   "status": "partial",
   "theorems": [
    "c40_refuted",
    "c40_never",
    "c40_eight"
   ],
   "note": "False for every n: an option .num_gprs is never accepted (c40_never) and the count is always 8 (c40_eight)."
  },
  {
   "property": "C41",
   "status": "proved",
   "theorems": [
    "c41_layout"
   ],
   "note": "All 64 header fields of 32 bits, the code and the padding, for every accepted container."
  },
  {
   "property": "C42",
   "status": "partial",
   "theorems": [
    "c42_size_partial",
    "c42_refuted"
   ],
   "note": "Exact condition: the sizes agree iff the code does not fill whole groups of 32 words (and is below 4 GiB); otherwise the file is 256 bytes too long."
  },
  {
   "property": "C43",
   "status": "proved",
   "theorems": [
    "c43_entry"
   ],
   "note": "Exact: accepted iff the first label main is on an instruction whose number is a multiple of 3, given that the scratch size is computed without overflow."
  },
  {
   "property": "C44",
   "status": "proved",
   "theorems": [
    "c44_graphics"
   ],
   "note": "Always a diagnostic, except that a container whose scratch size overflows int is undefined behaviour before the check of the type."
  },
  {
   "property": "C45",
   "status": "proved",
   "theorems": [
    "c45_changes",
    "c45_succeeds",
    "c45_bounded"
   ],
   "note": "Runs with undefined behaviour (for example a missing input file) are modelled as stopping there, so nothing is written; for such runs the C++ program gives no guarantee. Errors of fwrite are not modelled."
  },
  {
   "property": "C46",
   "status": "proved",
   "theorems": [
    "c46_order",
    "c46_rejects",
    "c46_complete"
   ],
   "note": ""
  },
  {
   "property": "C47",
   "status": "proved",
   "theorems": [
    "c47_mirror"
   ],
   "note": ""
  },
  {
   "property": "C48",
   "status": "proved",
   "theorems": [
    "c48_texs",
    "c48_texs_distinct",
    "c48_tlds"
   ],
   "note": ""
  },
  {
   "property": "C49",
   "status": "partial",
   "theorems": [
    "c49_refuted",
    "c49_partial",
    "c49_unclear",
    "c49_unclear_tlds"
   ],
   "note": "False as stated (c49_refuted: IADD.PO R0, R1, R2 and IADD R0, -R1, -R2 have the same word). Proved for all forms, texts and operands without the tokens listed in unclear_tokens; c49_unclear shows that each listed token of each form does lose operands, c49_unclear_tlds the same for .LL with types 3D and ARRAY_2D of TLDS."
  },
  {
   "property": "C50",
   "status": "partial",
   "theorems": [
    "c50_refuted",
    "c50_partial"
   ],
   "note": "False as stated (c50_refuted: ICMP with a constant buffer). Proved for all pairs of forms and all operands: equal words imply the same mnemonic and guard, and the same form, or forms of one family that say the same operands, or the two ICMP forms."
  },
  {
   "property": "C51",
   "status": "proved",
   "theorems": [
    "c51_emitted",
    "c51_same",
    "c51_counted"
   ],
   "note": ""
  },
  {
   "property": "C52",
   "status": "proved",
   "theorems": [
    "c52_language",
    "c52_rejected",
    "c52_sound",
    "c52_debug"
   ],
   "note": "Release build: acceptance and words are equivalent to the grammar of SpecProgram.v (means), and a diagnostic is equivalent to having no meaning, for NUL-free texts of at most 2^57 characters that satisfy the purely textual condition tame of SpecSafe.v (C37). Soundness needs neither tame nor the bound and holds for both build modes. In the debug build a program may also stop at the count assertion (C05)."
  },
  {
   "property": "C53",
   "status": "proved",
   "theorems": [
    "c53_accepted",
    "c53_rejected"
   ],
   "note": "For NUL-free, tame (C37) texts of at most 2^57 characters, release build."
  },
  {
   "property": "C54",
   "status": "proved",
   "theorems": [
    "c54_link",
    "c54_parts"
   ],
   "note": "Hypotheses: the parts assemble in the debug build, have no options, the second has no numeric jump targets, no label is defined in both, and the joined text is tame (C37). c54_parts is the same without assembling: tokens, labels and instructions."
  },
  {
   "property": "C55",
   "status": "proved",
   "theorems": [
    "c55_field",
    "c16_rejects",
    "c27_iadd3"
   ],
   "note": "c27_iadd3 covers 2^20 and the register behind it."
  },
  {
   "property": "C56",
   "status": "proved",
   "theorems": [
    "c56_literal",
    "c24_exact",
    "c24_twice",
    "c24_small"
   ],
   "note": "c24_refuted shows that the exception cannot be dropped."
  },
  {
   "property": "C57",
   "status": "proved",
   "theorems": [
    "c57_register",
    "c27_iadd3",
    "c27_rejects",
    "c27_accepts",
    "c27_predicate",
    "c27_inverted",
    "c27_predicate_rejects"
   ],
   "note": ""
  },
  {
   "property": "C58",
   "status": "proved",
   "theorems": [
    "c58_value",
    "c58_whole",
    "c28_source"
   ],
   "note": ""
  },
  {
   "property": "C59",
   "status": "proved",
   "theorems": [
    "c59_register",
    "c59_zero",
    "c59_predicate",
    "c59_like_register",
    "c59_like_predicate",
    "c59_zero_longer"
   ],
   "note": ""
  },
  {
   "property": "C60",
   "status": "proved",
   "theorems": [
    "c34_shown",
    "c34_scores",
    "c60_furthest",
    "c34_unknown"
   ],
   "note": ""
  },
  {
   "property": "C61",
   "status": "proved",
   "theorems": [
    "c39_instruction",
    "c39_settle",
    "c39_program",
    "c39_unique",
    "c39_trailing",
    "c39_twice"
   ],
   "note": ""
  },
  {
   "property": "C62",
   "status": "proved",
   "theorems": [
    "c40_never",
    "c40_eight"
   ],
   "note": ""
  },
  {
   "property": "C63",
   "status": "proved",
   "theorems": [
    "c63_size"
   ],
   "note": ""
  },
  {
   "property": "C64",
   "status": "proved",
   "theorems": [
    "c64_operands",
    "c49_unclear",
    "c49_unclear_tlds"
   ],
   "note": ""
  },
  {
   "property": "C65",
   "status": "proved",
   "theorems": [
    "c65_forms",
    "c50_refuted"
   ],
   "note": "c50_refuted shows that the ICMP exception is needed."
  },
  {
   "property": "C66",
   "status": "proved",
   "theorems": [
    "c66_tokens",
    "c66_rejected",
    "c66_position",
    "c66_undefined"
   ],
   "note": ""
  },
  {
   "property": "C67",
   "status": "proved",
   "theorems": [
    "c67_runs",
    "c67_reported",
    "c67_unknown"
   ],
   "note": "printf is modelled for the conversions used (%s, %.*s, %d, %ld), with 64-bit varargs; the specification (SpecDiag.v) lists every sentence with the condition on its token."
  },
  {
   "property": "C68",
   "status": "partial",
   "theorems": [
    "c68_types_refuted",
    "c68_types_partial"
   ],
   "note": "False: exactly four messages are given a wider integer than they print (out-of-range integers, undefined labels, unexpected tests, unknown mnemonics). All others have the right types."
  },
  {
   "property": "C69",
   "status": "proved",
   "theorems": [
    "c69_same",
    "c69_buffer"
   ],
   "note": "Longer texts overflow the int length in the code (None in the model)."
  },
  {
   "property": "C70",
   "status": "partial",
   "theorems": [
    "c70_value_refuted",
    "c70_value_partial"
   ],
   "note": "False: the low 32 bits are shown (MOV32I R0, 4294967297 says that 1 is out of range). True for literals that fit 32 bits."
  },
  {
   "property": "C71",
   "status": "partial",
   "theorems": [
    "c71_line_refuted",
    "c71_line_partial"
   ],
   "note": "False for a wrong '!' and for a lone P with a line break behind it; these are the only cases."
  },
  {
   "property": "C72",
   "status": "proved",
   "theorems": [
    "c72_status"
   ],
   "note": ""
  },
  {
   "property": "C73",
   "status": "partial",
   "theorems": [
    "c73_words_refuted",
    "c73_kinds_refuted",
    "c73_words_partial",
    "c73_kinds_partial"
   ],
   "note": "False for five sentences (lists astray_words and astray_kinds, each with a program); proved for all others that name tokens."
  },
  {
   "property": "C74",
   "status": "proved",
   "theorems": [
    "c74_found",
    "c74_guard"
   ],
   "note": "For text without NUL, tame (SpecSafe.v, the conditions of C37 under which nothing undefined happens), at most 2^57 characters, in a build without assertions. c74_found says which tokens are an instruction."
  },
  {
   "property": "C75",
   "status": "proved",
   "theorems": [
    "c75_notes"
   ],
   "note": "For text without NUL, tame (SpecSafe.v, the conditions of C37 under which nothing undefined happens), at most 2^57 characters, in a build without assertions. "
  },
  {
   "property": "C76",
   "status": "proved",
   "theorems": [
    "c76_order"
   ],
   "note": "For text without NUL, tame (SpecSafe.v, the conditions of C37 under which nothing undefined happens), at most 2^57 characters, in a build without assertions. "
  },
  {
   "property": "C77",
   "status": "proved",
   "theorems": [
    "c77_target"
   ],
   "note": "For text without NUL, tame (SpecSafe.v, the conditions of C37 under which nothing undefined happens), at most 2^57 characters, in a build without assertions. Labels named CC or starting with '.' are left out: these words have a meaning in a jump."
  },
  {
   "property": "C78",
   "status": "proved",
   "theorems": [
    "c78_forms"
   ],
   "note": "All entries checked by computation, lifted to the specification of forms (SpecInsn.v)."
  },
  {
   "property": "C79",
   "status": "proved",
   "theorems": [
    "c79_words",
    "c79_R"
   ],
   "note": "All words of SpecWritable.v checked by computation, in a build without assertions, lifted to the specification of operands. Finding: the swizzle R of TEXS and TLDS is read as register 0. (SUST.D with .BA fails an assert in debug builds, see Clash.v.)"
  },
  {
   "property": "C80",
   "status": "proved",
   "theorems": [
    "c80_cursor",
    "c80_token",
    "c80_label",
    "c80_address",
    "c80_sharp"
   ],
   "note": "The model counts without bounds; these are the bounds under which this is faithful. Finding: 2^29 tabs overflow the column."
  },
  {
   "property": "C81",
   "status": "proved",
   "theorems": [
    "c81_success",
    "c81_complete",
    "c81_silent"
   ],
   "note": "Finding: a full disk goes unnoticed, status 0."
  },
  {
   "property": "C82",
   "status": "proved",
   "theorems": [
    "c82_touches",
    "c82_rejects"
   ],
   "note": ""
  },
  {
   "property": "C83",
   "status": "proved",
   "theorems": [
    "c83_sizeless",
    "c83_plain"
   ],
   "note": "Finding: reading from a pipe ends in std::terminate."
  },
  {
   "property": "C84",
   "status": "proved",
   "theorems": [
    "c84_types",
    "c84_each"
   ],
   "note": ""
  },
  {
   "property": "C85",
   "status": "proved",
   "theorems": [
    "c85_value"
   ],
   "note": ""
  },
  {
   "property": "C86",
   "status": "proved",
   "theorems": [
    "c86_renamed",
    "c86_back"
   ],
   "note": "The second text is assembled without assertions (C07 says when these can fail)."
  },
  {
   "property": "C87",
   "status": "proved",
   "theorems": [
    "c87_calls",
    "c87_gaps",
    "c87_unbounded"
   ],
   "note": "Finding: the tokenizer calls itself for every label, so a text of labels only uses stack in proportion to its length unless the compiler removes the tail call."
  },
  {
   "property": "C88",
   "status": "proved",
   "theorems": [
    "c88_inside"
   ],
   "note": ""
  },
  {
   "property": "C89",
   "status": "proved",
   "theorems": [
    "c89_passes",
    "c89_fails"
   ],
   "note": "Finding: a typing mistake behind the digits of an expected opcode goes unnoticed."
  },
  {
   "property": "C90",
   "status": "proved",
   "theorems": [
    "c90_lines"
   ],
   "note": ""
  },
  {
   "property": "C91",
   "status": "proved",
   "theorems": [
    "c91_words",
    "c91_kinds"
   ],
   "note": ""
  },
  {
   "property": "C92",
   "status": "proved",
   "theorems": [
    "c92_silent",
    "c92_agree",
    "c92_needed",
    "c92_language",
    "c92_total"
   ],
   "note": "The rules are sufficient, and none can be left out; a text that breaks one need not abort. Finding: 'VSETP..OR' puts the nameless comparison over the bit of the logic operation."
  },
  {
   "property": "C93",
   "status": "proved",
   "theorems": [
    "c93_appended",
    "c93_groups",
    "c93_words",
    "c93_only"
   ],
   "note": "Nothing is assumed about the text behind, except that the whole is accepted. The container's header does change (C93 says how through the settings)."
  },
  {
   "property": "C94",
   "status": "proved",
   "theorems": [
    "c94_cut",
    "c94_accepted",
    "c94_refuted"
   ],
   "note": "Stated with the condition on labels; c94_refuted shows that it is needed."
  },
  {
   "property": "C95",
   "status": "proved",
   "theorems": [
    "c95_local",
    "c95_plain",
    "c95_labels_refuted",
    "c95_open_refuted"
   ],
   "note": "Both conditions are stated and each is shown to be needed. Texts that make the program read past the end (a name as last line) are excluded."
  },
  {
   "property": "C96",
   "status": "proved",
   "theorems": [
    "c96_spelled",
    "c96_possible",
    "c96_streams"
   ],
   "note": "Floats are spelled out with 149 digits behind the point; 0x7F800000 is written as 2^128."
  },
  {
   "property": "C97",
   "status": "proved",
   "theorems": [
    "c97_words"
   ],
   "note": "The vocabulary is computed from the instruction table and the option names."
  },
  {
   "property": "C98",
   "status": "proved",
   "theorems": [
    "c98_same_file",
    "c98_debug",
    "c98_exists",
    "c98_unique",
    "c98_again",
    "c98_refuted"
   ],
   "note": "The condition on 'P;' is stated and shown to be needed. For the build with asserts the text must obey the rules of C92; tidying preserves them."
  },
  {
   "property": "C99",
   "status": "proved",
   "theorems": [
    "c99_table",
    "c99_lines",
    "c99_unread"
   ],
   "note": "The text of both files is part of the development (SourceText.v) and read by a small reader of C++ (Source.v). Idioms.v lists the bodies of functions and the operands of the model they stand for; that each operand does what its body says is the part that stays with the reader."
  }
 ]
}
