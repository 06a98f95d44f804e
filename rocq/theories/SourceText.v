(** * SourceText: the lines of /repo/src/operand.h, table.h, helper.cpp, parse.cpp and opcode.h, as they are.

    Generated by tools/embed.py; do not edit. *)
From Coq Require Import List String.
Import ListNotations.
Local Open Scope string_scope.
Local Open Scope list_scope.

(** /repo/src/operand.h:1-1828. *)
Definition operand_h : list string := [
  "#pragma once";
  "";
  "#include <climits>";
  "#include <cstdint>";
  "#include <optional>";
  "";
  "#include ""context.h""";
  "#include ""error.h""";
  "#include ""helper.h""";
  "#include ""opcode.h""";
  "#include ""token.h""";
  "";
  "#define DEFINE_OPERAND(name) inline error name(context& ctx, token& token, opcode& op)";
  "";
  "#define DEFINE_FLAG(name, string, address)                                                         \";
  "    DEFINE_OPERAND(name)                                                                           \";
  "    {                                                                                              \";
  "        return assemble_flag(ctx, op, token, string, address);                                     \";
  "    }";
  "";
  "#define DEFINE_UINT(name, max_size, address)                                                       \";
  "    DEFINE_OPERAND(name)                                                                           \";
  "    {                                                                                              \";
  "        return assemble_uint(ctx, op, token, max_size, address);                                   \";
  "    }";
  "";
  "#define DEFINE_INT(name, bits, address)                                                            \";
  "    DEFINE_OPERAND(name)                                                                           \";
  "    {                                                                                              \";
  "        return assemble_int(ctx, op, token, bits, address);                                        \";
  "    }";
  "";
  "#define DEFINE_DOT_TABLE(name, default_value, address, ...)                                        \";
  "    DEFINE_OPERAND(name)                                                                           \";
  "    {                                                                                              \";
  "        static const char* table[] = {__VA_ARGS__, nullptr};                                       \";
  "        const std::optional<uint64_t> result = find_in_table(token, table, ""."");                   \";
  "        if constexpr (default_value < 0) {                                                         \";
  "            if (!result) {                                                                         \";
  "                return fail(token, ""invalid identifier"");                                          \";
  "            }                                                                                      \";
  "        }                                                                                          \";
  "        if (result) {                                                                              \";
  "            token = ctx.tokenize();                                                                \";
  "        }                                                                                          \";
  "        op.add_bits(result.value_or(default_value) << address);                                    \";
  "        return {};                                                                                 \";
  "    }";
  "";
  "typedef error (*operand)(context&, token&, opcode&);";
  "";
  "inline error assemble_cc_tests(context& ctx, opcode& op, token& token, const char* const tests[],";
  "                               int address)";
  "{";
  "    std::optional<uint64_t> test_index;";
  "    if (equal(token, ""CC"")) {";
  "        token = ctx.tokenize();";
  "        CHECK(confirm_type(token, token_type::identifier));";
  "";
  "        test_index = find_in_table(token, tests, ""."");";
  "        if (!test_index) {";
  "            return fail(token, ""unexpected test %.*s"", std::size(token.data.string),";
  "                        std::data(token.data.string));";
  "        }";
  "        token = ctx.tokenize();";
  "    }";
  "    op.add_bits(test_index.value_or(15) << address);";
  "    return {};";
  "}";
  "";
  "inline error assemble_flag(context& ctx, opcode& op, token& token, const char* flag, int address)";
  "{";
  "    if (equal(token, flag)) {";
  "        op.add_bits(1ULL << address);";
  "        token = ctx.tokenize();";
  "    }";
  "    return {};";
  "}";
  "";
  "inline error assemble_uint(context& ctx, opcode& op, token& token, int64_t max_size, int address)";
  "{";
  "    uint64_t value;";
  "    CHECK(convert_integer(token, 0, max_size, &value));";
  "    op.add_bits(value << address);";
  "    token = ctx.tokenize();";
  "    return {};";
  "}";
  "";
  "DEFINE_OPERAND(uimm_extended)";
  "{";
  "    uint64_t value;";
  "    CHECK(convert_integer(token, 0, 1ULL << 20, &value));";
  "    if (value >= 0x80000) {";
  "        value -= 0x80000;";
  "        op.add_bits(1ULL << 56);";
  "    }";
  "    op.add_bits(value << 20);";
  "    token = ctx.tokenize();";
  "    return {};";
  "}";
  "";
  "inline error assemble_int(context& ctx, opcode& op, token& token, int bits, int address)";
  "{";
  "    const int raw_bits = bits - 1;";
  "    const int64_t min = -(1LL << raw_bits);";
  "    const int64_t max = (1LL << raw_bits) - 1;";
  "    uint64_t value;";
  "    CHECK(convert_integer(token, min, max, &value));";
  "    const uint64_t raw = value & ((1ULL << bits) - 1);";
  "    op.add_bits(raw << address);";
  "    token = ctx.tokenize();";
  "    return {};";
  "}";
  "";
  "DEFINE_OPERAND(comma)";
  "{";
  "    CHECK(confirm_type(token, token_type::comma));";
  "    token = ctx.tokenize();";
  "    return {};";
  "}";
  "";
  "DEFINE_OPERAND(label)";
  "{";
  "    int64_t absolute;";
  "";
  "    switch (token.type) {";
  "    case token_type::identifier: {";
  "        const std::optional label = ctx.find_label(token.data.string);";
  "        if (!label) {";
  "            return fail(token, ""label \33[1m%.*s\33[0m not defined"", std::size(token.data.string),";
  "                        std::data(token.data.string));";
  "        }";
  "        absolute = *label;";
  "        break;";
  "    }";
  "    case token_type::immediate:";
  "        absolute = token.data.immediate;";
  "        break;";
  "    default:";
  "        return fail(token, ""expected label"");";
  "    }";
  "";
  "    static constexpr int64_t max = max_bits(23);";
  "    static constexpr int64_t min = -static_cast<int64_t>(max_bits(23)) - 1;";
  "    const int64_t value = absolute - ctx.pc - 8;";
  "    if (value > max || value < min) {";
  "        return fail(token, ""label out of range"");";
  "    }";
  "    op.add_bits((static_cast<uint64_t>(value) & 0x7FFFFF) << 20);";
  "    op.add_bits((value < 0 ? 1ULL : 0ULL) << 43);";
  "";
  "    token = ctx.tokenize();";
  "    return {};";
  "}";
  "";
  "template <int address>";
  "DEFINE_OPERAND(dgpr)";
  "{";
  "    return assemble_dest_gpr(ctx, token, op, address);";
  "}";
  "";
  "template <int address>";
  "DEFINE_OPERAND(sgpr)";
  "{";
  "    return assemble_source_gpr(ctx, token, op, address);";
  "}";
  "";
  "template <int address>";
  "DEFINE_OPERAND(mirror_dgpr)";
  "{";
  "    // Hack mirror detecting by restoring the bits and then comparing";
  "    const uint64_t old_op_value = op.value;";
  "    op.value &= ~(uint64_t{0xff} << address);";
  "    if (auto err = dgpr<address>(ctx, token, op)) {";
  "        return err;";
  "    }";
  "    if (op.value != old_op_value) {";
  "        return fail(token, ""source register is not mirrored to destination register"");";
  "    }";
  "    return {};";
  "}";
  "";
  "DEFINE_OPERAND(cbuf)";
  "{";
  "    return assemble_constant_buffer(ctx, token, op);";
  "}";
  "";
  "DEFINE_OPERAND(imm)";
  "{";
  "    return assemble_signed_20bit_immediate(ctx, token, op);";
  "}";
  "";
  "DEFINE_OPERAND(fimm)";
  "{";
  "    return assemble_float_immediate(ctx, token, op, 20);";
  "}";
  "";
  "DEFINE_OPERAND(fimm32)";
  "{";
  "    return assemble_float_immediate(ctx, token, op, 32);";
  "}";
  "";
  "DEFINE_OPERAND(dimm20)";
  "{";
  "    return assemble_double_immediate(ctx, token, op);";
  "}";
  "";
  "template <int neg_bit>";
  "DEFINE_OPERAND(fimm9_low)";
  "{";
  "    return assemble_half_float_immediate(ctx, token, op, 9, 20, neg_bit);";
  "}";
  "";
  "template <int neg_bit>";
  "DEFINE_OPERAND(fimm9_high)";
  "{";
  "    return assemble_half_float_immediate(ctx, token, op, 9, 30, neg_bit);";
  "}";
  "";
  "DEFINE_OPERAND(fimm16_low)";
  "{";
  "    return assemble_half_float_immediate(ctx, token, op, 16, 20, -1);";
  "}";
  "";
  "DEFINE_OPERAND(fimm16_high)";
  "{";
  "    return assemble_half_float_immediate(ctx, token, op, 16, 36, -1);";
  "}";
  "";
  "DEFINE_UINT(uimm32, UINT32_MAX, 20);";
  "";
  "DEFINE_INT(simm32, 32, 20);";
  "";
  "DEFINE_UINT(uimm16, UINT16_MAX, 20);";
  "";
  "template <int address = 47>";
  "DEFINE_FLAG(cc, "".CC"", address);";
  "";
  "template <int bits, int address>";
  "DEFINE_UINT(uinteger, max_bits(bits), address);";
  "";
  "template <int bits, int address>";
  "DEFINE_INT(sinteger, bits, address);";
  "";
  "template <int address>";
  "DEFINE_UINT(mask4, 0xf, address);";
  "";
  "template <int address>";
  "DEFINE_FLAG(psl, "".PSL"", address);";
  "";
  "template <int address>";
  "DEFINE_FLAG(x, "".X"", address);";
  "";
  "template <int address>";
  "DEFINE_FLAG(mrg, "".MRG"", address);";
  "";
  "template <int address>";
  "DEFINE_DOT_TABLE(half, 0, address, ""H0"", ""H1"");";
  "";
  "template <int address>";
  "DEFINE_FLAG(brev, "".BREV"", address);";
  "";
  "template <int address>";
  "DEFINE_FLAG(ftz, "".FTZ"", address);";
  "";
  "template <int address>";
  "DEFINE_FLAG(sat, "".SAT"", address);";
  "";
  "template <int address>";
  "DEFINE_FLAG(bf, "".BF"", address);";
  "";
  "template <int address>";
  "DEFINE_FLAG(h_and, "".H_AND"", address);";
  "";
  "template <int address>";
  "DEFINE_FLAG(u, "".U"", address);";
  "";
  "template <int address>";
  "DEFINE_FLAG(lmt, "".LMT"", address);";
  "";
  "template <int address>";
  "DEFINE_FLAG(w, "".W"", address);";
  "";
  "template <int address>";
  "DEFINE_DOT_TABLE(int_sign, 1, address, ""S32"", ""U32"");";
  "";
  "template <int address>";
  "DEFINE_DOT_TABLE(float_format, 2, address, """", ""F16"", ""F32"", ""F64"");";
  "";
  "template <int address>";
  "DEFINE_DOT_TABLE(byte_selector, 0, address, ""B0"", ""B1"", ""B2"", ""B3"");";
  "";
  "template <int address>";
  "DEFINE_DOT_TABLE(fp_rounding, 0, address, ""RN"", ""RM"", ""RP"", ""RZ"");";
  "";
  "template <int address>";
  "DEFINE_OPERAND(bop)";
  "{";
  "    static const char* table[] = {""AND"", ""OR"", ""XOR"", ""INVALIDBOP3"", nullptr};";
  "    const std::optional<int64_t> value = find_in_table(token, table, ""."");";
  "    if (!value) {";
  "        return fail(token, ""expected .AND, .OR or .XOR"");";
  "    }";
  "    op.add_bits(*value << address);";
  "    token = ctx.tokenize();";
  "    return {};";
  "}";
  "";
  "template <int address, bool negable = false>";
  "DEFINE_OPERAND(pred)";
  "{";
  "    CHECK(confirm_type(token, token_type::predicate));";
  "    op.add_bits(static_cast<uint64_t>(token.data.predicate.index) << address);";
  "    if constexpr (negable) {";
  "        op.add_bits(static_cast<uint64_t>(token.data.predicate.negated) << (address + 3));";
  "    } else {";
  "        if (token.data.predicate.negated) {";
  "            return fail(token, ""predicate can't be negated"");";
  "        }";
  "    }";
  "    token = ctx.tokenize();";
  "    return {};";
  "}";
  "";
  "template <int address>";
  "DEFINE_OPERAND(inverted_pred)";
  "{";
  "    CHECK(confirm_type(token, token_type::predicate));";
  "    op.add_bits(static_cast<uint64_t>(7 - token.data.predicate.index) << address);";
  "    if (token.data.predicate.negated) {";
  "        return fail(token, ""predicate can't be negated"");";
  "    }";
  "    token = ctx.tokenize();";
  "    return {};";
  "}";
  "";
  "template <int address>";
  "DEFINE_OPERAND(neg)";
  "{";
  "    if (token.type == token_type::minus) {";
  "        op.add_bits(1ULL << address);";
  "        token = ctx.tokenize();";
  "    }";
  "    return {};";
  "}";
  "";
  "template <int address>";
  "DEFINE_OPERAND(tilde)";
  "{";
  "    if (token.type == token_type::tilde) {";
  "        op.add_bits(1ULL << address);";
  "        token = ctx.tokenize();";
  "    }";
  "    return {};";
  "}";
  "";
  "template <int address>";
  "DEFINE_FLAG(post_neg, "".NEG"", address);";
  "";
  "template <int address>";
  "DEFINE_FLAG(post_abs, "".ABS"", address);";
  "";
  "template <int address, operand inner>";
  "DEFINE_OPERAND(abs)";
  "{";
  "    const bool is_absolute = token.type == token_type::vbar;";
  "    if (is_absolute) {";
  "        op.add_bits(1ULL << address);";
  "        token = ctx.tokenize();";
  "    }";
  "";
  "    CHECK(inner(ctx, token, op));";
  "";
  "    if (is_absolute) {";
  "        CHECK(confirm_type(token, token_type::vbar));";
  "        token = ctx.tokenize();";
  "    }";
  "    return {};";
  "}";
  "";
  "template <int address1, int address2>";
  "DEFINE_OPERAND(po)";
  "{";
  "    if (!equal(token, "".PO"")) {";
  "        return {};";
  "    }";
  "    op.add_bits((1ULL << address1) | (1ULL << address2));";
  "    token = ctx.tokenize();";
  "    return {};";
  "}";
  "";
  "template <int address>";
  "DEFINE_FLAG(sh, "".SH"", address);";
  "";
  "template <int address>";
  "DEFINE_FLAG(inv, "".INV"", address);";
  "";
  "template <int address>";
  "DEFINE_OPERAND(default_rz)";
  "{";
  "    op.add_bits(0xFFULL << address);";
  "    return {};";
  "}";
  "";
  "namespace memory";
  "{";
  "    DEFINE_DOT_TABLE(size, 4, 48, ""U8"", ""S8"", ""U16"", ""S16"", ""32"", ""64"", ""128"");";
  "";
  "    template <bool imm_offset = true, int addr = 20, int size = 24, int shr = 0>";
  "    DEFINE_OPERAND(address)";
  "    {";
  "        CHECK(confirm_type(token, token_type::bracket_left));";
  "";
  "        token = ctx.tokenize();";
  "        uint8_t regster = ZERO_REGISTER;";
  "        if (token.type == token_type::regster) {";
  "            regster = token.data.regster;";
  "            token = ctx.tokenize();";
  "";
  "            try_reuse(ctx, token, op, 8);";
  "        }";
  "        op.add_bits(static_cast<uint64_t>(regster) << 8);";
  "";
  "        if constexpr (imm_offset) {";
  "            if (token.type == token_type::immediate) {";
  "                const int is_zero_reg = regster == ZERO_REGISTER;";
  "                const int64_t min = is_zero_reg ? 0 : -(1 << (size - 1));";
  "                const int64_t max = max_bits(is_zero_reg ? size : (size - 1));";
  "";
  "                uint64_t value;";
  "                CHECK(convert_integer(token, min, max, &value));";
  "                value >>= shr;";
  "                op.add_bits((value & max_bits(size)) << addr);";
  "                token = ctx.tokenize();";
  "            }";
  "        }";
  "";
  "        CHECK(confirm_type(token, token_type::bracket_right));";
  "        token = ctx.tokenize();";
  "        return {};";
  "    }";
  "}";
  "";
  "DEFINE_OPERAND(flow_tests)";
  "{";
  "    static const char* tests[] = {";
  "        ""F"",       ""LT"",      ""EQ"",      ""LE"",  ""GT"",  ""NE"",   ""GE"",     ""NUM"",    ""NAN"",";
  "        ""LTU"",     ""EQU"",     ""LEU"",     ""GTU"", ""NEU"", ""GEU"",  ""T"",      ""OFF"",    ""LO"",";
  "        ""SFF"",     ""LS"",      ""HI"",      ""SFT"", ""HS"",  ""OFT"",  ""CSM_TA"", ""CSM_TR"", ""CSM_MX"",";
  "        ""FCSM_TA"", ""FCSM_TR"", ""FCSM_MX"", ""RLE"", ""RGT"", nullptr};";
  "    return assemble_cc_tests(ctx, op, token, tests, 0);";
  "}";
  "";
  "DEFINE_FLAG(keeprefcount, "".KEEPREFCOUNT"", 5);";
  "";
  "template <int address>";
  "DEFINE_OPERAND(store_cache)";
  "{";
  "    static const char* table[] = {"""", ""CG"", ""CS"", ""WT"", nullptr};";
  "    std::optional<uint64_t> cache = find_in_table(token, table, ""."");";
  "    if (cache) {";
  "        token = ctx.tokenize();";
  "    }";
  "    op.add_bits(cache.value_or(0) << address);";
  "    return {};";
  "}";
  "";
  "namespace rro";
  "{";
  "    DEFINE_DOT_TABLE(mode, -1, 39, ""SINCOS"", ""EX2"");";
  "}";
  "";
  "template <int address>";
  "DEFINE_DOT_TABLE(load_cache, 0, address, """", ""CG"", ""CI"", ""CV"");";
  "";
  "namespace lop";
  "{";
  "    template <int address>";
  "    DEFINE_DOT_TABLE(bit_op, -1, address, ""AND"", ""OR"", ""XOR"", ""PASS_B"");";
  "";
  "    DEFINE_DOT_TABLE(pred_op, 0, 44, """", ""T"", ""Z"", ""NZ"");";
  "}";
  "";
  "namespace amem";
  "{";
  "    DEFINE_DOT_TABLE(size, 0, 47, ""32"", ""64"", ""96"", ""128"");";
  "}";
  "";
  "namespace ald";
  "{";
  "    DEFINE_FLAG(o, "".O"", 32);";
  "";
  "    DEFINE_OPERAND(p)";
  "    {";
  "        if (!equal(token, "".P"")) {";
  "            return fail(token, ""expected .P"");";
  "        }";
  "        op.add_bits(1ULL << 31);";
  "        token = ctx.tokenize();";
  "        return {};";
  "    }";
  "";
  "    DEFINE_OPERAND(phys)";
  "    {";
  "        if (!equal(token, "".PHYS"")) {";
  "            return fail(token, ""expected .PHYS"");";
  "        }";
  "        token = ctx.tokenize();";
  "        return {};";
  "    }";
  "";
  "    DEFINE_DOT_TABLE(size, 0, 47, ""32"", ""64"", ""96"", ""128"");";
  "";
  "    DEFINE_OPERAND(imm_attr)";
  "    {";
  "        if (!equal(token, ""a"")) {";
  "            return fail(token, ""expected 'a'"");";
  "        }";
  "        token = ctx.tokenize();";
  "";
  "        CHECK(confirm_type(token, token_type::bracket_left));";
  "        token = ctx.tokenize();";
  "";
  "        CHECK((uinteger<10, 20>(ctx, token, op)));";
  "        op.add_bits(0xFFULL << 8);";
  "";
  "        CHECK(confirm_type(token, token_type::bracket_right));";
  "        token = ctx.tokenize();";
  "        return {};";
  "    }";
  "";
  "    DEFINE_OPERAND(patch_attr)";
  "    {";
  "        if (!equal(token, ""a"")) {";
  "            return fail(token, ""expected 'a'"");";
  "        }";
  "        token = ctx.tokenize();";
  "";
  "        CHECK(confirm_type(token, token_type::bracket_left));";
  "        token = ctx.tokenize();";
  "";
  "        CHECK((sgpr<8>(ctx, token, op)));";
  "";
  "        if (token.type == token_type::plus) {";
  "            token = ctx.tokenize();";
  "        }";
  "        CHECK((sinteger<11, 20>(ctx, token, op)));";
  "";
  "        CHECK(confirm_type(token, token_type::bracket_right));";
  "        token = ctx.tokenize();";
  "        return {};";
  "    }";
  "";
  "    DEFINE_OPERAND(phys_attr)";
  "    {";
  "        if (!equal(token, ""a"")) {";
  "            return fail(token, ""expected 'a'"");";
  "        }";
  "        token = ctx.tokenize();";
  "";
  "        CHECK(confirm_type(token, token_type::bracket_left));";
  "        token = ctx.tokenize();";
  "";
  "        CHECK((sgpr<8>(ctx, token, op)));";
  "";
  "        CHECK(confirm_type(token, token_type::bracket_right));";
  "        token = ctx.tokenize();";
  "        return {};";
  "    }";
  "}";
  "";
  "namespace al2p";
  "{";
  "    DEFINE_FLAG(o, "".O"", 32);";
  "}";
  "";
  "namespace b2r";
  "{";
  "    DEFINE_OPERAND(warp)";
  "    {";
  "        if (!equal(token, "".WARP"")) {";
  "            return fail(token, ""expected .WARP"");";
  "        }";
  "        token = ctx.tokenize();";
  "        op.add_bits(0xEULL << 32);";
  "        op.add_bits(0xFFULL << 8);";
  "        return {};";
  "    }";
  "";
  "    DEFINE_OPERAND(result)";
  "    {";
  "        if (!equal(token, "".RESULT"")) {";
  "            return fail(token, ""expected .RESULT"");";
  "        }";
  "        token = ctx.tokenize();";
  "        op.add_bits(0xDULL << 32);";
  "        op.add_bits(0xFFULL << 8);";
  "        return {};";
  "    }";
  "}";
  "";
  "namespace nop";
  "{";
  "    DEFINE_FLAG(trig, "".TRIG"", 13);";
  "    DEFINE_UINT(mask, UINT16_MAX, 20);";
  "}";
  "";
  "DEFINE_OPERAND(cc_text)";
  "{";
  "    if (!equal(token, ""CC"")) {";
  "        return fail(token, ""expected CC"");";
  "    }";
  "    token = ctx.tokenize();";
  "    return {};";
  "}";
  "";
  "DEFINE_DOT_TABLE(cc_tests, 15, 8, ""F"", ""LT"", ""EQ"", ""LE"", ""GT"", ""NE"", ""GE"", ""NUM"", ""NAN"", ""LTU"",";
  "                 ""EQU"", ""LEU"", ""GTU"", ""NEU"", ""GEU"", ""T"", ""OFF"", ""LO"", ""SFF"", ""LS"", ""HI"", ""SFT"",";
  "                 ""HS"", ""OFT"", ""CSM_TA"", ""CSM_TR"", ""CSM_MX"", ""FCSM_TA"", ""FCSM_TR"", ""FCSM_MX"", ""RLE"",";
  "                 ""RGT"");";
  "";
  "namespace xmad";
  "{";
  "    DEFINE_OPERAND(signs)";
  "    {";
  "        const bool is_s16 = equal(token, "".S16"");";
  "        if (!is_s16 && !equal(token, "".U16"")) {";
  "            return {};";
  "        }";
  "";
  "        token = ctx.tokenize();";
  "";
  "        if (is_s16) {";
  "            op.add_bits(1ULL << 48);";
  "        }";
  "";
  "        if (equal(token, "".S16"")) {";
  "            op.add_bits(1ULL << 49);";
  "        } else if (!equal(token, "".U16"")) {";
  "            return fail(token, ""expected .S16 or .U16"");";
  "        }";
  "";
  "        token = ctx.tokenize();";
  "        return {};";
  "    }";
  "";
  "    DEFINE_DOT_TABLE(mode_a, 0, 50, """", ""CLO"", ""CHI"", ""CSFU"", ""CBCC"");";
  "    DEFINE_DOT_TABLE(mode_b, 0, 50, """", ""CLO"", ""CHI"", ""CSFU"");";
  "}";
  "";
  "namespace lop3";
  "{";
  "    DEFINE_DOT_TABLE(operation, 0, 36, """", ""T"", ""Z"", ""NZ"")";
  "";
  "    DEFINE_OPERAND(lut)";
  "    {";
  "        if (!equal(token, "".LUT"")) {";
  "            return fail(token, ""expected .LUT"");";
  "        }";
  "        token = ctx.tokenize();";
  "        return {};";
  "    }";
  "}";
  "";
  "namespace shr";
  "{";
  "    DEFINE_DOT_TABLE(format, 1, 48, ""U32"", ""S32"");";
  "    DEFINE_DOT_TABLE(mode, 0, 39, ""C"", ""W"");";
  "    DEFINE_DOT_TABLE(xmode, 0, 43, """", ""INVALIDSHRXMODE1"", ""X"", ""XHI"");";
  "}";
  "";
  "namespace bfe";
  "{";
  "    DEFINE_DOT_TABLE(format, 1, 48, ""U32"", ""S32"");";
  "}";
  "";
  "namespace bpt";
  "{";
  "    DEFINE_DOT_TABLE(mode, -1, 6, ""DRAIN_ILLEGAL"", ""CAL"", ""PAUSE"", ""TRAP"", ""INT"", ""DRAIN"");";
  "}";
  "";
  "namespace stg";
  "{";
  "    DEFINE_FLAG(e, "".E"", 45)";
  "";
  "    DEFINE_OPERAND(size)";
  "    {";
  "        static const char* table[] = {";
  "            ""U8"", ""S8"", ""U16"", ""S16"", ""32"", ""64"", ""128"",";
  "        };";
  "        std::optional<uint64_t> size = find_in_table(token, table, ""."");";
  "        if (size) {";
  "            token = ctx.tokenize();";
  "        }";
  "        op.add_bits(size.value_or(4) << 48); // defaults "".32""";
  "        return {};";
  "    }";
  "}";
  "";
  "namespace f2f";
  "{";
  "    DEFINE_OPERAND(rounding)";
  "    {";
  "        const int dst_format = (op.value >> 8) & 0b11;";
  "        const int src_format = (op.value >> 10) & 0b11;";
  "        if (dst_format == src_format) {";
  "            std::optional<uint64_t> result;";
  "            if (equal(token, "".ROUND"")) {";
  "                result = 0b1000;";
  "            } else if (equal(token, "".FLOOR"")) {";
  "                result = 0b1001;";
  "            } else if (equal(token, "".CEIL"")) {";
  "                result = 0b1010;";
  "            } else if (equal(token, "".TRUNC"")) {";
  "                result = 0b1011;";
  "            } else if (equal(token, "".PASS"")) {";
  "                result = 0b0011;";
  "            }";
  "            if (result) {";
  "                token = ctx.tokenize();";
  "            }";
  "            op.add_bits(result.value_or(0) << 39);";
  "            return {};";
  "        }";
  "";
  "        static const char* table[] = {""RN"", ""RM"", ""RP"", ""RZ"", nullptr};";
  "        const std::optional result = find_in_table(token, table, ""."");";
  "        if (result) {";
  "            token = ctx.tokenize();";
  "        }";
  "        op.add_bits(result.value_or(0) << 39);";
  "        return {};";
  "    }";
  "}";
  "";
  "namespace fmul";
  "{";
  "    template <int address>";
  "    DEFINE_DOT_TABLE(fmz, 0, address, """", ""FTZ"", ""FMZ"", ""INVALIDFMZ3"");";
  "";
  "    DEFINE_DOT_TABLE(scale, 0, 41, """", ""D2"", ""D4"", ""D8"", ""M8"", ""M4"", ""M2"", ""INVALIDSCALE37"");";
  "}";
  "";
  "namespace iadd3";
  "{";
  "    DEFINE_DOT_TABLE(shift, 0, 37, """", ""RS"", ""LS"");";
  "";
  "    template <int address>";
  "    DEFINE_DOT_TABLE(half, 0, address, """", ""H0"", ""H1"");";
  "}";
  "";
  "namespace f2i";
  "{";
  "    DEFINE_OPERAND(int_format)";
  "    {";
  "        static const char* table_unsigned[] = {""INVALID0"", ""U16"", ""U32"", ""U64"", nullptr};";
  "        static const char* table_signed[] = {""INVALID1"", ""S16"", ""S32"", ""S64"", nullptr};";
  "";
  "        std::optional result = find_in_table(token, table_unsigned, ""."");";
  "        if (!result) {";
  "            result = find_in_table(token, table_signed, ""."");";
  "            if (!result) {";
  "                return fail(token, ""expected .U16, .U32, .U64, .S16, .S32 or .S64"");";
  "            }";
  "            op.add_bits(1ULL << 12);";
  "        }";
  "        op.add_bits(*result << 8);";
  "        token = ctx.tokenize();";
  "        return {};";
  "    }";
  "";
  "    DEFINE_DOT_TABLE(rounding, 0, 39, """", ""FLOOR"", ""CEIL"", ""TRUNC"");";
  "}";
  "";
  "namespace p2r";
  "{";
  "    template <int address>";
  "    DEFINE_OPERAND(mode)";
  "    {";
  "        static const char* table[] = {""PR"", ""CC"", nullptr};";
  "        const std::optional<uint64_t> result = find_in_table(token, table, """");";
  "        if (!result) {";
  "            return fail(token, ""expected PR or CC"");";
  "        }";
  "        op.add_bits(*result << address);";
  "        token = ctx.tokenize();";
  "        return {};";
  "    }";
  "}";
  "";
  "namespace fp16";
  "{";
  "    template <int address>";
  "    DEFINE_DOT_TABLE(merge, 0, address, """", ""F32"", ""MRG_H0"", ""MRG_H1"");";
  "";
  "    template <int address>";
  "    DEFINE_DOT_TABLE(control, 0, address, """", ""FTZ"", ""FMZ"");";
  "";
  "    template <int address>";
  "    DEFINE_DOT_TABLE(swizzle, 0, address, ""H1_H0"", ""F32"", ""H0_H0"", ""H1_H1"");";
  "}";
  "";
  "namespace stl";
  "{";
  "    DEFINE_DOT_TABLE(cache, 0, 44, """", ""CG"", ""CS"", ""WT"");";
  "}";
  "";
  "namespace lds";
  "{";
  "    DEFINE_FLAG(u, "".U"", 44);";
  "}";
  "";
  "template <int address>";
  "DEFINE_DOT_TABLE(float_compare, -1, address, ""F"", ""LT"", ""EQ"", ""LE"", ""GT"", ""NE"", ""GE"", ""NUM"", ""NAN"",";
  "                 ""LTU"", ""EQU"", ""LEU"", ""GTU"", ""NEU"", ""GEU"", ""T"");";
  "";
  "template <int address>";
  "DEFINE_DOT_TABLE(integer_compare, -1, address, ""F"", ""LT"", ""EQ"", ""LE"", ""GT"", ""NE"", ""GE"", ""T"");";
  "";
  "namespace vsetp";
  "{";
  "    template <int address>";
  "    DEFINE_DOT_TABLE(integer_compare, -1, address, ""F"", ""LT"", ""EQ"", ""LE"", """", """", """", """", """", """",";
  "                     """", """", """", """", """", """", ""GT"", ""NE"", ""GE"", ""T"");";
  "}";
  "";
  "namespace mufu";
  "{";
  "    DEFINE_DOT_TABLE(operation, -1, 20, ""COS"", ""SIN"", ""EX2"", ""LG2"", ""RCP"", ""RSQ"", ""RCP64H"",";
  "                     ""RSQ64H"", ""SQRT"");";
  "}";
  "";
  "namespace imnmx";
  "{";
  "    DEFINE_DOT_TABLE(mode, 0, 43, """", ""XLO"", ""XMED"", ""XHI"");";
  "}";
  "";
  "namespace ldc";
  "{";
  "    DEFINE_DOT_TABLE(mode, 0, 44, """", ""IL"", ""IS"", ""ISL"");";
  "    DEFINE_DOT_TABLE(size, -1, 48, ""U8"", ""S8"", ""U16"", ""S16"", ""32"", ""64"");";
  "";
  "    DEFINE_OPERAND(address)";
  "    {";
  "        if (!equal(token, ""c"")) {";
  "            return fail(token, ""expected constant buffer"");";
  "        }";
  "        token = ctx.tokenize();";
  "        CHECK(confirm_type(token, token_type::bracket_left));";
  "";
  "        token = ctx.tokenize();";
  "        uint64_t value;";
  "        CHECK(convert_integer(token, 0, max_bits(5), &value));";
  "        op.add_bits(static_cast<uint64_t>(value) << 36);";
  "";
  "        token = ctx.tokenize();";
  "        CHECK(confirm_type(token, token_type::bracket_right));";
  "";
  "        token = ctx.tokenize();";
  "        return memory::address<true, 20, 16, 0>(ctx, token, op);";
  "    }";
  "}";
  "";
  "namespace image";
  "{";
  "    DEFINE_OPERAND(p)";
  "    {";
  "        if (!equal(token, "".P"")) {";
  "            return fail(token, ""expected .P or .B"");";
  "        }";
  "        token = ctx.tokenize();";
  "        return {};";
  "    }";
  "";
  "    DEFINE_OPERAND(d)";
  "    {";
  "        if (!equal(token, "".D"")) {";
  "            return fail(token, ""expected .P or .B"");";
  "        }";
  "        op.add_bits(1ULL << 52);";
  "        token = ctx.tokenize();";
  "        return {};";
  "    }";
  "";
  "    template <int address>";
  "    DEFINE_FLAG(ba, "".BA"", address);";
  "";
  "    DEFINE_DOT_TABLE(type, -1, 33, ""1D"", ""1D_BUFFER"", ""1D_ARRAY"", ""2D"", ""2D_ARRAY"", ""3D"");";
  "";
  "    DEFINE_DOT_TABLE(rgba, 15, 20, """", ""R"", ""G"", ""RG"", ""B"", ""RB"", ""GB"", ""RGB"", ""A"", ""RA"", ""GA"",";
  "                     ""RGA"", ""BA"", ""RBA"", ""GBA"", ""RGBA"");";
  "";
  "    DEFINE_DOT_TABLE(size, 4, 20, ""U8"", ""S8"", ""U16"", ""S16"", ""32"", ""64"", ""128"");";
  "";
  "    DEFINE_DOT_TABLE(clamp, 1, 49, ""IGN"", """", ""TRAP"");";
  "}";
  "";
  "DEFINE_OPERAND(s2r)";
  "{";
  "    static const char* table[] = {";
  "        ""SR_LANEID"",";
  "        ""SR_CLOCK"",";
  "        ""SR_VIRTCFG"",";
  "        ""SR_VIRTID"",";
  "        ""SR_PM0"",";
  "        ""SR_PM1"",";
  "        ""SR_PM2"",";
  "        ""SR_PM3"",";
  "        ""SR_PM4"",";
  "        ""SR_PM5"",";
  "        ""SR_PM6"",";
  "        ""SR_PM7"",";
  "        ""SR12"",";
  "        ""SR13"",";
  "        ""SR14"",";
  "        ""SR_ORDERING_TICKET"",";
  "        ""SR_PRIM_TYPE"",";
  "        ""SR_INVOCATION_ID"",";
  "        ""SR_Y_DIRECTION"",";
  "        ""SR_THREAD_KILL"",";
  "        ""SM_SHADER_TYPE"",";
  "        ""SR_DIRECTCBEWRITEADDRESSLOW"",";
  "        ""SR_DIRECTCBEWRITEADDRESSHIGH"",";
  "        ""SR_DIRECTCBEWRITEENABLED"",";
  "        ""SR_MACHINE_ID_0"",";
  "        ""SR_MACHINE_ID_1"",";
  "        ""SR_MACHINE_ID_2"",";
  "        ""SR_MACHINE_ID_3"",";
  "        ""SR_AFFINITY"",";
  "        ""SR_INVOCATION_INFO"",";
  "        ""SR_WSCALEFACTOR_XY"",";
  "        ""SR_WSCALEFACTOR_Z"",";
  "        """", // SR_TID";
  "        """", // SR_TID.X";
  "        """", // SR_TID.Y";
  "        """", // SR_TID.Z";
  "        ""SR_CTA_PARAM"",";
  "        """", // SR_CTAID.X";
  "        """", // SR_CTAID.Y";
  "        """", // SR_CTAID.Z";
  "        ""SR_NTID"",";
  "        ""SR_CirQueueIncrMinusOne"",";
  "        ""SR_NLATC"",";
  "        ""SR43"",";
  "        ""SR_SM_SPA_VERSION"",";
  "        ""SR_MULTIPASSSHADERINFO"",";
  "        ""SR_LWINHI"",";
  "        ""SR_SWINHI"",";
  "        ""SR_SWINLO"",";
  "        ""SR_SWINSZ"",";
  "        ""SR_SMEMSZ"",";
  "        ""SR_SMEMBANKS"",";
  "        ""SR_LWINLO"",";
  "        ""SR_LWINSZ"",";
  "        ""SR_LMEMLOSZ"",";
  "        ""SR_LMEMHIOFF"",";
  "        ""SR_EQMASK"",";
  "        ""SR_LTMASK"",";
  "        ""SR_LEMASK"",";
  "        ""SR_GTMASK"",";
  "        ""SR_GEMASK"",";
  "        ""SR_REGALLOC"",";
  "        ""SR_BARRIERALLOC"",";
  "        ""SR63"",";
  "        ""SR_GLOBALERRORSTATUS"",";
  "        ""SR65"",";
  "        ""SR_WARPERRORSTATUS"",";
  "        ""SR_WARPERRORSTATUSCLEAR"",";
  "        ""SR68"",";
  "        ""SR69"",";
  "        ""SR70"",";
  "        ""SR71"",";
  "        ""SR_PM_HI0"",";
  "        ""SR_PM_HI1"",";
  "        ""SR_PM_HI2"",";
  "        ""SR_PM_HI3"",";
  "        ""SR_PM_HI4"",";
  "        ""SR_PM_HI5"",";
  "        ""SR_PM_HI6"",";
  "        ""SR_PM_HI7"",";
  "        ""SR_CLOCKLO"",";
  "        ""SR_CLOCKHI"",";
  "        ""SR_GLOBALTIMERLO"",";
  "        ""SR_GLOBALTIMERHI"",";
  "        ""SR84"",";
  "        ""SR85"",";
  "        ""SR86"",";
  "        ""SR87"",";
  "        ""SR88"",";
  "        ""SR89"",";
  "        ""SR90"",";
  "        ""SR91"",";
  "        ""SR92"",";
  "        ""SR93"",";
  "        ""SR94"",";
  "        ""SR95"",";
  "        ""SR_HWTASKID"",";
  "        ""SR_CIRCULARQUEUEENTRYINDEX"",";
  "        ""SR_CIRCULARQUEUEENTRYADDRESSLOW"",";
  "        ""SR_CIRCULARQUEUEENTRYADDRESSHIGH"",";
  "        ""SR100"",";
  "        ""SR101"",";
  "        ""SR102"",";
  "        ""SR103"",";
  "        ""SR104"",";
  "        ""SR105"",";
  "        ""SR106"",";
  "        ""SR107"",";
  "        ""SR108"",";
  "        ""SR109"",";
  "        ""SR110"",";
  "        ""SR111"",";
  "        ""SR112"",";
  "        ""SR113"",";
  "        ""SR114"",";
  "        ""SR115"",";
  "        ""SR116"",";
  "        ""SR117"",";
  "        ""SR118"",";
  "        ""SR119"",";
  "        ""SR120"",";
  "        ""SR121"",";
  "        ""SR122"",";
  "        ""SR123"",";
  "        ""SR124"",";
  "        ""SR125"",";
  "        ""SR126"",";
  "        ""SR127"",";
  "        ""SR128"",";
  "        ""SR129"",";
  "        ""SR130"",";
  "        ""SR131"",";
  "        ""SR132"",";
  "        ""SR133"",";
  "        ""SR134"",";
  "        ""SR135"",";
  "        ""SR136"",";
  "        ""SR137"",";
  "        ""SR138"",";
  "        ""SR139"",";
  "        ""SR140"",";
  "        ""SR141"",";
  "        ""SR142"",";
  "        ""SR143"",";
  "        ""SR144"",";
  "        ""SR145"",";
  "        ""SR146"",";
  "        ""SR147"",";
  "        ""SR148"",";
  "        ""SR149"",";
  "        ""SR150"",";
  "        ""SR151"",";
  "        ""SR152"",";
  "        ""SR153"",";
  "        ""SR154"",";
  "        ""SR155"",";
  "        ""SR156"",";
  "        ""SR157"",";
  "        ""SR158"",";
  "        ""SR159"",";
  "        ""SR160"",";
  "        ""SR161"",";
  "        ""SR162"",";
  "        ""SR163"",";
  "        ""SR164"",";
  "        ""SR165"",";
  "        ""SR166"",";
  "        ""SR167"",";
  "        ""SR168"",";
  "        ""SR169"",";
  "        ""SR170"",";
  "        ""SR171"",";
  "        ""SR172"",";
  "        ""SR173"",";
  "        ""SR174"",";
  "        ""SR175"",";
  "        ""SR176"",";
  "        ""SR177"",";
  "        ""SR178"",";
  "        ""SR179"",";
  "        ""SR180"",";
  "        ""SR181"",";
  "        ""SR182"",";
  "        ""SR183"",";
  "        ""SR184"",";
  "        ""SR185"",";
  "        ""SR186"",";
  "        ""SR187"",";
  "        ""SR188"",";
  "        ""SR189"",";
  "        ""SR190"",";
  "        ""SR191"",";
  "        ""SR192"",";
  "        ""SR193"",";
  "        ""SR194"",";
  "        ""SR195"",";
  "        ""SR196"",";
  "        ""SR197"",";
  "        ""SR198"",";
  "        ""SR199"",";
  "        ""SR200"",";
  "        ""SR201"",";
  "        ""SR202"",";
  "        ""SR203"",";
  "        ""SR204"",";
  "        ""SR205"",";
  "        ""SR206"",";
  "        ""SR207"",";
  "        ""SR208"",";
  "        ""SR209"",";
  "        ""SR210"",";
  "        ""SR211"",";
  "        ""SR212"",";
  "        ""SR213"",";
  "        ""SR214"",";
  "        ""SR215"",";
  "        ""SR216"",";
  "        ""SR217"",";
  "        ""SR218"",";
  "        ""SR219"",";
  "        ""SR220"",";
  "        ""SR221"",";
  "        ""SR222"",";
  "        ""SR223"",";
  "        ""SR224"",";
  "        ""SR225"",";
  "        ""SR226"",";
  "        ""SR227"",";
  "        ""SR228"",";
  "        ""SR229"",";
  "        ""SR230"",";
  "        ""SR231"",";
  "        ""SR232"",";
  "        ""SR233"",";
  "        ""SR234"",";
  "        ""SR235"",";
  "        ""SR236"",";
  "        ""SR237"",";
  "        ""SR238"",";
  "        ""SR239"",";
  "        ""SR240"",";
  "        ""SR241"",";
  "        ""SR242"",";
  "        ""SR243"",";
  "        ""SR244"",";
  "        ""SR245"",";
  "        ""SR246"",";
  "        ""SR247"",";
  "        ""SR248"",";
  "        ""SR249"",";
  "        ""SR250"",";
  "        ""SR251"",";
  "        ""SR252"",";
  "        ""SR253"",";
  "        ""SR254"",";
  "        ""SR255"",";
  "        nullptr,";
  "    };";
  "";
  "    std::optional<uint64_t> value;";
  "    if (equal(token, ""SR_TID"")) {";
  "        token = ctx.tokenize();";
  "        if (equal(token, "".X"")) {";
  "            value = 33;";
  "        } else if (equal(token, "".Y"")) {";
  "            value = 34;";
  "        } else if (equal(token, "".Z"")) {";
  "            value = 35;";
  "        } else {";
  "            value = 32;";
  "        }";
  "        if (value != 32) {";
  "            token = ctx.tokenize();";
  "        }";
  "    } else if (equal(token, ""SR_CTAID"")) {";
  "        token = ctx.tokenize();";
  "        if (equal(token, "".X"")) {";
  "            value = 37;";
  "        } else if (equal(token, "".Y"")) {";
  "            value = 38;";
  "        } else if (equal(token, "".Z"")) {";
  "            value = 39;";
  "        } else {";
  "            return fail(token, ""expected .X, .Y or .Z after SR_CTAID"");";
  "        }";
  "        token = ctx.tokenize();";
  "    } else {";
  "        value = find_in_table(token, table, """");";
  "        if (!value) {";
  "            return fail(token, ""invalid system register \33[1m%.*s\33[0m"",";
  "                        static_cast<int>(token.data.string.size()), token.data.string.data());";
  "        }";
  "        token = ctx.tokenize();";
  "    }";
  "    op.add_bits(*value << 20);";
  "    return {};";
  "}";
  "";
  "namespace shfl";
  "{";
  "    DEFINE_DOT_TABLE(mode, -1, 30, ""IDX"", ""UP"", ""DOWN"", ""BFLY"");";
  "}";
  "";
  "DEFINE_DOT_TABLE(int_sign, 1, 48, ""U32"", ""S32"");";
  "";
  "namespace ldg";
  "{";
  "    DEFINE_OPERAND(size)";
  "    {";
  "        static const char* table[] = {""U8"", ""S8"", ""U16"", ""S16"", ""32"", ""64"", ""128"", ""U""};";
  "        static const char* msg = ""expected .U8, .S8, .U16, .S16, .32, .64, .128 or .U.128"";";
  "";
  "        const std::optional result = find_in_table(token, table, ""."");";
  "        if (result) {";
  "            token = ctx.tokenize();";
  "            if (*result == 7) { // .U";
  "                if (!equal(token, "".128"")) {";
  "                    return fail(token, msg);";
  "                }";
  "                token = ctx.tokenize();";
  "            }";
  "        }";
  "        op.add_bits(result.value_or(4) << 48);";
  "        return {};";
  "    }";
  "";
  "    DEFINE_DOT_TABLE(cache, 0, 46, """", ""CG"", ""CI"", ""CV"");";
  "}";
  "";
  "namespace i2f";
  "{";
  "    DEFINE_OPERAND(int_format)";
  "    {";
  "        static const char* table_unsigned[] = {""U8"", ""U16"", ""U32"", ""U64"", nullptr};";
  "        static const char* table_signed[] = {""S8"", ""S16"", ""S32"", ""S64"", nullptr};";
  "";
  "        std::optional result = find_in_table(token, table_unsigned, ""."");";
  "        if (!result) {";
  "            result = find_in_table(token, table_signed, ""."");";
  "            if (!result) {";
  "                return fail(token, ""expected .U8, .U16, .U32, .U64, .S8, .S16, .S32 or .S64"");";
  "            }";
  "            op.add_bits(1ULL << 13);";
  "        }";
  "        op.add_bits(*result << 10);";
  "        token = ctx.tokenize();";
  "        return {};";
  "    }";
  "";
  "    DEFINE_OPERAND(selector)";
  "    {";
  "        static const char* bytes[] = {""B0"", ""B1"", ""B2"", ""B3"", nullptr};";
  "        static const char* shorts[] = {""H0"", ""INVALIDSIZE1"", ""H1"", ""INVALIDSIZE3"", nullptr};";
  "";
  "        const uint64_t type = (op.value >> 10) & 0b111;";
  "        const char* const* const table = type == 1 ? shorts : bytes;";
  "        const std::optional result = find_in_table(token, table, ""."");";
  "        if (result) {";
  "            token = ctx.tokenize();";
  "        }";
  "        op.add_bits(result.value_or(0) << 41);";
  "        return {};";
  "    }";
  "}";
  "";
  "namespace i2i";
  "{";
  "    template <int address, int sign_address>";
  "    DEFINE_OPERAND(format)";
  "    {";
  "        static const char* table_unsigned[] = {""U8"", ""U16"", ""U32"", nullptr};";
  "        static const char* table_signed[] = {""S8"", ""S16"", ""S32"", nullptr};";
  "";
  "        std::optional<int64_t> result = find_in_table(token, table_unsigned, ""."");";
  "        if (!result) {";
  "            result = find_in_table(token, table_signed, ""."");";
  "            if (!result) {";
  "                return fail(token, ""expected .U8, .U16, .U32, .S8, .S16 or .S32"");";
  "            }";
  "            op.add_bits(1ULL << sign_address);";
  "        }";
  "        op.add_bits(*result << address);";
  "        token = ctx.tokenize();";
  "        return {};";
  "    }";
  "";
  "    DEFINE_OPERAND(selector)";
  "    {";
  "        static const char* bytes[] = {""B0"", ""B1"", ""B2"", ""B3"", nullptr};";
  "        static const char* shorts[] = {""H0"", ""INVALIDSIZE1"", ""H1"", ""INVALIDSIZE3"", nullptr};";
  "";
  "        const uint64_t type = (op.value >> 10) & 0b111;";
  "        const char* const* const table = type == 1 ? shorts : bytes;";
  "        const std::optional result = find_in_table(token, table, ""."");";
  "        if (result) {";
  "            token = ctx.tokenize();";
  "        }";
  "        op.add_bits(result.value_or(0) << 41);";
  "        return {};";
  "    }";
  "}";
  "";
  "namespace atoms";
  "{";
  "    DEFINE_DOT_TABLE(operation, -1, 52, ""ADD"", ""MIN"", ""MAX"", ""INC"", ""DEC"", ""AND"", ""OR"", ""XOR"",";
  "                     ""EXCH"");";
  "";
  "    DEFINE_DOT_TABLE(size, -1, 28, ""U32"", ""S32"", ""U64"", ""S64"");";
  "}";
  "";
  "namespace ldl";
  "{";
  "    DEFINE_DOT_TABLE(cache, 0, 44, """", ""LU"", ""CI"", ""CV"");";
  "}";
  "";
  "template <int address>";
  "DEFINE_OPERAND(atomic_size)";
  "{";
  "    static const char* msg = ""expected .U32, .S32, .U64, .S64, .F32.FTZ.RN, .F16x2.RN or .S64"";";
  "    static const char* table[] = {""U32"", ""S32"", ""U64"", ""F32"", ""F16x2"", ""S64"", nullptr};";
  "    const std::optional<uint64_t> result = find_in_table(token, table, ""."");";
  "    if (result) {";
  "        token = ctx.tokenize();";
  "        switch (*result) {";
  "        case 3: // .F32.FTZ.RN";
  "            if (!equal(token, "".FTZ"")) {";
  "                return fail(token, msg);";
  "            }";
  "            token = ctx.tokenize();";
  "            [[fallthrough]];";
  "        case 4: // .F16x2.RN";
  "            if (!equal(token, "".RN"")) {";
  "                return fail(token, msg);";
  "            }";
  "            token = ctx.tokenize();";
  "        }";
  "    }";
  "    op.add_bits(result.value_or(0) << address);";
  "    return {};";
  "}";
  "";
  "namespace vote";
  "{";
  "    DEFINE_DOT_TABLE(operation, -1, 48, ""ALL"", ""ANY"", ""EQ"");";
  "}";
  "";
  "namespace atom";
  "{";
  "    DEFINE_FLAG(e, "".E"", 48);";
  "";
  "    DEFINE_DOT_TABLE(operation, -1, 52, ""ADD"", ""MIN"", ""MAX"", ""INC"", ""DEC"", ""AND"", ""OR"", ""XOR"",";
  "                     ""EXCH"", ""SAFEADD"");";
  "}";
  "";
  "namespace lea";
  "{";
  "    DEFINE_OPERAND(hi)";
  "    {";
  "        if (!equal(token, "".HI"")) {";
  "            return fail(token, ""expected .HI"");";
  "        }";
  "        token = ctx.tokenize();";
  "        return {};";
  "    }";
  "";
  "    DEFINE_OPERAND(lo)";
  "    {";
  "        if (equal(token, "".LO"")) {";
  "            token = ctx.tokenize();";
  "        }";
  "        return {};";
  "    }";
  "}";
  "";
  "namespace shf";
  "{";
  "    DEFINE_OPERAND(r)";
  "    {";
  "        if (!equal(token, "".R"")) {";
  "            return fail(token, ""expected .R"");";
  "        }";
  "        token = ctx.tokenize();";
  "        return {};";
  "    }";
  "";
  "    DEFINE_OPERAND(l)";
  "    {";
  "        if (!equal(token, "".L"")) {";
  "            return fail(token, ""expected .L"");";
  "        }";
  "        token = ctx.tokenize();";
  "        return {};";
  "    }";
  "";
  "    DEFINE_DOT_TABLE(max_shift, 0, 37, ""32"", ""INVALIDMAXSHIFT3"", ""U64"", ""S64"");";
  "";
  "    DEFINE_DOT_TABLE(xmode, 0, 48, """", ""HI"", ""X"", ""XHI"");";
  "}";
  "";
  "DEFINE_DOT_TABLE(noinc, 1, 6, ""NOINC"", ""INC"");";
  "";
  "namespace video";
  "{";
  "    DEFINE_DOT_TABLE(dest_sign, 1, 54, ""UD"", ""SD"");";
  "";
  "    template <int address, int sign_address>";
  "    DEFINE_OPERAND(src_format)";
  "    {";
  "        static const char* signed_table[] = {""S8"", """", ""S16"", ""S32"", nullptr};";
  "        static const char* unsigned_table[] = {""U8"", """", ""U16"", ""U32"", nullptr};";
  "        bool is_signed = true;";
  "        std::optional<int64_t> result = find_in_table(token, signed_table, ""."");";
  "        if (!result) {";
  "            is_signed = false;";
  "            result = find_in_table(token, unsigned_table, ""."");";
  "            if (!result) {";
  "                is_signed = true;";
  "            }";
  "        }";
  "        if (result) {";
  "            token = ctx.tokenize();";
  "        }";
  "        op.add_bits(result.value_or(3) << address); // .U32";
  "        op.add_bits((is_signed ? 1ULL : 0ULL) << sign_address);";
  "        return {};";
  "    }";
  "";
  "    template <int address>";
  "    DEFINE_DOT_TABLE(mx, 0, address, ""MN"", ""MX"");";
  "";
  "    template <int address>";
  "    DEFINE_DOT_TABLE(vmnmx_op, 7, address, ""MRG_16H"", ""MRG_16L"", ""MRG_8B0"", ""MRG_8B2"", ""ACC"", ""MIN"",";
  "                     ""MAX"");";
  "";
  "    template <int address, int type_address>";
  "    DEFINE_OPERAND(selector)";
  "    {";
  "        static const char* bytes[] = {""B0"", ""B1"", ""B2"", ""B3"", nullptr};";
  "        static const char* shorts[] = {""H0"", ""H1"", nullptr};";
  "";
  "        const uint64_t type = (op.value >> type_address) & 0b111;";
  "        const char* const* const table = type == 2 ? shorts : bytes;";
  "        const std::optional result = find_in_table(token, table, ""."");";
  "        if (result) {";
  "            token = ctx.tokenize();";
  "        }";
  "        op.add_bits(result.value_or(0) << address);";
  "        return {};";
  "    }";
  "";
  "    template <int address, int sign_address>";
  "    DEFINE_OPERAND(imm_format)";
  "    {";
  "        static const char* table[] = {""U16"", ""S16"", nullptr};";
  "        std::optional<int64_t> result = find_in_table(token, table, ""."");";
  "        if (result) {";
  "            token = ctx.tokenize();";
  "        }";
  "        op.add_bits(result.value_or(1) << sign_address);";
  "        return {};";
  "    }";
  "}";
  "";
  "namespace vmad";
  "{";
  "    DEFINE_DOT_TABLE(scale, 0, 51, """", ""SHR_7"", ""SHR_15"", ""INVALIDVMADSCALE3"");";
  "}";
  "";
  "namespace red";
  "{";
  "    DEFINE_FLAG(e, "".E"", 48);";
  "";
  "    DEFINE_DOT_TABLE(operation, 0, 23, ""ADD"", ""MIN"", ""MAX"", ""INC"", ""DEC"", ""AND"", ""OR"", ""XOR"")";
  "}";
  "";
  "template <int address>";
  "DEFINE_FLAG(ndv, "".NDV"", address);";
  "";
  "template <int address>";
  "DEFINE_FLAG(nodep, "".NODEP"", address);";
  "";
  "template <int address>";
  "DEFINE_FLAG(dc, "".DC"", address);";
  "";
  "template <int address>";
  "DEFINE_FLAG(aoffi, "".AOFFI"", address);";
  "";
  "template <int address>";
  "DEFINE_FLAG(lc, "".LC"", address);";
  "";
  "template <int address>";
  "DEFINE_DOT_TABLE(blod, 0, address, """", ""LZ"", ""LB"", ""LL"", ""INVALIDBLOD4"", ""INVALIDBLOD5"", ""LBA"",";
  "                 ""LLA"");";
  "";
  "template <int address>";
  "DEFINE_OPERAND(tex_type)";
  "{";
  "    static const char* types[]{";
  "        ""1D"", ""ARRAY_1D"", ""2D"", ""ARRAY_2D"", ""3D"", ""ARRAY_3D"", ""CUBE"", ""ARRAY_CUBE"",";
  "    };";
  "    const std::optional<uint64_t> result = find_in_table(token, types, """");";
  "    if (!result) {";
  "        return fail(token,";
  "                    ""expected 1D, ARRAY_1D, 2D, ARRAY_2D, 3D, ARRAY_3D, CUBE, or ARRAY_CUBE"");";
  "    }";
  "    token = ctx.tokenize();";
  "    op.add_bits(*result << address);";
  "    return {};";
  "}";
  "";
  "DEFINE_OPERAND(b_text)";
  "{";
  "    if (!equal(token, "".B"")) {";
  "        return fail(token, ""expected .B"");";
  "    }";
  "    token = ctx.tokenize();";
  "    return {};";
  "}";
  "";
  "DEFINE_OPERAND(lod_text)";
  "{";
  "    if (!equal(token, "".LOD"")) {";
  "        return fail(token, ""expected .LOD"");";
  "    }";
  "    token = ctx.tokenize();";
  "    return {};";
  "}";
  "";
  "DEFINE_OPERAND(zero)";
  "{";
  "    if (token.type != token_type::immediate || token.data.immediate != 0) {";
  "        return fail(token, ""expected 0"");";
  "    }";
  "    token = ctx.tokenize();";
  "    return {};";
  "}";
  "";
  "template <int address>";
  "DEFINE_DOT_TABLE(sample_size, 1, address, ""F16"", """");";
  "";
  "template <int address>";
  "DEFINE_DOT_TABLE(sample_size_inv, 0, address, """", ""F16"");";
  "";
  "enum class Lod";
  "{";
  "    None,";
  "    LL,";
  "    LZ,";
  "};";
  "";
  "template <int address>";
  "DEFINE_OPERAND(texs_mode)";
  "{";
  "    Lod lod = Lod::None;";
  "    bool dc = false;";
  "";
  "    if (equal(token, "".LZ"")) {";
  "        lod = Lod::LZ;";
  "        token = ctx.tokenize();";
  "    } else if (equal(token, "".LL"")) {";
  "        lod = Lod::LL;";
  "        token = ctx.tokenize();";
  "    }";
  "    if (equal(token, "".DC"")) {";
  "        dc = true;";
  "        token = ctx.tokenize();";
  "    }";
  "    // Write in the opcode as a payload, these values don't match the actual ISA";
  "    op.add_bits(((dc ? 0b100ULL : 0ULL) | static_cast<uint64_t>(lod)) << address);";
  "    return {};";
  "}";
  "";
  "template <int address>";
  "DEFINE_OPERAND(tlds_type)";
  "{";
  "    static constexpr const char* table[]{";
  "        ""1D"", ""2D"", ""3D"", ""ARRAY_2D"", nullptr,";
  "    };";
  "    const bool ll = ((op.value >> address) & 1) != 0;";
  "    const bool aoffi = ((op.value >> (address + 1)) & 1) != 0;";
  "    const bool ms = ((op.value >> (address + 2)) & 1) != 0;";
  "    op.value &= ~(uint64_t(0b111) << address);";
  "";
  "    const std::optional<uint64_t> type = find_in_table(token, table, """");";
  "    if (!type) {";
  "        return fail(token, ""expected 1D, 2D, ARRAY_2D, or 3D"");";
  "    }";
  "    uint64_t mode = 0;";
  "    switch (*type) {";
  "    case 0: // 1D";
  "        if (aoffi) {";
  "            return fail(token, ""1D has no AOFFI"");";
  "        }";
  "        if (ms) {";
  "            return fail(token, ""1D has no MS"");";
  "        }";
  "        mode = ll ? 1 : 0;";
  "        break;";
  "    case 1: // 2D";
  "        if (aoffi && ms) {";
  "            return fail(token, ""AOFFI and MS can't be used at the same time"");";
  "        }";
  "        if (ll) {";
  "            if (ms) {";
  "                return fail(token, ""LL can't be used with MS in 2D"");";
  "            }";
  "            mode = aoffi ? 12 : 5;";
  "        } else {";
  "            if (aoffi) {";
  "                mode = 4;";
  "            } else if (ms) {";
  "                mode = 6;";
  "            } else {";
  "                mode = 2;";
  "            }";
  "        }";
  "        break;";
  "    case 2: // 3D";
  "        if (aoffi) {";
  "            return fail(token, ""AOFFI can't be used in 3D"");";
  "        }";
  "        if (ms) {";
  "            return fail(token, ""MS can't be used in 3D"");";
  "        }";
  "        mode = 7;";
  "        break;";
  "    case 3: // ARRAY_2D";
  "        if (aoffi) {";
  "            return fail(token, ""AOFFI can't be used in ARRAY_2D"");";
  "        }";
  "        if (ms) {";
  "            return fail(token, ""MS can't be used in ARRAY_2D"");";
  "        }";
  "        mode = 8;";
  "        break;";
  "    }";
  "    op.add_bits(mode << address);";
  "    token = ctx.tokenize();";
  "    return {};";
  "}";
  "";
  "template <int address>";
  "DEFINE_OPERAND(texs_type)";
  "{";
  "    static constexpr const char* table[]{";
  "        ""1D"", ""2D"", """", """", """", """", """", ""ARRAY_2D"", """", """", ""3D"", """", ""CUBE"", """", nullptr,";
  "    };";
  "    const std::optional<uint64_t> type = find_in_table(token, table, """");";
  "    if (!type) {";
  "        return fail(token, ""expected 1D, 2D, ARRAY_2D, 3D, or CUBE"");";
  "    }";
  "    const Lod lod = static_cast<Lod>((op.value >> address) & 0b011);";
  "    const bool dc = ((op.value >> address) & 0b100) != 0;";
  "    op.value &= ~(uint64_t{0b111} << address);";
  "";
  "    switch (*type) {";
  "    case 0: // 1D";
  "        if (lod != Lod::LZ || dc) {";
  "            return fail(token, ""1D is only valid with LZ and no-DC"");";
  "        }";
  "        op.add_bits(0x0000000000000000ULL);";
  "        break;";
  "    case 1: // 2D";
  "        if (dc) {";
  "            switch (lod) {";
  "            case Lod::None:";
  "                op.add_bits(0x0080000000000000ULL);";
  "                break;";
  "            case Lod::LZ:";
  "                op.add_bits(0x00C0000000000000ULL);";
  "                break;";
  "            case Lod::LL:";
  "                op.add_bits(0x00A0000000000000ULL);";
  "                break;";
  "            }";
  "        } else {";
  "            switch (lod) {";
  "            case Lod::None:";
  "                op.add_bits(0x0020000000000000ULL);";
  "                break;";
  "            case Lod::LZ:";
  "                op.add_bits(0x0040000000000000ULL);";
  "                break;";
  "            case Lod::LL:";
  "                op.add_bits(0x0060000000000000ULL);";
  "                break;";
  "            }";
  "        }";
  "        break;";
  "    case 7: // ARRAY_2D";
  "        if (dc) {";
  "            if (lod != Lod::LZ) {";
  "                return fail(token, ""DC ARRAY_2D is only valid with LZ"");";
  "            }";
  "            op.add_bits(0x0120000000000000ULL);";
  "        } else {";
  "            switch (lod) {";
  "            case Lod::None:";
  "                op.add_bits(0x00E0000000000000ULL);";
  "                break;";
  "            case Lod::LZ:";
  "                op.add_bits(0x0100000000000000ULL);";
  "                break;";
  "            default:";
  "                return fail(token, ""LL ARRAY_2D is illegal"");";
  "            }";
  "        }";
  "        break;";
  "    case 10: // 3D";
  "        if (dc) {";
  "            return fail(token, ""3D cannot be DC"");";
  "        }";
  "        switch (lod) {";
  "        case Lod::None:";
  "            op.add_bits(0x0140000000000000ULL);";
  "            break;";
  "        case Lod::LZ:";
  "            op.add_bits(0x0160000000000000ULL);";
  "            break;";
  "        default:";
  "            return fail(token, ""3D can only have the default lod or LZ"");";
  "        }";
  "        break;";
  "    case 12: // CUBE";
  "        if (dc) {";
  "            return fail(token, ""CUBE cannot be DC"");";
  "        }";
  "        switch (lod) {";
  "        case Lod::None:";
  "            op.add_bits(0x0180000000000000ULL);";
  "            break;";
  "        case Lod::LL:";
  "            op.add_bits(0x01A0000000000000ULL);";
  "            break;";
  "        default:";
  "            return fail(token, ""CUBE can only have the default lod or LL"");";
  "        }";
  "        break;";
  "    }";
  "    token = ctx.tokenize();";
  "    return {};";
  "}";
  "";
  "DEFINE_OPERAND(texs_swizzle)";
  "{";
  "    if (((op.value >> 28) & 0xFF) == 0xFF) {";
  "        if (equal(token, ""R"")) {";
  "            op.add_bits(0x0000000000000000ULL);";
  "        } else if (equal(token, ""G"")) {";
  "            op.add_bits(0x0004000000000000ULL);";
  "        } else if (equal(token, ""B"")) {";
  "            op.add_bits(0x0008000000000000ULL);";
  "        } else if (equal(token, ""A"")) {";
  "            op.add_bits(0x000C000000000000ULL);";
  "        } else if (equal(token, ""RG"")) {";
  "            op.add_bits(0x0010000000000000ULL);";
  "        } else if (equal(token, ""RA"")) {";
  "            op.add_bits(0x0014000000000000ULL);";
  "        } else if (equal(token, ""GA"")) {";
  "            op.add_bits(0x0018000000000000ULL);";
  "        } else if (equal(token, ""BA"")) {";
  "            op.add_bits(0x001C000000000000ULL);";
  "        } else {";
  "            return fail(token, ""invalid RGBA swizzle"");";
  "        }";
  "    } else {";
  "        if (equal(token, ""RGB"")) {";
  "            op.add_bits(0x0000000000000000ULL);";
  "        } else if (equal(token, ""RGA"")) {";
  "            op.add_bits(0x0004000000000000ULL);";
  "        } else if (equal(token, ""RBA"")) {";
  "            op.add_bits(0x0008000000000000ULL);";
  "        } else if (equal(token, ""GBA"")) {";
  "            op.add_bits(0x000C000000000000ULL);";
  "        } else if (equal(token, ""RGBA"")) {";
  "            op.add_bits(0x0010000000000000ULL);";
  "        } else {";
  "            return fail(token, ""invalid RGBA swizzle"");";
  "        }";
  "    }";
  "    token = ctx.tokenize();";
  "    return {};";
  "}";
  "";
  "namespace tld4";
  "{";
  "    template <int address>";
  "    DEFINE_DOT_TABLE(component, -1, address, ""R"", ""G"", ""B"", ""A"");";
  "";
  "    template <int address>";
  "    DEFINE_DOT_TABLE(offset, 0, address, """", ""AOFFI"", ""PTP"");";
  "}";
  "";
  "namespace tld";
  "{";
  "    template <int address>";
  "    DEFINE_DOT_TABLE(lod, -1, address, ""LZ"", ""LL"");";
  "}";
  "";
  "template <int address>";
  "DEFINE_FLAG(ms, "".MS"", address);";
  "";
  "template <int address>";
  "DEFINE_FLAG(cl, "".CL"", address);";
  "";
  "namespace txq";
  "{";
  "    DEFINE_OPERAND(mode)";
  "    {";
  "        static const char* modes[]{";
  "            """",";
  "            ""TEX_HEADER_DIMENSION"",";
  "            ""TEX_HEADER_TEXTURE_TYPE"",";
  "            """",";
  "            """",";
  "            ""TEX_HEADER_SAMPLER_POS"",";
  "            nullptr,";
  "        };";
  "        const std::optional<uint64_t> result = find_in_table(token, modes, """");";
  "        if (!result) {";
  "            return fail(token, ""invalid mode"");";
  "        }";
  "        op.add_bits(*result << 22);";
  "";
  "        token = ctx.tokenize();";
  "        return {};";
  "    }";
  "}"
].

(** /repo/src/table.h:1-303. *)
Definition table_h : list string := [
  "#pragma once";
  "";
  "#include <array>";
  "#include <cstdint>";
  "#include <vector>";
  "";
  "#include ""operand.h""";
  "";
  "#define INSN(opcode, flags, mnemonic, ...)                                                         \";
  "    insn                                                                                           \";
  "    {                                                                                              \";
  "        opcode, mnemonic, flags,                                                                   \";
  "        {                                                                                          \";
  "            __VA_ARGS__                                                                            \";
  "        }                                                                                          \";
  "    }";
  "";
  "constexpr unsigned NO_PRED = 1;";
  "constexpr unsigned RD = 2;";
  "constexpr unsigned WR = 4;";
  "";
  "struct insn";
  "{";
  "    uint64_t opcode;";
  "    char mnemonic[12];";
  "    unsigned flags;";
  "    std::vector<operand> operands;";
  "};";
  "";
  "// clang-format off";
  "const insn table[]{";
  "    INSN(0xEFA0000000000000ULL, 0, ""AL2P"", al2p::o, amem::size, pred<44>, comma, dgpr<0>, comma, sgpr<8>, comma, sinteger<11, 20>),";
  "    INSN(0xEFA0700000000000ULL, 0, ""AL2P"", al2p::o, amem::size,                  dgpr<0>, comma, sgpr<8>, comma, sinteger<11, 20>),";
  "    INSN(0xEFA000000000FF00ULL, 0, ""AL2P"", al2p::o, amem::size, pred<44>, comma, dgpr<0>,                 comma, sinteger<11, 20>),";
  "    INSN(0xEFA070000000FF00ULL, 0, ""AL2P"", al2p::o, amem::size,                  dgpr<0>,                 comma, sinteger<11, 20>),";
  "    INSN(0xEFA0000000000000ULL, 0, ""AL2P"", al2p::o, amem::size, pred<44>, comma, dgpr<0>, comma, sgpr<8>),";
  "    INSN(0xEFA0700000000000ULL, 0, ""AL2P"", al2p::o, amem::size,                  dgpr<0>, comma, sgpr<8>),";
  "    INSN(0xEFA000000000FF00ULL, 0, ""AL2P"", al2p::o, amem::size, pred<44>, comma, dgpr<0>),";
  "    INSN(0xEFA070000000FF00ULL, 0, ""AL2P"", al2p::o, amem::size,                  dgpr<0>),";
  "    INSN(0xEFD8000000000000ULL, 0, ""ALD"", ald::o,            ald::size, dgpr<0>, comma, ald::imm_attr,   default_rz<39>),";
  "    INSN(0xEFD8000000000000ULL, 0, ""ALD"", ald::o,            ald::size, dgpr<0>, comma, ald::imm_attr,   comma, sgpr<39>),";
  "    INSN(0xEFD8000000000000ULL, 0, ""ALD"", ald::o, ald::p,    ald::size, dgpr<0>, comma, ald::patch_attr, default_rz<39>),";
  "    INSN(0xEFD8000000000000ULL, 0, ""ALD"", ald::o, ald::p,    ald::size, dgpr<0>, comma, ald::patch_attr, comma, sgpr<39>),";
  "    INSN(0xEFD8000000000000ULL, 0, ""ALD"", ald::o, ald::phys, ald::size, dgpr<0>, comma, ald::phys_attr,  default_rz<39>),";
  "    INSN(0xEFD8000000000000ULL, 0, ""ALD"", ald::o, ald::phys, ald::size, dgpr<0>, comma, ald::phys_attr,  comma, sgpr<39>),";
  "    INSN(0xEFF0000000000000ULL, 0, ""AST"",            ald::size, ald::imm_attr,   comma, sgpr<0>, default_rz<39>),";
  "    INSN(0xEFF0000000000000ULL, 0, ""AST"",            ald::size, ald::imm_attr,   comma, sgpr<0>, comma, sgpr<39>),";
  "    INSN(0xEFF0000000000000ULL, 0, ""AST"", ald::p,    ald::size, ald::patch_attr, comma, sgpr<0>, default_rz<39>),";
  "    INSN(0xEFF0000000000000ULL, 0, ""AST"", ald::phys, ald::size, ald::phys_attr,  comma, sgpr<0>, default_rz<39>),";
  "    INSN(0xEFF0000000000000ULL, 0, ""AST"", ald::phys, ald::size, ald::phys_attr,  comma, sgpr<0>, comma, sgpr<39>),";
  "    INSN(0xED00000000000000ULL, RD|WR, ""ATOM"", atom::e, atom::operation, atomic_size<49>, dgpr<0>, comma, memory::address<true, 28, 20, 0>, comma, sgpr<20>),";
  "    INSN(0xEC00000000000000ULL, RD|WR, ""ATOMS"", atoms::operation, atoms::size, dgpr<0>, comma, memory::address<true, 30, 22, 2>, comma, sgpr<20>),";
  "    INSN(0xF0B8000000000000ULL, 0, ""B2R"",              dgpr<0>, comma, uinteger<8, 8>),";
  "    INSN(0xF0B8000000000000ULL, 0, ""B2R"", b2r::warp,   dgpr<0>),";
  "    INSN(0xF0B8000000000000ULL, 0, ""B2R"", b2r::result, dgpr<0>, comma, pred<45, true>),";
  "    // TODO: BAR";
  "    INSN(0x5C00000000000000ULL, 0, ""BFE"", bfe::format, brev<40>, dgpr<0>, cc, comma, sgpr<8>, comma, sgpr<20>),";
  "    INSN(0x4C00000000000000ULL, 0, ""BFE"", bfe::format, brev<40>, dgpr<0>, cc, comma, sgpr<8>, comma, cbuf),";
  "    INSN(0x3800000000000000ULL, 0, ""BFE"", bfe::format, brev<40>, dgpr<0>, cc, comma, sgpr<8>, comma, imm),";
  "    INSN(0x5BF0000000000000ULL, 0, ""BFI"", dgpr<0>, cc, comma, sgpr<8>, comma, sgpr<20>, comma, sgpr<39>),";
  "    INSN(0x53F0000000000000ULL, 0, ""BFI"", dgpr<0>, cc, comma, sgpr<8>, comma, sgpr<39>, comma, cbuf),";
  "    INSN(0x4BF0000000000000ULL, 0, ""BFI"", dgpr<0>, cc, comma, sgpr<8>, comma, cbuf,     comma, sgpr<39>),";
  "    INSN(0x36F0000000000000ULL, 0, ""BFI"", dgpr<0>, cc, comma, sgpr<8>, comma, imm,      comma, sgpr<39>),";
  "    INSN(0xE3A0000000000000ULL, 0, ""BPT"", bpt::mode, uinteger<20, 20>),";
  "    INSN(0xE3A0000000000000ULL, 0, ""BPT"", bpt::mode),";
  "    INSN(0x5098000000000000ULL, 0, ""CSET"", bf<44>, cc_tests, bop<45>, dgpr<0>, cc, comma, cc_text, comma, pred<39, true>),";
  "    INSN(0x50A0000000000000ULL, 0, ""CSETP"", cc_tests, bop<45>, pred<3>, comma, pred<0>, comma, cc_text, comma, pred<39, true>),";
  "    INSN(0x5C70000000000000ULL, 0, ""DADD"", fp_rounding<39>, dgpr<0>, cc, comma, neg<48>, abs<46, sgpr<8>>, comma, neg<45>, abs<49, sgpr<20>>),";
  "    INSN(0x4C70000000000000ULL, 0, ""DADD"", fp_rounding<39>, dgpr<0>, cc, comma, neg<48>, abs<46, sgpr<8>>, comma, neg<45>, abs<49, cbuf>),";
  "    INSN(0x3870000000000000ULL, 0, ""DADD"", fp_rounding<39>, dgpr<0>, cc, comma, neg<48>, abs<46, sgpr<8>>, comma, dimm20, post_neg<45>, post_abs<49>),";
  "    INSN(0x5B70000000000000ULL, 0, ""DFMA"", fp_rounding<50>, dgpr<0>, cc, comma, sgpr<8>, comma, neg<48>, sgpr<20>, comma, neg<49>, sgpr<39>),";
  "    INSN(0x5370000000000000ULL, 0, ""DFMA"", fp_rounding<50>, dgpr<0>, cc, comma, sgpr<8>, comma, neg<48>, sgpr<39>, comma, neg<49>, cbuf),";
  "    INSN(0x4B70000000000000ULL, 0, ""DFMA"", fp_rounding<50>, dgpr<0>, cc, comma, sgpr<8>, comma, neg<48>, cbuf,     comma, neg<49>, sgpr<39>),";
  "    INSN(0x3670000000000000ULL, 0, ""DFMA"", fp_rounding<50>, dgpr<0>, cc, comma, sgpr<8>, comma, dimm20, post_neg<48>, comma, neg<49>, sgpr<39>),";
  "    INSN(0x5C50000000000000ULL, 0, ""DMNMX"", dgpr<0>, cc, comma, neg<48>, abs<46, sgpr<8>>, comma, neg<45>, abs<49, sgpr<20>>, comma, pred<39, true>),";
  "    INSN(0x4C50000000000000ULL, 0, ""DMNMX"", dgpr<0>, cc, comma, neg<48>, abs<46, sgpr<8>>, comma, neg<45>, abs<49, cbuf>, comma, pred<39, true>),";
  "    INSN(0x3850000000000000ULL, 0, ""DMNMX"", dgpr<0>, cc, comma, neg<48>, abs<46, sgpr<8>>, comma, dimm20, post_neg<45>, post_abs<49>, comma, pred<39, true>),";
  "    INSN(0x5C80000000000000ULL, 0, ""DMUL"", fp_rounding<39>, dgpr<0>, cc, comma, sgpr<8>, comma, neg<48>, sgpr<20>),";
  "    INSN(0x4C80000000000000ULL, 0, ""DMUL"", fp_rounding<39>, dgpr<0>, cc, comma, sgpr<8>, comma, neg<48>, cbuf),";
  "    INSN(0x3880000000000000ULL, 0, ""DMUL"", fp_rounding<39>, dgpr<0>, cc, comma, sgpr<8>, comma, dimm20, post_neg<48>),";
  "    INSN(0x5900000000000000ULL, 0, ""DSET"", bf<52>, float_compare<48>, bop<45>, dgpr<0>, cc, comma, neg<43>, abs<54, sgpr<8>>, comma, neg<53>, abs<44, sgpr<20>>, comma, pred<39, true>),";
  "    INSN(0x4900000000000000ULL, 0, ""DSET"", bf<52>, float_compare<48>, bop<45>, dgpr<0>, cc, comma, neg<43>, abs<54, sgpr<8>>, comma, neg<53>, abs<44, cbuf>,     comma, pred<39, true>),";
  "    INSN(0x3200000000000000ULL, 0, ""DSET"", bf<52>, float_compare<48>, bop<45>, dgpr<0>, cc, comma, neg<43>, abs<54, sgpr<8>>, comma, dimm20, post_neg<53>, post_abs<44>, comma, pred<39, true>),";
  "    INSN(0x5B80000000000000ULL, 0, ""DSETP"", float_compare<48>, bop<45>, pred<3>, comma, pred<0>, comma, neg<43>, abs<7, sgpr<8>>, comma, neg<6>, abs<44, sgpr<20>>, comma, pred<39, true>),";
  "    INSN(0x4B80000000000000ULL, 0, ""DSETP"", float_compare<48>, bop<45>, pred<3>, comma, pred<0>, comma, neg<43>, abs<7, sgpr<8>>, comma, neg<6>, abs<44, cbuf>,     comma, pred<39, true>),";
  "    INSN(0x3680000000000000ULL, 0, ""DSETP"", float_compare<48>, bop<45>, pred<3>, comma, pred<0>, comma, neg<43>, abs<7, sgpr<8>>, comma, dimm20, post_neg<6>, post_abs<44>, comma, pred<39, true>),";
  "    INSN(0x50B0000000000F00ULL, 0, ""NOP"", nop::trig),";
  "    INSN(0x50B0000000000000ULL, 0, ""NOP"", nop::trig, cc_text, cc_tests),";
  "    INSN(0x50B0000000000F00ULL, 0, ""NOP"", nop::trig, nop::mask),";
  "    INSN(0x50B0000000000000ULL, 0, ""NOP"", nop::trig, cc_text, cc_tests, comma, nop::mask),";
  "    INSN(0x5C98078000000000ULL, 0, ""MOV"", dgpr<0>, comma, sgpr<20>),";
  "    INSN(0x5C98000000000000ULL, 0, ""MOV"", dgpr<0>, comma, sgpr<20>, comma, mask4<39>),";
  "    INSN(0x4C98078000000000ULL, 0, ""MOV"", dgpr<0>, comma, cbuf),";
  "    INSN(0x4C98000000000000ULL, 0, ""MOV"", dgpr<0>, comma, cbuf, comma, mask4<39>),";
  "    INSN(0x3898078000000000ULL, 0, ""MOV"", dgpr<0>, comma, imm),";
  "    INSN(0x3898000000000000ULL, 0, ""MOV"", dgpr<0>, comma, imm, comma, mask4<39>),";
  "    INSN(0x010000000000F000ULL, 0, ""MOV32I"", dgpr<0>, comma, uimm32),";
  "    INSN(0x0100000000000000ULL, 0, ""MOV32I"", dgpr<0>, comma, uimm32, comma, mask4<12>),";
  "    INSN(0x5080000000000000ULL, 0, ""MUFU"", mufu::operation, sat<50>, dgpr<0>, comma, neg<48>, abs<46, sgpr<8>>),";
  "    INSN(0xF0C8000000000000ULL, 0, ""S2R"", dgpr<0>, comma, s2r),";
  "    INSN(0x5C58000000000000ULL, 0, ""FADD"", ftz<44>, fp_rounding<39>, sat<50>, dgpr<0>, cc, comma, neg<48>, abs<46, sgpr<8>>, comma, neg<45>, abs<49, sgpr<20>>),";
  "    INSN(0x4C58000000000000ULL, 0, ""FADD"", ftz<44>, fp_rounding<39>, sat<50>, dgpr<0>, cc, comma, neg<48>, abs<46, sgpr<8>>, comma, neg<45>, abs<49, cbuf>),";
  "    INSN(0x3858000000000000ULL, 0, ""FADD"", ftz<44>, fp_rounding<39>, sat<50>, dgpr<0>, cc, comma, neg<48>, abs<46, sgpr<8>>, comma, fimm, post_neg<45>, post_abs<49>),";
  "    INSN(0x0800000000000000ULL, 0, ""FADD32I"", ftz<55>, dgpr<0>, cc<52>, comma, neg<56>, abs<54, sgpr<8>>, comma, fimm32, post_neg<53>, post_abs<57>),";
  "    INSN(0x5980000000000000ULL, 0, ""FFMA"", fmul::fmz<53>, fp_rounding<51>, sat<50>, dgpr<0>, cc, comma, sgpr<8>, comma, neg<48>, sgpr<20>,           comma, neg<49>, sgpr<39>),";
  "    INSN(0x5180000000000000ULL, 0, ""FFMA"", fmul::fmz<53>, fp_rounding<51>, sat<50>, dgpr<0>, cc, comma, sgpr<8>, comma, neg<48>, sgpr<39>,           comma, neg<49>, cbuf),";
  "    INSN(0x4980000000000000ULL, 0, ""FFMA"", fmul::fmz<53>, fp_rounding<51>, sat<50>, dgpr<0>, cc, comma, sgpr<8>, comma, neg<48>, cbuf,               comma, neg<49>, sgpr<39>),";
  "    INSN(0x3280000000000000ULL, 0, ""FFMA"", fmul::fmz<53>, fp_rounding<51>, sat<50>, dgpr<0>, cc, comma, sgpr<8>, comma,          fimm, post_neg<48>, comma, neg<49>, sgpr<39>),";
  "    INSN(0x0c00000000000000ull, 0, ""FFMA32I"", fmul::fmz<53>, sat<55>, dgpr<0>, cc<52>, comma, neg<56>, sgpr<8>, comma, fimm32, comma, neg<57>, mirror_dgpr<0>),";
  "    INSN(0x5C60000000000000ULL, 0, ""FMNMX"", ftz<44>, dgpr<0>, cc, comma, neg<48>, abs<46, sgpr<8>>, comma, neg<45>, abs<49, sgpr<20>>, comma, pred<39, true>),";
  "    INSN(0x4C60000000000000ULL, 0, ""FMNMX"", ftz<44>, dgpr<0>, cc, comma, neg<48>, abs<46, sgpr<8>>, comma, neg<45>, abs<49, cbuf>,     comma, pred<39, true>),";
  "    INSN(0x3860000000000000ULL, 0, ""FMNMX"", ftz<44>, dgpr<0>, cc, comma, neg<48>, abs<46, sgpr<8>>, comma, fimm, post_neg<45>, post_abs<49>, comma, pred<39, true>),";
  "    INSN(0x5C68000000000000ULL, 0, ""FMUL"", fmul::fmz<44>, fmul::scale, fp_rounding<39>, sat<50>, dgpr<0>, cc, comma, sgpr<8>, comma, neg<48>, sgpr<20>),";
  "    INSN(0x4C68000000000000ULL, 0, ""FMUL"", fmul::fmz<44>, fmul::scale, fp_rounding<39>, sat<50>, dgpr<0>, cc, comma, sgpr<8>, comma, neg<48>, cbuf),";
  "    INSN(0x3868000000000000ULL, 0, ""FMUL"", fmul::fmz<44>, fmul::scale, fp_rounding<39>, sat<50>, dgpr<0>, cc, comma, sgpr<8>, comma, fimm, post_neg<48>),";
  "    INSN(0x1E00000000000000ULL, 0, ""FMUL32I"", fmul::fmz<53>, sat<55>, dgpr<0>, cc<52>, comma, sgpr<8>, comma, fimm32),";
  "    INSN(0x5800000000000000ULL, 0, ""FSET"", bf<52>, float_compare<48>, ftz<55>, bop<45>, dgpr<0>, cc, comma, neg<43>, abs<54, sgpr<8>>, comma, neg<53>, abs<44, sgpr<20>>, comma, pred<39, true>),";
  "    INSN(0x4800000000000000ULL, 0, ""FSET"", bf<52>, float_compare<48>, ftz<55>, bop<45>, dgpr<0>, cc, comma, neg<43>, abs<54, sgpr<8>>, comma, neg<53>, abs<44, cbuf>,     comma, pred<39, true>),";
  "    INSN(0x3000000000000000ULL, 0, ""FSET"", bf<52>, float_compare<48>, ftz<55>, bop<45>, dgpr<0>, cc, comma, neg<43>, abs<54, sgpr<8>>, comma, fimm, post_neg<53>, post_abs<44>, comma, pred<39, true>),";
  "    INSN(0x5BB0000000000000ULL, 0, ""FSETP"", float_compare<48>, ftz<47>, bop<45>, pred<3>, comma, pred<0>, comma, neg<43>, abs<7, sgpr<8>>, comma, neg<6>, abs<44, sgpr<20>>, comma, pred<39, true>),";
  "    INSN(0x4BB0000000000000ULL, 0, ""FSETP"", float_compare<48>, ftz<47>, bop<45>, pred<3>, comma, pred<0>, comma, neg<43>, abs<7, sgpr<8>>, comma, neg<6>, abs<44, cbuf>, comma, pred<39, true>),";
  "    INSN(0x36B0000000000000ULL, 0, ""FSETP"", float_compare<48>, ftz<47>, bop<45>, pred<3>, comma, pred<0>, comma, neg<43>, abs<7, sgpr<8>>, comma, fimm, post_neg<6>, post_abs<44>, comma, pred<39, true>),";
  "    INSN(0x5B00000000000000ULL, 0, ""XMAD"", xmad::signs, psl<36>, xmad::mode_a, mrg<37>, x<38>, dgpr<0>, cc, comma, sgpr<8>, half<53>, comma, sgpr<20>, half<35>, comma, sgpr<39>),";
  "    INSN(0x5100000000000000ULL, 0, ""XMAD"", xmad::signs,          xmad::mode_b,          x<54>, dgpr<0>, cc, comma, sgpr<8>, half<53>, comma, sgpr<39>, half<52>, comma,     cbuf),";
  "    INSN(0x4E00000000000000ULL, 0, ""XMAD"", xmad::signs, psl<55>, xmad::mode_b, mrg<56>, x<54>, dgpr<0>, cc, comma, sgpr<8>, half<53>, comma,     cbuf, half<52>, comma, sgpr<39>),";
  "    INSN(0x3600000000000000ULL, 0, ""XMAD"", xmad::signs, psl<36>, xmad::mode_a, mrg<37>, x<38>, dgpr<0>, cc, comma, sgpr<8>, half<53>, comma,   uimm16,           comma, sgpr<39>),";
  "    INSN(0x5C28000000000000ULL, 0, ""SHR"", shr::format, shr::mode, shr::xmode, brev<40>, dgpr<0>, cc, comma, sgpr<8>, comma, sgpr<20>),";
  "    INSN(0x4C28000000000000ULL, 0, ""SHR"", shr::format, shr::mode, shr::xmode, brev<40>, dgpr<0>, cc, comma, sgpr<8>, comma, cbuf),";
  "    INSN(0x3828000000000000ULL, 0, ""SHR"", shr::format, shr::mode, shr::xmode, brev<40>, dgpr<0>, cc, comma, sgpr<8>, comma, imm),";
  "    INSN(0x5CF8000000000000ULL, 0, ""SHF"", shf::r, w<50>, shf::max_shift, shf::xmode, dgpr<0>, cc, comma, sgpr<8>, comma,        sgpr<20>, comma, sgpr<39>),";
  "    INSN(0x5BF8000000000000ULL, 0, ""SHF"", shf::l, w<50>, shf::max_shift, shf::xmode, dgpr<0>, cc, comma, sgpr<8>, comma,        sgpr<20>, comma, sgpr<39>),";
  "    INSN(0x38F8000000000000ULL, 0, ""SHF"", shf::r, w<50>, shf::max_shift, shf::xmode, dgpr<0>, cc, comma, sgpr<8>, comma, uinteger<6, 20>, comma, sgpr<39>),";
  "    INSN(0x36F8000000000000ULL, 0, ""SHF"", shf::l, w<50>, shf::max_shift, shf::xmode, dgpr<0>, cc, comma, sgpr<8>, comma, uinteger<6, 20>, comma, sgpr<39>),";
  "    INSN(0x5CA8000000000000ULL, 0, ""F2F"", ftz<44>, float_format<8>, float_format<10>, f2f::rounding, sat<50>, dgpr<0>, cc, comma, neg<45>, abs<49, sgpr<20>>, half<41>),";
  "    INSN(0x4CA8000000000000ULL, 0, ""F2F"", ftz<44>, float_format<8>, float_format<10>, f2f::rounding, sat<50>, dgpr<0>, cc, comma, neg<45>, abs<49, cbuf>, half<41>),";
  "    INSN(0x38A8000000000000ULL, 0, ""F2F"", ftz<44>, float_format<8>, float_format<10>, f2f::rounding, sat<50>, dgpr<0>, cc, comma, fimm, post_neg<45>, post_abs<49>, half<41>),";
  "    INSN(0x5CB0000000000000ULL, 0, ""F2I"", ftz<44>, f2i::int_format, float_format<10>, f2i::rounding, dgpr<0>, cc, comma, neg<45>, abs<49, sgpr<20>>, half<41>),";
  "    INSN(0x4CB0000000000000ULL, 0, ""F2I"", ftz<44>, f2i::int_format, float_format<10>, f2i::rounding, dgpr<0>, cc, comma, neg<45>, abs<49, cbuf>, half<41>),";
  "    // TODO: F2I immediate";
  "    INSN(0x5CB8000000000000ULL, 0, ""I2F"", float_format<8>, i2f::int_format, fp_rounding<39>, dgpr<0>, cc, comma, neg<45>, abs<49, sgpr<20>>, i2f::selector),";
  "    INSN(0x4CB8000000000000ULL, 0, ""I2F"", float_format<8>, i2f::int_format, fp_rounding<39>, dgpr<0>, cc, comma, neg<45>, abs<49, cbuf>, i2f::selector),";
  "    INSN(0x38B8000000000000ULL, 0, ""I2F"", float_format<8>, i2f::int_format, fp_rounding<39>, dgpr<0>, cc, comma, imm, post_neg<45>, post_abs<49>, i2f::selector),";
  "    INSN(0x5CE0000000000000ULL, 0, ""I2I"", i2i::format<8, 12>, i2i::format<10, 13>, sat<50>, dgpr<0>, cc, comma, neg<45>, abs<49, sgpr<20>>, i2i::selector),";
  "    INSN(0x4CE0000000000000ULL, 0, ""I2I"", i2i::format<8, 12>, i2i::format<10, 13>, sat<50>, dgpr<0>, cc, comma, neg<45>, abs<49, cbuf>, i2i::selector),";
  "    INSN(0x38E0000000000000ULL, 0, ""I2I"", i2i::format<8, 12>, i2i::format<10, 13>, sat<50>, dgpr<0>, cc, comma, imm, post_neg<45>, post_abs<49>),";
  "    INSN(0x5D10000000000000ULL, 0, ""HADD2"", fp16::merge<49>, ftz<39>, sat<32>, dgpr<0>, comma, neg<43>, abs<44, sgpr<8>>, fp16::swizzle<47>, comma, neg<31>, abs<30, sgpr<20>>, fp16::swizzle<28>),";
  "    INSN(0x7A80000000000000ULL, 0, ""HADD2"", fp16::merge<49>, ftz<39>, sat<52>, dgpr<0>, comma, neg<43>, abs<44, sgpr<8>>, fp16::swizzle<47>, comma, neg<56>, abs<54, cbuf>),";
  "    INSN(0x7A00000000000000ULL, 0, ""HADD2"", fp16::merge<49>, ftz<39>, sat<52>, dgpr<0>, comma, neg<43>, abs<44, sgpr<8>>, fp16::swizzle<47>, comma, fimm9_high<56>, comma, fimm9_low<29>),";
  "    INSN(0x2C00000000000000ULL, 0, ""HADD2_32I"", ftz<55>, sat<52>, dgpr<0>, comma, neg<56>, sgpr<8>, fp16::swizzle<53>, comma, fimm16_high, comma, fimm16_low),";
  "    INSN(0x7080000000000000ULL, 0, ""HFMA2"", fp16::merge<49>, fp16::control<57>, sat<52>, dgpr<0>, comma, sgpr<8>, fp16::swizzle<47>, comma, neg<56>, cbuf, comma, neg<51>, sgpr<39>, fp16::swizzle<53>),";
  "    INSN(0x7000000000000000ULL, 0, ""HFMA2"", fp16::merge<49>, fp16::control<57>, sat<52>, dgpr<0>, comma, sgpr<8>, fp16::swizzle<47>, comma, fimm9_high<56>, comma, fimm9_low<29>, comma, neg<51>, sgpr<39>, fp16::swizzle<53>),";
  "    INSN(0x6080000000000000ULL, 0, ""HFMA2"", fp16::merge<49>, fp16::control<57>, sat<52>, dgpr<0>, comma, sgpr<8>, fp16::swizzle<47>, comma, neg<56>, sgpr<39>, fp16::swizzle<53>, comma, neg<51>, cbuf),";
  "    INSN(0x5D00000000000000ULL, 0, ""HFMA2"", fp16::merge<49>, fp16::control<37>, sat<32>, dgpr<0>, comma, sgpr<8>, fp16::swizzle<47>, comma, neg<31>, sgpr<20>, fp16::swizzle<28>, comma, neg<30>, sgpr<39>, fp16::swizzle<35>),";
  "    INSN(0x2800000000000000ULL, 0, ""HFMA2_32I"", fp16::control<55>, dgpr<0>, comma, sgpr<8>, fp16::swizzle<53>, comma, fimm16_high, comma, fimm16_low, comma, neg<52>, mirror_dgpr<0>),";
  "    INSN(0x5D08000000000000ULL, 0, ""HMUL2"", fp16::merge<49>, fp16::control<39>, sat<32>, dgpr<0>, comma,          abs<44, sgpr<8>>, fp16::swizzle<47>, comma, neg<31>, abs<30, sgpr<20>>, fp16::swizzle<28>),";
  "    INSN(0x7880000000000000ULL, 0, ""HMUL2"", fp16::merge<49>, fp16::control<39>, sat<52>, dgpr<0>, comma,          abs<44, sgpr<8>>, fp16::swizzle<47>, comma, neg<43>, abs<54, cbuf>),";
  "    INSN(0x7800000000000000ULL, 0, ""HMUL2"", fp16::merge<49>, fp16::control<39>, sat<52>, dgpr<0>, comma, neg<43>, abs<44, sgpr<8>>, fp16::swizzle<47>, comma, fimm9_high<56>, comma, fimm9_low<29>),";
  "    INSN(0x2A00000000000000ULL, 0, ""HMUL2_32I"", fp16::control<55>, sat<52>, dgpr<0>, comma, sgpr<8>, fp16::swizzle<53>, comma, fimm16_high, comma, fimm16_low),";
  "    INSN(0x5D18000000000000ULL, 0, ""HSET2"", bf<49>, float_compare<35>, ftz<50>, bop<45>, dgpr<0>, comma, neg<43>, abs<44, sgpr<8>>, fp16::swizzle<47>, comma, neg<31>, abs<30, sgpr<20>>, fp16::swizzle<28>, comma, pred<39, true>),";
  "    INSN(0x7C80000000000000ULL, 0, ""HSET2"", bf<53>, float_compare<49>, ftz<54>, bop<45>, dgpr<0>, comma, neg<43>, abs<44, sgpr<8>>, fp16::swizzle<47>, comma, neg<56>, cbuf, comma, pred<39, true>),";
  "    INSN(0x7C00000000000000ULL, 0, ""HSET2"", bf<53>, float_compare<49>, ftz<54>, bop<45>, dgpr<0>, comma, neg<43>, abs<44, sgpr<8>>, fp16::swizzle<47>, comma, fimm9_high<56>, comma, fimm9_low<29>, comma, pred<39, true>),";
  "    INSN(0x5D20000000000000ULL, 0, ""HSETP2"", float_compare<35>, h_and<49>, ftz<6>, bop<45>, pred<3>, comma, pred<0>, comma, neg<43>, abs<44, sgpr<8>>, fp16::swizzle<47>, comma, neg<31>, abs<30, sgpr<20>>, fp16::swizzle<28>, comma, pred<39, true>),";
  "    INSN(0x7E80000000000000ULL, 0, ""HSETP2"", float_compare<49>, h_and<53>, ftz<6>, bop<45>, pred<3>, comma, pred<0>, comma, neg<43>, abs<44, sgpr<8>>, fp16::swizzle<47>, comma, neg<56>, abs<54, cbuf>, comma, pred<39, true>),";
  "    INSN(0x7E00000000000000ULL, 0, ""HSETP2"", float_compare<49>, h_and<53>, ftz<6>, bop<45>, pred<3>, comma, pred<0>, comma, neg<43>, abs<44, sgpr<8>>, fp16::swizzle<47>, comma, fimm9_high<56>, comma, fimm9_low<29>, comma, pred<39, true>),";
  "    INSN(0x5090000000000000ULL, 0, ""PSETP"", bop<24>, bop<45>, pred<3>, comma, pred<0>, comma, pred<12, true>, comma, pred<29, true>, comma, pred<39, true>),";
  "    INSN(0x5088000000000000ULL, 0, ""PSET"", bf<44>, bop<24>, bop<45>, dgpr<0>, cc, comma, pred<12, true>, comma, pred<29, true>, comma, pred<39, true>),";
  "    INSN(0x5CE8000000000000ULL, 0, ""P2R"", byte_selector<41>, dgpr<0>, comma, p2r::mode<40>, comma, sgpr<8>, comma, sgpr<20>),";
  "    INSN(0x4CE8000000000000ULL, 0, ""P2R"", byte_selector<41>, dgpr<0>, comma, p2r::mode<40>, comma, sgpr<8>, comma, cbuf),";
  "    INSN(0x38E8000000000000ULL, 0, ""P2R"", byte_selector<41>, dgpr<0>, comma, p2r::mode<40>, comma, sgpr<8>, comma, imm),";
  "    INSN(0x5CF0000000000000ULL, 0, ""R2P"", p2r::mode<40>, comma, sgpr<8>, byte_selector<41>, comma, sgpr<20>),";
  "    INSN(0x4CF0000000000000ULL, 0, ""R2P"", p2r::mode<40>, comma, sgpr<8>, byte_selector<41>, comma, cbuf),";
  "    INSN(0x38F0000000000000ULL, 0, ""R2P"", p2r::mode<40>, comma, sgpr<8>, byte_selector<41>, comma, imm),";
  "    INSN(0x5C10000000000000ULL, 0, ""IADD"", po<48, 49>, sat<50>, x<43>, dgpr<0>, cc, comma, neg<49>, sgpr<8>, comma, neg<48>, sgpr<20>),";
  "    INSN(0x4C10000000000000ULL, 0, ""IADD"", po<48, 49>, sat<50>, x<43>, dgpr<0>, cc, comma, neg<49>, sgpr<8>, comma, neg<48>, cbuf),";
  "    INSN(0x3810000000000000ULL, 0, ""IADD"", po<48, 49>, sat<50>, x<43>, dgpr<0>, cc, comma, neg<49>, sgpr<8>, comma, imm, post_neg<48>),";
  "    INSN(0x1C00000000000000ULL, 0, ""IADD32I"", po<55, 56>, sat<54>, x<53>, dgpr<0>, cc<52>, comma, neg<56>, sgpr<8>, comma, simm32),";
  "    INSN(0x5CC0000000000000ULL, 0, ""IADD3"", iadd3::shift, x<48>, dgpr<0>, cc, comma, neg<51>, sgpr<8>, iadd3::half<35>, comma, neg<50>, sgpr<20>, iadd3::half<33>,   comma, neg<49>, sgpr<39>, iadd3::half<31>),";
  "    INSN(0x4CC0000000000000ULL, 0, ""IADD3"",               x<48>, dgpr<0>, cc, comma, neg<51>, sgpr<8>,                  comma, neg<50>, cbuf,                        comma, neg<49>, sgpr<39>),";
  "    INSN(0x38C0000000000000ULL, 0, ""IADD3"",               x<48>, dgpr<0>, cc, comma, neg<51>, sgpr<8>,                  comma,          uimm_extended, post_neg<50>, comma, neg<49>, sgpr<39>),";
  "    INSN(0x5B40000000000000ULL, 0, ""ICMP"", integer_compare<49>, int_sign, dgpr<0>, comma, sgpr<8>, comma, sgpr<20>, comma, sgpr<39>),";
  "    INSN(0x5340000000000000ULL, 0, ""ICMP"", integer_compare<49>, int_sign, dgpr<0>, comma, sgpr<8>, comma, sgpr<39>, comma, cbuf),";
  "    INSN(0x5340000000000000ULL, 0, ""ICMP"", integer_compare<49>, int_sign, dgpr<0>, comma, sgpr<8>, comma, cbuf,     comma, sgpr<39>),";
  "    INSN(0x3640000000000000ULL, 0, ""ICMP"", integer_compare<49>, int_sign, dgpr<0>, comma, sgpr<8>, comma, imm,      comma, sgpr<39>),";
  "    INSN(0x5C20000000000000ULL, 0, ""IMNMX"", int_sign, imnmx::mode, dgpr<0>, cc, comma, sgpr<8>, comma, sgpr<20>, comma, pred<39, true>),";
  "    INSN(0x4C20000000000000ULL, 0, ""IMNMX"", int_sign, imnmx::mode, dgpr<0>, cc, comma, sgpr<8>, comma, cbuf,     comma, pred<39, true>),";
  "    INSN(0x3820000000000000ULL, 0, ""IMNMX"", int_sign, imnmx::mode, dgpr<0>, cc, comma, sgpr<8>, comma, imm,      comma, pred<39, true>),";
  "    INSN(0x5C18000000000000ULL, 0, ""ISCADD"", po<48, 49>, dgpr<0>, cc, comma, neg<49>, sgpr<8>, comma, neg<48>, sgpr<20>, comma, uinteger<5, 39>),";
  "    INSN(0x4C18000000000000ULL, 0, ""ISCADD"", po<48, 49>, dgpr<0>, cc, comma, neg<49>, sgpr<8>, comma, neg<48>, cbuf,     comma, uinteger<5, 39>),";
  "    INSN(0x3818000000000000ULL, 0, ""ISCADD"", po<48, 49>, dgpr<0>, cc, comma, neg<49>, sgpr<8>, comma, neg<48>, imm,      comma, uinteger<5, 39>),";
  "    INSN(0x5B50000000000000ULL, 0, ""ISET"", bf<44>, integer_compare<49>, int_sign, x<43>, bop<45>, dgpr<0>, cc, comma, sgpr<8>, comma, sgpr<20>, comma, pred<39, true>),";
  "    INSN(0x4B50000000000000ULL, 0, ""ISET"", bf<44>, integer_compare<49>, int_sign, x<43>, bop<45>, dgpr<0>, cc, comma, sgpr<8>, comma, cbuf,     comma, pred<39, true>),";
  "    INSN(0x3650000000000000ULL, 0, ""ISET"", bf<44>, integer_compare<49>, int_sign, x<43>, bop<45>, dgpr<0>, cc, comma, sgpr<8>, comma, imm,      comma, pred<39, true>),";
  "    INSN(0x5B60000000000000ULL, 0, ""ISETP"", integer_compare<49>, int_sign, x<43>, bop<45>, pred<3>, comma, pred<0>, comma, sgpr<8>, comma, sgpr<20>, comma, pred<39, true>),";
  "    INSN(0x4B60000000000000ULL, 0, ""ISETP"", integer_compare<49>, int_sign, x<43>, bop<45>, pred<3>, comma, pred<0>, comma, sgpr<8>, comma, cbuf, comma, pred<39, true>),";
  "    INSN(0x3660000000000000ULL, 0, ""ISETP"", integer_compare<49>, int_sign, x<43>, bop<45>, pred<3>, comma, pred<0>, comma, sgpr<8>, comma, imm, comma, pred<39, true>),";
  "    INSN(0x5C30000000000000ULL, 0, ""FLO"", int_sign, sh<41>, dgpr<0>, cc, comma, tilde<40>, sgpr<20>),";
  "    INSN(0x4C30000000000000ULL, 0, ""FLO"", int_sign, sh<41>, dgpr<0>, cc, comma, tilde<40>, cbuf),";
  "    INSN(0x3830000000000000ULL, 0, ""FLO"", int_sign, sh<41>, dgpr<0>, cc, comma, imm, inv<40>),";
  "    INSN(0x5C08000000000000ULL, 0, ""POPC"", dgpr<0>, comma, tilde<40>, sgpr<20>),";
  "    INSN(0x4C08000000000000ULL, 0, ""POPC"", dgpr<0>, comma, tilde<40>, cbuf),";
  "    INSN(0x3808000000000000ULL, 0, ""POPC"", dgpr<0>, comma, imm, inv<40>),";
  "    INSN(0xEF90000000000000ULL, 0, ""LDC"", ldc::size, ldc::mode, dgpr<0>, comma, ldc::address),";
  "    INSN(0x5BDF000000000000ULL, 0, ""LEA"", lea::hi, x<38>,                  dgpr<0>, cc, comma, neg<37>, sgpr<8>, comma, sgpr<20>, comma, sgpr<39>),";
  "    INSN(0x5BDF000000000000ULL, 0, ""LEA"", lea::hi, x<38>,                  dgpr<0>, cc, comma, neg<37>, sgpr<8>, comma, sgpr<20>, comma, sgpr<39>, comma, uinteger<5, 28>),";
  "    INSN(0x5BD8000000000000ULL, 0, ""LEA"", lea::hi, x<38>, pred<48>, comma, dgpr<0>, cc, comma, neg<37>, sgpr<8>, comma, sgpr<20>, comma, sgpr<39>),";
  "    INSN(0x5BD8000000000000ULL, 0, ""LEA"", lea::hi, x<38>, pred<48>, comma, dgpr<0>, cc, comma, neg<37>, sgpr<8>, comma, sgpr<20>, comma, sgpr<39>, comma, uinteger<5, 28>),";
  "    INSN(0x1807000000000000ULL, 0, ""LEA"", lea::hi, x<57>,                  dgpr<0>, cc, comma, neg<56>, sgpr<8>, comma, cbuf, comma, sgpr<39>),";
  "    INSN(0x1807000000000000ULL, 0, ""LEA"", lea::hi, x<57>,                  dgpr<0>, cc, comma, neg<56>, sgpr<8>, comma, cbuf, comma, sgpr<39>, comma, uinteger<5, 51>),";
  "    INSN(0x1800000000000000ULL, 0, ""LEA"", lea::hi, x<57>, pred<48>, comma, dgpr<0>, cc, comma, neg<56>, sgpr<8>, comma, cbuf, comma, sgpr<39>),";
  "    INSN(0x1800000000000000ULL, 0, ""LEA"", lea::hi, x<57>, pred<48>, comma, dgpr<0>, cc, comma, neg<56>, sgpr<8>, comma, cbuf, comma, sgpr<39>, comma, uinteger<5, 51>),";
  "    INSN(0x5BD7000000000000ULL, 0, ""LEA"", lea::lo, x<46>,                  dgpr<0>, cc, comma, neg<45>, sgpr<8>, comma, sgpr<20>),";
  "    INSN(0x5BD7000000000000ULL, 0, ""LEA"", lea::lo, x<46>,                  dgpr<0>, cc, comma, neg<45>, sgpr<8>, comma, sgpr<20>, comma, uinteger<5, 39>),";
  "    INSN(0x5BD0000000000000ULL, 0, ""LEA"", lea::lo, x<46>, pred<48>, comma, dgpr<0>, cc, comma, neg<45>, sgpr<8>, comma, sgpr<20>),";
  "    INSN(0x5BD0000000000000ULL, 0, ""LEA"", lea::lo, x<46>, pred<48>, comma, dgpr<0>, cc, comma, neg<45>, sgpr<8>, comma, sgpr<20>, comma, uinteger<5, 39>),";
  "    INSN(0x4BD7000000000000ULL, 0, ""LEA"", lea::lo, x<46>,                  dgpr<0>, cc, comma, neg<45>, sgpr<8>, comma, cbuf),";
  "    INSN(0x4BD7000000000000ULL, 0, ""LEA"", lea::lo, x<46>,                  dgpr<0>, cc, comma, neg<45>, sgpr<8>, comma, cbuf, comma, uinteger<5, 39>),";
  "    INSN(0x4BD0000000000000ULL, 0, ""LEA"", lea::lo, x<46>, pred<48>, comma, dgpr<0>, cc, comma, neg<45>, sgpr<8>, comma, cbuf),";
  "    INSN(0x4BD0000000000000ULL, 0, ""LEA"", lea::lo, x<46>, pred<48>, comma, dgpr<0>, cc, comma, neg<45>, sgpr<8>, comma, cbuf, comma, uinteger<5, 39>),";
  "    INSN(0x36D7000000000000ULL, 0, ""LEA"", lea::lo, x<46>,                  dgpr<0>, cc, comma, neg<45>, sgpr<8>, comma, imm),";
  "    INSN(0x36D7000000000000ULL, 0, ""LEA"", lea::lo, x<46>,                  dgpr<0>, cc, comma, neg<45>, sgpr<8>, comma, imm, comma, uinteger<5, 39>),";
  "    INSN(0x36D0000000000000ULL, 0, ""LEA"", lea::lo, x<46>, pred<48>, comma, dgpr<0>, cc, comma, neg<45>, sgpr<8>, comma, imm),";
  "    INSN(0x36D0000000000000ULL, 0, ""LEA"", lea::lo, x<46>, pred<48>, comma, dgpr<0>, cc, comma, neg<45>, sgpr<8>, comma, imm, comma, uinteger<5, 39>),";
  "    INSN(0x5C40000000000000ULL, 0, ""LOP"", lop::bit_op<41>, x<43>, lop::pred_op, pred<48>, comma, dgpr<0>, cc, comma, tilde<39>, sgpr<8>, comma, tilde<40>, sgpr<20>),";
  "    INSN(0x4C40000000000000ULL, 0, ""LOP"", lop::bit_op<41>, x<43>, lop::pred_op, pred<48>, comma, dgpr<0>, cc, comma, tilde<39>, sgpr<8>, comma, tilde<40>, cbuf),";
  "    INSN(0x3840000000000000ULL, 0, ""LOP"", lop::bit_op<41>, x<43>, lop::pred_op, pred<48>, comma, dgpr<0>, cc, comma, tilde<39>, sgpr<8>, comma, tilde<40>, imm),";
  "    INSN(0x0400000000000000ULL, 0, ""LOP32I"", lop::bit_op<53>, x<57>, dgpr<0>, cc<52>, comma, tilde<55>, sgpr<8>, comma, uimm32, inv<56>),";
  "    INSN(0x5BE0000000000000ULL, 0, ""LOP3"", lop3::lut, x<38>, lop3::operation, pred<48>, comma, dgpr<0>, cc, comma, sgpr<8>, comma, sgpr<20>, comma, sgpr<39>, comma, uinteger<8, 28>),";
  "    INSN(0x5BE7000000000000ULL, 0, ""LOP3"", lop3::lut, x<38>, lop3::operation,                  dgpr<0>, cc, comma, sgpr<8>, comma, sgpr<20>, comma, sgpr<39>, comma, uinteger<8, 28>),";
  "    INSN(0x3C00000000000000ULL, 0, ""LOP3"", lop3::lut,                                          dgpr<0>, cc, comma, sgpr<8>, comma, imm, comma, sgpr<39>, comma, uinteger<8, 48>),";
  "    INSN(0x0200000000000000ULL, 0, ""LOP3"", lop3::lut,                                          dgpr<0>, cc, comma, sgpr<8>, comma, cbuf, comma, sgpr<39>, comma, uinteger<8, 48>),";
  "    INSN(0x5BA0000000000000ULL, 0, ""FCMP"", float_compare<48>, ftz<47>, dgpr<0>, comma, sgpr<8>, comma, sgpr<20>, comma, sgpr<39>),";
  "    INSN(0x53A0000000000000ULL, 0, ""FCMP"", float_compare<48>, ftz<47>, dgpr<0>, comma, sgpr<8>, comma, sgpr<39>, comma,     cbuf),";
  "    INSN(0x4BA0000000000000ULL, 0, ""FCMP"", float_compare<48>, ftz<47>, dgpr<0>, comma, sgpr<8>, comma,     cbuf, comma, sgpr<39>),";
  "    INSN(0x36A0000000000000ULL, 0, ""FCMP"", float_compare<48>, ftz<47>, dgpr<0>, comma, sgpr<8>, comma,     fimm, comma, sgpr<39>),";
  "    INSN(0x5CA0000000000000ULL, 0, ""SEL"", dgpr<0>, comma, sgpr<8>, comma, sgpr<20>, comma, pred<39, true>),";
  "    INSN(0x4CA0000000000000ULL, 0, ""SEL"", dgpr<0>, comma, sgpr<8>, comma, cbuf,     comma, pred<39, true>),";
  "    INSN(0x38A0000000000000ULL, 0, ""SEL"", dgpr<0>, comma, sgpr<8>, comma, imm ,     comma, pred<39, true>),";
  "    INSN(0xEF10000000000000ULL, 0, ""SHFL"", shfl::mode, pred<48>, comma, dgpr<0>, comma, sgpr<8>, comma,        sgpr<20>, comma, sgpr<39>),";
  "    INSN(0xEF10000010000000ULL, 0, ""SHFL"", shfl::mode, pred<48>, comma, dgpr<0>, comma, sgpr<8>, comma, uinteger<5, 20>, comma, sgpr<39>),";
  "    INSN(0xEF10000020000000ULL, 0, ""SHFL"", shfl::mode, pred<48>, comma, dgpr<0>, comma, sgpr<8>, comma,        sgpr<20>, comma, uinteger<13, 34>),";
  "    INSN(0xEF10000030000000ULL, 0, ""SHFL"", shfl::mode, pred<48>, comma, dgpr<0>, comma, sgpr<8>, comma, uinteger<5, 20>, comma, uinteger<13, 34>),";
  "    INSN(0x5C48000000000000ULL, 0, ""SHL"", w<39>, x<43>, dgpr<0>, cc, comma, sgpr<8>, comma, sgpr<20>),";
  "    INSN(0x4C48000000000000ULL, 0, ""SHL"", w<39>, x<43>, dgpr<0>, cc, comma, sgpr<8>, comma, cbuf),";
  "    INSN(0x3848000000000000ULL, 0, ""SHL"", w<39>, x<43>, dgpr<0>, cc, comma, sgpr<8>, comma, imm),";
  "    INSN(0xF0F8000000000000ULL, 0, ""SYNC"", flow_tests),";
  "    INSN(0xE350000000000000ULL, 0, ""CONT"", flow_tests),";
  "    INSN(0xE340000000000000ULL, 0, ""BRK"", flow_tests),";
  "    INSN(0xE330000000000000ULL, 0, ""KIL"", flow_tests),";
  "    INSN(0xE320000000000000ULL, 0, ""RET"", flow_tests),";
  "    INSN(0xE310000000000000ULL, 0, ""LONGJMP"", flow_tests),";
  "    INSN(0xE300000000000000ULL, 0, ""EXIT"", keeprefcount, flow_tests),";
  "    INSN(0x5C90000000000000ULL, 0, ""RRO"", rro::mode, dgpr<0>, comma, neg<45>, abs<49, sgpr<20>>),";
  "    INSN(0x4C90000000000000ULL, 0, ""RRO"", rro::mode, dgpr<0>, comma, neg<45>, abs<49, cbuf>),";
  "    INSN(0x3890000000000000ULL, 0, ""RRO"", rro::mode, dgpr<0>, comma, fimm, post_neg<45>, post_abs<49>),";
  "    INSN(0xEB20000000000000ULL, 0, ""SUST"", image::p, image::type, store_cache<24>, image::rgba, image::clamp, memory::address<false>, comma, sgpr<0>, comma, sgpr<39>),";
  "    INSN(0xEB28000000000000ULL, 0, ""SUST"", image::p, image::type, store_cache<24>, image::rgba, image::clamp, memory::address<false>, comma, sgpr<0>, comma, uinteger<13, 36>),";
  "    INSN(0xEB20000000000000ULL, 0, ""SUST"", image::d, image::ba<52>, image::type, store_cache<24>, image::size, image::clamp, memory::address<false>, comma, sgpr<0>, comma, sgpr<39>),";
  "    INSN(0xEB28000000000000ULL, 0, ""SUST"", image::d, image::ba<52>, image::type, store_cache<24>, image::size, image::clamp, memory::address<false>, comma, sgpr<0>, comma, uinteger<13, 36>),";
  "    INSN(0xEB00000000000000ULL, 0, ""SULD"", image::p, image::type, load_cache<24>, image::rgba, image::clamp, dgpr<0>, comma, memory::address<false>, comma, sgpr<39>),";
  "    INSN(0xEB08000000000000ULL, 0, ""SULD"", image::p, image::type, load_cache<24>, image::rgba, image::clamp, dgpr<0>, comma, memory::address<false>, comma, uinteger<13, 36>),";
  "    INSN(0xEB00000000000000ULL, 0, ""SULD"", image::d, image::ba<23>, image::type, load_cache<24>, image::size, image::clamp, dgpr<0>, comma, memory::address<false>, comma, sgpr<39>),";
  "    INSN(0xEB08000000000000ULL, 0, ""SULD"", image::d, image::ba<23>, image::type, load_cache<24>, image::size, image::clamp, dgpr<0>, comma, memory::address<false>, comma, uinteger<13, 36>),";
  "    INSN(0x50D8000000000000ULL, 0, ""VOTE"", vote::operation, dgpr<0>, comma, pred<45, false>, comma, pred<39, true>),";
  "    INSN(0x5F04000000000000ULL, 0, ""VMAD"", video::src_format<37, 48>, video::src_format<29, 49>, po<53, 54>, vmad::scale, sat<55>, dgpr<0>, cc, comma, neg<54>, sgpr<8>, video::selector<36, 37>, comma, sgpr<20>, video::selector<28, 29>, comma, neg<53>, sgpr<39>),";
  "    INSN(0x5F00000000000000ULL, 0, ""VMAD"", video::src_format<37, 48>, video::imm_format<29, 49>, po<53, 54>, vmad::scale, sat<55>, dgpr<0>, cc, comma, neg<54>, sgpr<8>, video::selector<36, 37>, comma, uinteger<16, 20>,                  comma, neg<53>, sgpr<39>),";
  "    INSN(0x3A04000000000000ULL, 0, ""VMNMX"", video::dest_sign, video::src_format<37, 48>, video::src_format<29, 49>, video::mx<56>, sat<55>, video::vmnmx_op<51>, dgpr<0>, cc, comma, sgpr<8>, video::selector<36, 37>, comma, sgpr<20>, video::selector<28, 29>, comma, sgpr<39>),";
  "    INSN(0x3A00000000000000ULL, 0, ""VMNMX"", video::dest_sign, video::src_format<37, 48>, video::imm_format<29, 49>, video::mx<56>, sat<55>, video::vmnmx_op<51>, dgpr<0>, cc, comma, sgpr<8>, video::selector<36, 37>, comma, uinteger<16, 20>,                  comma, sgpr<39>),";
  "    INSN(0x50F4000000000000ULL, 0, ""VSETP"", vsetp::integer_compare<43>, video::src_format<37, 48>, video::src_format<29, 49>, bop<45>, pred<3>, comma, pred<0>, comma, sgpr<8>, video::selector<36, 37>, comma, sgpr<20>, video::selector<28, 29>, comma, pred<39, true>),";
  "    INSN(0x50F0000000000000ULL, 0, ""VSETP"", vsetp::integer_compare<43>, video::src_format<37, 48>, video::imm_format<29, 49>, bop<45>, pred<3>, comma, pred<0>, comma, sgpr<8>, video::selector<36, 37>, comma, uinteger<16, 20>,                  comma, pred<39, true>),";
  "    INSN(0xEED8000000000000ULL, RD, ""STG"", stg::e, store_cache<46>, memory::size, memory::address, comma, sgpr<0>),";
  "    INSN(0xEF58000000000000ULL, RD, ""STS"", memory::size, memory::address, comma, sgpr<0>),";
  "    INSN(0xEF50000000000000ULL, RD, ""STL"", stl::cache, memory::size, memory::address, comma, sgpr<0>),";
  "    INSN(0xC000000000000000ULL, 0, ""TEX"",         ndv<35>, nodep<49>, aoffi<54>, blod<55>, dc<50>, lc<58>, pred<51>, comma, dgpr<0>, comma, sgpr<8>, comma, sgpr<20>, comma, uinteger<13, 36>, comma, tex_type<28>, comma, uinteger<4, 31>),";
  "    INSN(0xDE80000000000000ULL, 0, ""TEX"", b_text, ndv<35>, nodep<49>, aoffi<36>, blod<37>, dc<50>, lc<40>, pred<51>, comma, dgpr<0>, comma, sgpr<8>, comma, sgpr<20>, comma, zero,             comma, tex_type<28>, comma, uinteger<4, 31>),";
  "    INSN(0xD000000000000000ULL, 0, ""TEXS"", sample_size<59>, texs_mode<53>, nodep<49>, dgpr<28>, comma, dgpr<0>, comma, sgpr<8>, comma, sgpr<20>, comma, uinteger<13, 36>, comma, texs_type<53>, comma, texs_swizzle),";
  "    INSN(0xC800000000000000ULL, 0, ""TLD4"", tld4::component<56>,         tld4::offset<54>, dc<50>, ndv<35>, nodep<49>, pred<51>, comma, dgpr<0>, comma, sgpr<8>, comma, sgpr<20>, comma, uinteger<13, 36>, comma, tex_type<28>, comma, uinteger<4, 31>),";
  "    INSN(0xDEC0000000000000ULL, 0, ""TLD4"", tld4::component<38>, b_text, tld4::offset<36>, dc<50>, ndv<35>, nodep<49>, pred<51>, comma, dgpr<0>, comma, sgpr<8>, comma, sgpr<20>, comma, zero,             comma, tex_type<28>, comma, uinteger<4, 31>),";
  "    INSN(0xDF00000000000000ULL, 0, ""TLD4S"", sample_size_inv<55>, tld4::component<52>, aoffi<51>, dc<50>, nodep<49>, dgpr<28>, comma, dgpr<0>, comma, sgpr<8>, comma, sgpr<20>, comma, uinteger<13, 36>),";
  "    INSN(0xDC00000000000000ULL, 0, ""TLD"",         tld::lod<55>, aoffi<35>, ms<50>, cl<54>, nodep<49>, pred<51>, comma, dgpr<0>, comma, sgpr<8>, comma, sgpr<20>, comma, uinteger<13, 36>, comma, tex_type<28>, comma, uinteger<4, 31>),";
  "    INSN(0xDD00000000000000ULL, 0, ""TLD"", b_text, tld::lod<55>, aoffi<35>, ms<50>, cl<54>, nodep<49>, pred<51>, comma, dgpr<0>, comma, sgpr<8>, comma, sgpr<20>, comma, zero,             comma, tex_type<28>, comma, uinteger<4, 31>),";
  "    INSN(0xD200000000000000ULL, 0, ""TLDS"", sample_size<59>, tld::lod<53>, aoffi<54>, ms<55>, nodep<49>, dgpr<28>, comma, dgpr<0>, comma, sgpr<8>, comma, sgpr<20>, comma, uinteger<13, 36>, comma, tlds_type<53>, comma, texs_swizzle),";
  "    INSN(0xDF58000000000000ULL, 0, ""TMML"",         lod_text, ndv<35>, nodep<49>, dgpr<0>, comma, sgpr<8>, comma,      uinteger<13, 36>, comma, tex_type<28>, comma, uinteger<4, 31>),";
  "    INSN(0xDF60000000000000ULL, 0, ""TMML"", b_text, lod_text, ndv<35>, nodep<49>, dgpr<0>, comma, sgpr<8>, comma, sgpr<20>, comma, zero, comma, tex_type<28>, comma, uinteger<4, 31>),";
  "    INSN(0xDE00000000000000ULL, 0, ""TXD"",         lc<50>, aoffi<35>, nodep<49>, pred<51>, comma, dgpr<0>, comma, sgpr<8>, comma, sgpr<20>, comma, uinteger<13, 36>, comma, tex_type<28>, comma, uinteger<4, 31>),";
  "    INSN(0xDE40000000000000ULL, 0, ""TXD"", b_text, lc<50>, aoffi<35>, nodep<49>, pred<51>, comma, dgpr<0>, comma, sgpr<8>, comma, sgpr<20>, comma,             zero, comma, tex_type<28>, comma, uinteger<4, 31>),";
  "    INSN(0xDF48000000000000ULL, 0, ""TXQ"",         nodep<49>, dgpr<0>, comma, sgpr<8>, comma, txq::mode, comma, uinteger<13, 36>, comma, uinteger<4, 31>),";
  "    INSN(0xDF50000000000000ULL, 0, ""TXQ"", b_text, nodep<49>, dgpr<0>, comma, sgpr<8>, comma, txq::mode, comma,             zero, comma, uinteger<4, 31>),";
  "    INSN(0xEED0000000000000ULL, RD|WR, ""LDG"", stg::e, ldg::cache, ldg::size, dgpr<0>, comma, memory::address),";
  "    INSN(0xEEC8000000000000ULL, RD|WR, ""LDG"", stg::e, ldg::cache, ldg::size, inverted_pred<41>, comma, dgpr<0>, comma, memory::address<true, 20, 20>),";
  "    INSN(0xEF48000000000000ULL, RD|WR, ""LDS"", lds::u, memory::size, dgpr<0>, comma, memory::address),";
  "    INSN(0xEF40000000000000ULL, RD|WR, ""LDL"", ldl::cache, memory::size, dgpr<0>, comma, memory::address),";
  "    INSN(0xEBF8000000000000ULL, RD|WR, ""RED"", red::e, red::operation, atomic_size<20>, memory::address<true, 28, 20, 0>, comma, sgpr<0>),";
  "    INSN(0xE240000000000000ULL, 0, ""BRA"", u<7>, lmt<6>, flow_tests, comma, label),";
  "    INSN(0xE24000000000000FULL, 0, ""BRA"", u<7>, lmt<6>, label),";
  "    INSN(0xE2A0000000000000ULL, NO_PRED, ""PBK"", label),";
  "    // TODO: PBK constant buffer";
  "    INSN(0xE290000000000000ULL, NO_PRED, ""SSY"", label),";
  "    // TODO: SSY constant buffer";
  "    INSN(0xE260000000000000ULL, NO_PRED, ""CAL"", noinc, label),";
  "    // TODO: CAL constant buffer";
  "    INSN(0xE2B0000000000000ULL, NO_PRED, ""PCNT"", label),";
  "};";
  "// clang-format on"
].

(** /repo/src/helper.cpp:1-336. *)
Definition helper_cpp : list string := [
  "#include <cinttypes>";
  "#include <cstdint>";
  "#include <cstdlib>";
  "#include <cstring>";
  "#include <limits>";
  "";
  "#include ""context.h""";
  "#include ""fp16.h""";
  "#include ""helper.h""";
  "#include ""operand.h""";
  "#include ""token.h""";
  "";
  "static error assemble_gpr(context& ctx, token& token, opcode& op, int address)";
  "{";
  "    CHECK(confirm_type(token, token_type::regster));";
  "";
  "    op.add_bits(static_cast<uint64_t>(token.data.regster) << address);";
  "";
  "    token = ctx.tokenize();";
  "    return try_reuse(ctx, token, op, address);";
  "}";
  "";
  "static error confirm_type_next(context& ctx, token& token, token_type type)";
  "{";
  "    token = ctx.tokenize();";
  "    return confirm_type(token, type);";
  "}";
  "";
  "error confirm_type(const token& token, token_type type)";
  "{";
  "    if (token.type == type) {";
  "        return {};";
  "    }";
  "    if (token.type == token_type::none) {";
  "        return fail(token, ""expected \33[1m%s\33[0m"", name(type));";
  "    }";
  "    const std::string_view tkninfo = info(token);";
  "    return fail(token, ""expected \33[1m%s\33[0m and got \33[1m%s %.*s\33[0m"", name(type),";
  "                name(token.type), static_cast<int>(std::size(tkninfo)), std::data(tkninfo));";
  "}";
  "";
  "int equal(const token& token, const char* string)";
  "{";
  "    if (token.type != token_type::identifier) {";
  "        return 0;";
  "    }";
  "";
  "    return token.data.string.compare(string) == 0;";
  "}";
  "";
  "error convert_integer(const token& token, int64_t min, int64_t max, uint64_t* result)";
  "{";
  "    CHECK(confirm_type(token, token_type::immediate));";
  "";
  "    int64_t value = token.data.immediate;";
  "    if (value < min || value > max) {";
  "        return fail(token,";
  "                    ""integer \33[1m%d\33[0m is out of range, expected to be """;
  "                    ""from %"" PRId64 "" to %"" PRId64 "" inclusively"",";
  "                    value, min, max);";
  "    }";
  "    *result = static_cast<uint64_t>(value);";
  "    return {};";
  "}";
  "";
  "std::optional<uint64_t> find_in_table(const token& token, const char* const* table,";
  "                                      std::string_view prefix)";
  "{";
  "    if (token.type != token_type::identifier) {";
  "        return {};";
  "    }";
  "";
  "    std::string_view text = token.data.string;";
  "";
  "    if (!prefix.empty()) {";
  "        if (prefix.compare(text.substr(0, std::size(prefix))) != 0) {";
  "            return {};";
  "        }";
  "        text = text.substr(std::size(prefix));";
  "    }";
  "";
  "    for (size_t i = 0; table[i]; ++i) {";
  "        if (text.compare(table[i]) != 0) {";
  "            continue;";
  "        }";
  "        return static_cast<uint64_t>(i);";
  "    }";
  "    return {};";
  "}";
  "";
  "error try_reuse(context& ctx, token& token, opcode& op, int address)";
  "{";
  "    if (!equal(token, "".reuse"")) {";
  "        return {};";
  "    }";
  "    switch (address) {";
  "    case 8:";
  "        op.add_reuse(reuse_flag::gpr8);";
  "        break;";
  "    case 20:";
  "        op.add_reuse(reuse_flag::gpr20);";
  "        break;";
  "    case 39:";
  "        op.add_reuse(reuse_flag::gpr39);";
  "        break;";
  "    default:";
  "        return fail(token, ""register cannot be reused"");";
  "    }";
  "";
  "    token = ctx.tokenize();";
  "    return {};";
  "}";
  "";
  "error assemble_dest_gpr(context& ctx, token& token, opcode& op, int address)";
  "{";
  "    return assemble_gpr(ctx, token, op, address);";
  "}";
  "";
  "error assemble_source_gpr(context& ctx, token& token, opcode& op, int address)";
  "{";
  "    return assemble_gpr(ctx, token, op, address);";
  "}";
  "";
  "error assemble_signed_20bit_immediate(context& ctx, token& token, opcode& op)";
  "{";
  "    int64_t value = 0;";
  "    CHECK(convert_integer(token, -(1 << 19), max_bits(19), reinterpret_cast<uint64_t*>(&value)));";
  "";
  "    uint64_t raw = 0;";
  "    uint64_t negative = 0;";
  "    if (value < 0) {";
  "        raw = (value - (1 << 19)) & max_bits(19);";
  "        negative = 1;";
  "    } else {";
  "        raw = static_cast<uint64_t>(value);";
  "        negative = 0;";
  "    }";
  "";
  "    op.add_bits(raw << 20);";
  "    op.add_bits(negative << 56);";
  "";
  "    token = ctx.tokenize();";
  "    return {};";
  "}";
  "";
  "error assemble_float_immediate(context& ctx, token& token, opcode& op, int bits)";
  "{";
  "    static constexpr char MESSAGE[] = ""expected floating-point literal, QNAN, or INF"";";
  "";
  "    float value;";
  "    switch (token.type) {";
  "    case token_type::float_immediate:";
  "        value = token.data.float_immediate;";
  "        break;";
  "    case token_type::immediate:";
  "        value = static_cast<float>(token.data.immediate);";
  "        if (static_cast<int64_t>(token.data.immediate) != value) {";
  "            return fail(token, ""integer immediate "" PRId64 ""cannot be represented as float"",";
  "                        token.data.immediate);";
  "        }";
  "        break;";
  "    case token_type::plus:";
  "    case token_type::minus:";
  "    case token_type::identifier: {";
  "        const bool negate = token.type == token_type::minus;";
  "        if (token.type != token_type::identifier) {";
  "            token = ctx.tokenize();";
  "        }";
  "        if (equal(token, ""QNAN"")) {";
  "            value = std::numeric_limits<float>::quiet_NaN();";
  "        } else if (equal(token, ""INF"")) {";
  "            value = std::numeric_limits<float>::infinity();";
  "        } else {";
  "            return fail(token, MESSAGE);";
  "        }";
  "        if (negate) {";
  "            value = -value;";
  "        }";
  "        break;";
  "    }";
  "    default:";
  "        return fail(token, MESSAGE);";
  "    }";
  "    uint32_t raw;";
  "    std::memcpy(&raw, &value, sizeof(raw));";
  "    if (bits == 20) {";
  "        // TODO: add a setting to warn/error precision losses";
  "        // if ((raw >> 12) << 12 != raw) ...";
  "        op.add_bits(static_cast<uint64_t>((raw << 1) >> 13) << 20);";
  "        if (raw >> 31 != 0) {";
  "            op.add_bits(1ULL << 56);";
  "        }";
  "    } else if (bits == 32) {";
  "        op.add_bits(static_cast<uint64_t>(raw) << 20);";
  "    } else {";
  "        assert(false && ""invalid bits"");";
  "    }";
  "    token = ctx.tokenize();";
  "    return {};";
  "}";
  "";
  "error assemble_double_immediate(context& ctx, token& token, opcode& op)";
  "{";
  "    static constexpr char MESSAGE[] = ""expected floating-point literal, QNAN, or INF"";";
  "";
  "    double value;";
  "    switch (token.type) {";
  "    case token_type::float_immediate:";
  "        value = token.data.float_immediate;";
  "        if (value < 0) {";
  "            op.add_bits(1ULL << 56);";
  "        }";
  "        break;";
  "    case token_type::immediate:";
  "        value = static_cast<double>(token.data.immediate);";
  "        if (value < 0) {";
  "            op.add_bits(1ULL << 56);";
  "        }";
  "        break;";
  "    case token_type::plus:";
  "    case token_type::minus:";
  "    case token_type::identifier: {";
  "        if (token.type == token_type::minus) {";
  "            op.add_bits(1ULL << 56);";
  "        }";
  "        if (token.type != token_type::identifier) {";
  "            token = ctx.tokenize();";
  "        }";
  "        if (equal(token, ""QNAN"")) {";
  "            value = std::numeric_limits<double>::quiet_NaN();";
  "        } else if (equal(token, ""INF"")) {";
  "            value = std::numeric_limits<double>::infinity();";
  "        } else {";
  "            return fail(token, MESSAGE);";
  "        }";
  "        break;";
  "    }";
  "    default:";
  "        return fail(token, MESSAGE);";
  "    }";
  "    uint64_t raw;";
  "    std::memcpy(&raw, &value, sizeof(raw));";
  "    op.add_bits((static_cast<uint64_t>(raw << 1) >> 45) << 20);";
  "";
  "    token = ctx.tokenize();";
  "    return {};";
  "}";
  "";
  "error assemble_half_float_immediate(context& ctx, token& token, opcode& op, int bits, int offset,";
  "                                    int neg_bit)";
  "{";
  "    static constexpr char MESSAGE[] = ""expected floating-point literal, QNAN, or INF"";";
  "";
  "    uint16_t value;";
  "    switch (token.type) {";
  "    case token_type::float_immediate:";
  "        value = fp32_to_fp16(token.data.float_immediate);";
  "        if (token.data.float_immediate < 0 && neg_bit >= 0) {";
  "            op.add_bits(1ULL << neg_bit);";
  "        }";
  "        break;";
  "    case token_type::immediate:";
  "        value = fp32_to_fp16(static_cast<float>(token.data.immediate));";
  "        if (token.data.immediate < 0 && neg_bit >= 0) {";
  "            op.add_bits(1ULL << neg_bit);";
  "        }";
  "        break;";
  "    case token_type::plus:";
  "    case token_type::minus:";
  "    case token_type::identifier: {";
  "        const bool negate = token.type == token_type::minus;";
  "        if (token.type != token_type::identifier) {";
  "            token = ctx.tokenize();";
  "        }";
  "        if (equal(token, ""QNAN"")) {";
  "            value = 0x7fff;";
  "        } else if (equal(token, ""INF"")) {";
  "            value = 0x7c00;";
  "        } else {";
  "            return fail(token, MESSAGE);";
  "        }";
  "        if (negate) {";
  "            if (neg_bit >= 0) {";
  "                op.add_bits(1ULL << neg_bit);";
  "            } else {";
  "                value |= 0x8000;";
  "            }";
  "        }";
  "        break;";
  "    }";
  "    default:";
  "        return fail(token, MESSAGE);";
  "    }";
  "    if (bits == 9) {";
  "        // TODO: add a setting to warn/error precision losses";
  "        op.add_bits(static_cast<uint64_t>(static_cast<uint16_t>(value << 1) >> 7) << offset);";
  "    } else if (bits == 16) {";
  "        op.add_bits(static_cast<uint64_t>(value) << offset);";
  "    } else {";
  "        assert(false && ""invalid bits"");";
  "    }";
  "    token = ctx.tokenize();";
  "    return {};";
  "}";
  "";
  "error assemble_constant_buffer(context& ctx, token& token, opcode& op)";
  "{";
  "    const struct token first_token = token;";
  "";
  "    if (!equal(token, ""c"")) {";
  "        return fail(token, ""expected constant buffer"");";
  "    }";
  "";
  "    CHECK(confirm_type_next(ctx, token, token_type::bracket_left));";
  "";
  "    token = ctx.tokenize();";
  "    uint64_t value;";
  "    CHECK(convert_integer(token, 0, max_bits(5), &value));";
  "    op.add_bits(static_cast<uint64_t>(value) << 34);";
  "";
  "    CHECK(confirm_type_next(ctx, token, token_type::bracket_right));";
  "    CHECK(confirm_type_next(ctx, token, token_type::bracket_left));";
  "";
  "    token = ctx.tokenize();";
  "    CHECK(convert_integer(token, INT16_MIN, INT16_MAX, &value));";
  "    const int offset = static_cast<int16_t>(value);";
  "    if (offset % 4) {";
  "        return fail(first_token, ""immediate constant buffer access has to be aligned to 4 bytes"");";
  "    }";
  "    op.add_bits(static_cast<uint64_t>(static_cast<uint16_t>(offset) >> 2) << 20);";
  "";
  "    CHECK(confirm_type_next(ctx, token, token_type::bracket_right));";
  "";
  "    token = ctx.tokenize();";
  "    return {};";
  "}"
].

(** /repo/src/parse.cpp:1-185. *)
Definition parse_cpp : list string := [
  "#include <cstddef>";
  "#include <cstdio>";
  "#include <cstdlib>";
  "#include <cstring>";
  "#include <utility>";
  "";
  "#include ""context.h""";
  "#include ""error.h""";
  "#include ""helper.h""";
  "#include ""opcode.h""";
  "#include ""operand.h""";
  "#include ""parse.h""";
  "#include ""table.h""";
  "#include ""token.h""";
  "";
  "static error assemble_predicate(const token& token, opcode& op, size_t shift, int is_negable)";
  "{";
  "    CHECK(confirm_type(token, token_type::predicate));";
  "";
  "    if (!is_negable && token.data.predicate.negated) {";
  "        return fail(token, ""predicate can't be negated"");";
  "    }";
  "    uint64_t bits = token.data.predicate.index;";
  "    bits |= (token.data.predicate.negated ? 1 : 0) << 3;";
  "    bits <<= shift;";
  "    op.add_bits(bits);";
  "    return {};";
  "}";
  "";
  "static error assemble_sched(context& ctx, token& token, opcode& op)";
  "{";
  "    std::optional<uint32_t> stall;";
  "    std::optional<uint32_t> write_barrier;";
  "    std::optional<uint32_t> read_barrier;";
  "    uint32_t wait_barrier = 0;";
  "    bool yield = false;";
  "    while (token.type == token_type::at) {";
  "        token = ctx.tokenize();";
  "        if (equal(token, ""WAIT"")) {";
  "            if (stall) {";
  "                return fail(token, ""clocks to stall are already specified"");";
  "            }";
  "            token = ctx.tokenize();";
  "            if (error message = confirm_type(token, token_type::immediate); message) {";
  "                return message;";
  "            }";
  "            if (token.data.immediate < 0 || token.data.immediate > 15) {";
  "                return fail(token, ""number of waited clocks must be between 0 and 15 inclusively"");";
  "            }";
  "            stall = static_cast<uint32_t>(token.data.immediate);";
  "            token = ctx.tokenize();";
  "        } else if (equal(token, ""WB"") || equal(token, ""RB"")) {";
  "            const bool is_write = equal(token, ""WB"");";
  "            if (is_write ? write_barrier : read_barrier) {";
  "                return fail(token, ""%s barrier already specified"", is_write ? ""write"" : ""read"");";
  "            }";
  "            token = ctx.tokenize();";
  "            if (error message = confirm_type(token, token_type::immediate); message) {";
  "                return message;";
  "            }";
  "            if (token.data.immediate < 0 || token.data.immediate > 5) {";
  "                return fail(token, ""barrier index must be between 0 and 5 inclusively"");";
  "            }";
  "            if (is_write) {";
  "                write_barrier = static_cast<uint32_t>(token.data.immediate);";
  "            } else {";
  "                read_barrier = static_cast<uint32_t>(token.data.immediate);";
  "            }";
  "            token = ctx.tokenize();";
  "        } else if (equal(token, ""Y"") || equal(token, ""YIELD"")) {";
  "            if (yield) {";
  "                return fail(token, ""yield already specified"");";
  "            }";
  "            yield = true;";
  "            token = ctx.tokenize();";
  "        } else if (equal(token, ""DEP"")) {";
  "            token = ctx.tokenize();";
  "            if (error message = confirm_type(token, token_type::immediate); message) {";
  "                return message;";
  "            }";
  "            if (token.data.immediate < 0 || token.data.immediate > 5) {";
  "                return fail(token, ""dependency barrier index must be between 0 and 5 inclusively"");";
  "            }";
  "            const uint32_t mask = 1U << token.data.immediate;";
  "            if (wait_barrier & mask) {";
  "                return fail(token, ""dependency barrier index %d already specified"",";
  "                            (int)token.data.immediate);";
  "            }";
  "            wait_barrier |= mask;";
  "            token = ctx.tokenize();";
  "        } else {";
  "            return fail(token, ""expected @WAIT, @WB, @RB, @DEP, or @YIELD/@Y"");";
  "        }";
  "    }";
  "    op.sched.values = {";
  "        .stall = stall.value_or(0),";
  "        .yield = yield ? 1U : 0U,";
  "        .write_barrier = write_barrier.value_or(7),";
  "        .read_barrier = read_barrier.value_or(7),";
  "        .wait_barrier = wait_barrier,";
  "        .padding = 0,";
  "    };";
  "    return {};";
  "}";
  "";
  "static std::pair<error, int> parse_insn(context& ctx, opcode& op, const insn& insn)";
  "{";
  "    op.add_bits(insn.opcode);";
  "";
  "    token token = ctx.tokenize();";
  "    if ((insn.flags & NO_PRED) && (~op.value & (7ULL << 16))) {";
  "        return {fail(token, ""%s does not support predicated execution"", insn.mnemonic), 0};";
  "    }";
  "    int score = 1;";
  "    for (const operand& operand : insn.operands) {";
  "        if (error message = operand(ctx, token, op); message) {";
  "            return {std::move(message), score};";
  "        }";
  "        ++score;";
  "    }";
  "    score += 1000; // A number high enough to have better score than any number of operands";
  "";
  "    if (error message = assemble_sched(ctx, token, op); message) {";
  "        return {std::move(message), score};";
  "    }";
  "    return {confirm_type(token, token_type::semicolon), score};";
  "}";
  "";
  "bool parse_instruction(context& ctx, opcode& op)";
  "{";
  "    token token = ctx.tokenize();";
  "    if (token.type == token_type::none) {";
  "        return false;";
  "    }";
  "    while (token.type == token_type::identifier && token.data.string[0] == '.') {";
  "        ctx.parse_option(token);";
  "    }";
  "    if (ctx.pc % 0x20 == 0) {";
  "        ctx.pc += 8;";
  "    }";
  "    if (token.type == token_type::at) {";
  "        token = ctx.tokenize();";
  "        if (error message = assemble_predicate(token, op, 16, 1); message) {";
  "            message.raise();";
  "        }";
  "        token = ctx.tokenize();";
  "    } else {";
  "        // write always execute by default";
  "        op.add_bits(7ULL << 16);";
  "    }";
  "    if (token.type != token_type::identifier) {";
  "        fatal_error(token, ""expected mnemonic"");";
  "    }";
  "    const context saved_context = ctx;";
  "    const opcode saved_op = op;";
  "    error error_message;";
  "    int error_score = -1;";
  "";
  "    const size_t num_insns = sizeof(table) / sizeof(table[0]);";
  "    for (size_t i = 0; i < num_insns; ++i) {";
  "        const insn& insn = table[i];";
  "        if (!equal(token, insn.mnemonic)) {";
  "            continue;";
  "        }";
  "        auto [insn_error, score] = parse_insn(ctx, op, insn);";
  "        if (!insn_error) {";
  "            // successfully decoded instruction";
  "            ctx.pc += 8;";
  "            return true;";
  "        }";
  "        if (score > error_score) {";
  "            error_message = std::move(insn_error);";
  "            error_score = score;";
  "        }";
  "        // failure, restore context";
  "        ctx = saved_context;";
  "        op = saved_op;";
  "    }";
  "    if (error_message) {";
  "        error_message.raise();";
  "    } else {";
  "        fatal_error(token, ""unknown mnemonic \33[1m%.*s\33[0m"", std::size(token.data.string),";
  "                    std::data(token.data.string));";
  "    }";
  "}"
].

(** /repo/src/opcode.h:1-57. *)
Definition opcode_h : list string := [
  "#pragma once";
  "";
  "#include <cassert>";
  "#include <cstdint>";
  "";
  "constexpr int ZERO_REGISTER = 255;";
  "constexpr int TRUE_PREDICATE = 7;";
  "";
  "constexpr int NUM_REGISTERS = 256;";
  "constexpr int NUM_PREDICATES = 8;";
  "constexpr int NUM_CONDITION_CODES = 4;";
  "";
  "constexpr int NUM_USER_REGISTERS = 255;";
  "constexpr int NUM_USER_PREDICATES = 7;";
  "";
  "namespace reuse_flag";
  "{";
  "    constexpr unsigned gpr8 = 1U;";
  "    constexpr unsigned gpr20 = 2U;";
  "    constexpr unsigned gpr39 = 4U;";
  "}";
  "";
  "struct opcode";
  "{";
  "    uint64_t value = 0;";
  "    uint32_t reuse = 0;";
  "";
  "    union";
  "    {";
  "        struct";
  "        {";
  "            uint32_t stall : 4;";
  "            uint32_t yield : 1;";
  "            uint32_t write_barrier : 3;";
  "            uint32_t read_barrier : 3;";
  "            uint32_t wait_barrier : 6;";
  "            uint32_t padding : 15;";
  "        } values;";
  "        uint32_t raw = 0;";
  "    } sched;";
  "";
  "    void add_bits(uint64_t bits);";
  "";
  "    void add_reuse(unsigned flag);";
  "};";
  "";
  "inline void opcode::add_bits(uint64_t bits)";
  "{";
  "    assert((value & bits) == 0);";
  "    value |= bits;";
  "}";
  "";
  "inline void opcode::add_reuse(unsigned flag)";
  "{";
  "    assert((reuse & flag) == 0);";
  "    reuse |= static_cast<uint8_t>(flag);";
  "}"
].

