(** * Idioms: the bodies of operand.h and the operands of the model that stand for them.

    Each text is the body of one function of /repo/src/operand.h, with [$1],
    [$2], ... for the words that differ between the functions written the same
    way or that are template parameters, and [$list] for a list of string
    literals.  The function beside it says which operand of [Operand] a body of
    that form is.  That [run_operand] does for each operand what the
    text of its function says is proved in Lines.v. *)
From Verif Require Import Base Lexer Operand Source.
Local Open Scope string_scope.
Local Open Scope list_scope.
Open Scope Z_scope.

(** operand.h:115-120, comma. *)
Definition i_comma : idiom := Idiom [
  "CHECK(confirm_type(token, token_type::comma));";
  "token = ctx.tokenize();";
  "return {};"] (fun vs =>
    match vs with
    | [] => Some OComma
    | _ => None
    end).

(** operand.h:89-100, uimm_extended. *)
Definition i_uimm_extended : idiom := Idiom [
  "uint64_t value;";
  "CHECK(convert_integer(token, 0, 1ULL << 20, &value));";
  "if (value >= 0x80000) {";
  "    value -= 0x80000;";
  "    op.add_bits(1ULL << 56);";
  "}";
  "op.add_bits(value << 20);";
  "token = ctx.tokenize();";
  "return {};"] (fun vs =>
    match vs with
    | [] => Some OUimmExtended
    | _ => None
    end).

(** operand.h:122-154, label. *)
Definition i_label : idiom := Idiom [
  "int64_t absolute;";
  "switch (token.type) {";
  "case token_type::identifier: {";
  "    const std::optional label = ctx.find_label(token.data.string);";
  "    if (!label) {";
  "        return fail(token, ""label \33[1m%.*s\33[0m not defined"", std::size(token.data.string),";
  "                    std::data(token.data.string));";
  "    }";
  "    absolute = *label;";
  "    break;";
  "}";
  "case token_type::immediate:";
  "    absolute = token.data.immediate;";
  "    break;";
  "default:";
  "    return fail(token, ""expected label"");";
  "}";
  "static constexpr int64_t max = max_bits(23);";
  "static constexpr int64_t min = -static_cast<int64_t>(max_bits(23)) - 1;";
  "const int64_t value = absolute - ctx.pc - 8;";
  "if (value > max || value < min) {";
  "    return fail(token, ""label out of range"");";
  "}";
  "op.add_bits((static_cast<uint64_t>(value) & 0x7FFFFF) << 20);";
  "op.add_bits((value < 0 ? 1ULL : 0ULL) << 43);";
  "token = ctx.tokenize();";
  "return {};"] (fun vs =>
    match vs with
    | [] => Some OLabel
    | _ => None
    end).

(** operand.h:157-160, dgpr. *)
Definition i_dgpr : idiom := Idiom [
  "return assemble_dest_gpr(ctx, token, op, $1);"] (fun vs =>
    match vs with
    | [VInt a] => Some (OGpr (Z.to_N a))
    | _ => None
    end).

(** operand.h:163-166, sgpr. *)
Definition i_sgpr : idiom := Idiom [
  "return assemble_source_gpr(ctx, token, op, $1);"] (fun vs =>
    match vs with
    | [VInt a] => Some (OGpr (Z.to_N a))
    | _ => None
    end).

(** operand.h:169-181, mirror_dgpr. *)
Definition i_mirror_dgpr : idiom := Idiom [
  "const uint64_t old_op_value = op.value;";
  "op.value &= ~(uint64_t{0xff} << $1);";
  "if (auto err = dgpr<$2>(ctx, token, op)) {";
  "    return err;";
  "}";
  "if (op.value != old_op_value) {";
  "    return fail(token, ""source register is not mirrored to destination register"");";
  "}";
  "return {};"] (fun vs =>
    match vs with
    | [VInt a; VInt b] => if Z.eqb a b then Some (OMirrorGpr (Z.to_N a)) else None
    | _ => None
    end).

(** operand.h:183-186, cbuf. *)
Definition i_cbuf : idiom := Idiom [
  "return assemble_constant_buffer(ctx, token, op);"] (fun vs =>
    match vs with
    | [] => Some OCbuf
    | _ => None
    end).

(** operand.h:188-191, imm. *)
Definition i_imm : idiom := Idiom [
  "return assemble_signed_20bit_immediate(ctx, token, op);"] (fun vs =>
    match vs with
    | [] => Some OImm20
    | _ => None
    end).

(** operand.h:193-196, fimm. *)
Definition i_fimm : idiom := Idiom [
  "return assemble_float_immediate(ctx, token, op, $1);"] (fun vs =>
    match vs with
    | [VInt b] => Some (OFimm (Z.to_N b))
    | _ => None
    end).

(** operand.h:203-206, dimm20. *)
Definition i_dimm : idiom := Idiom [
  "return assemble_double_immediate(ctx, token, op);"] (fun vs =>
    match vs with
    | [] => Some ODimm
    | _ => None
    end).

(** operand.h:209-212, fimm9_low. *)
Definition i_half_neg : idiom := Idiom [
  "return assemble_half_float_immediate(ctx, token, op, $1, $2, $3);"] (fun vs =>
    match vs with
    | [VInt b; VInt o; VInt n] => Some (OHalf (Z.to_N b) (Z.to_N o) (Some (Z.to_N n)))
    | _ => None
    end).

(** operand.h:220-223, fimm16_low. *)
Definition i_half : idiom := Idiom [
  "return assemble_half_float_immediate(ctx, token, op, $1, $2, -1);"] (fun vs =>
    match vs with
    | [VInt b; VInt o] => Some (OHalf (Z.to_N b) (Z.to_N o) None)
    | _ => None
    end).

(** operand.h:297-307, bop. *)
Definition i_bop : idiom := Idiom [
  "static const char* table[] = {$list, nullptr};";
  "const std::optional<int64_t> value = find_in_table(token, table, $2);";
  "if (!value) {";
  "    return fail(token, $3);";
  "}";
  "op.add_bits(*value << $4);";
  "token = ctx.tokenize();";
  "return {};"] (fun vs =>
    match vs with
    | [VStrings l; VString p; VString m; VInt a] => Some (OReqTable p (Z.to_N a) l m)
    | _ => None
    end).

(** operand.h:310-323, pred. *)
Definition i_pred : idiom := Idiom [
  "CHECK(confirm_type(token, token_type::predicate));";
  "op.add_bits(static_cast<uint64_t>(token.data.predicate.index) << $1);";
  "if constexpr ($2) {";
  "    op.add_bits(static_cast<uint64_t>(token.data.predicate.negated) << ($3 + 3));";
  "} else {";
  "    if (token.data.predicate.negated) {";
  "        return fail(token, ""predicate can't be negated"");";
  "    }";
  "}";
  "token = ctx.tokenize();";
  "return {};"] (fun vs =>
    match vs with
    | [VInt a; VBool n; VInt b] => if Z.eqb a b then Some (OPred (Z.to_N a) n) else None
    | _ => None
    end).

(** operand.h:326-335, inverted_pred. *)
Definition i_inverted_pred : idiom := Idiom [
  "CHECK(confirm_type(token, token_type::predicate));";
  "op.add_bits(static_cast<uint64_t>(7 - token.data.predicate.index) << $1);";
  "if (token.data.predicate.negated) {";
  "    return fail(token, ""predicate can't be negated"");";
  "}";
  "token = ctx.tokenize();";
  "return {};"] (fun vs =>
    match vs with
    | [VInt a] => Some (OInvPred (Z.to_N a))
    | _ => None
    end).

(** operand.h:338-345, neg. *)
Definition i_neg : idiom := Idiom [
  "if (token.type == token_type::minus) {";
  "    op.add_bits(1ULL << $1);";
  "    token = ctx.tokenize();";
  "}";
  "return {};"] (fun vs =>
    match vs with
    | [VInt a] => Some (OOptType ty_minus (Z.to_N a))
    | _ => None
    end).

(** operand.h:348-355, tilde. *)
Definition i_tilde : idiom := Idiom [
  "if (token.type == token_type::tilde) {";
  "    op.add_bits(1ULL << $1);";
  "    token = ctx.tokenize();";
  "}";
  "return {};"] (fun vs =>
    match vs with
    | [VInt a] => Some (OOptType ty_tilde (Z.to_N a))
    | _ => None
    end).

(** operand.h:364-379, abs. *)
Definition i_abs : idiom := Idiom [
  "const bool is_absolute = token.type == token_type::vbar;";
  "if (is_absolute) {";
  "    op.add_bits(1ULL << $1);";
  "    token = ctx.tokenize();";
  "}";
  "CHECK($2(ctx, token, op));";
  "if (is_absolute) {";
  "    CHECK(confirm_type(token, token_type::vbar));";
  "    token = ctx.tokenize();";
  "}";
  "return {};"] (fun vs =>
    match vs with
    | [VInt a; VOperand o] => Some (OAbs (Z.to_N a) o)
    | _ => None
    end).

(** operand.h:382-390, po. *)
Definition i_po : idiom := Idiom [
  "if (!equal(token, "".PO"")) {";
  "    return {};";
  "}";
  "op.add_bits((1ULL << $1) | (1ULL << $2));";
  "token = ctx.tokenize();";
  "return {};"] (fun vs =>
    match vs with
    | [VInt a; VInt b] => Some (OPo (Z.to_N a) (Z.to_N b))
    | _ => None
    end).

(** operand.h:399-403, default_rz. *)
Definition i_default_rz : idiom := Idiom [
  "op.add_bits(0xFFULL << $1);";
  "return {};"] (fun vs =>
    match vs with
    | [VInt a] => Some (ODefaultRz (Z.to_N a))
    | _ => None
    end).

(** operand.h:410-441, memory::address. *)
Definition i_memory_address : idiom := Idiom [
  "CHECK(confirm_type(token, token_type::bracket_left));";
  "token = ctx.tokenize();";
  "uint8_t regster = ZERO_REGISTER;";
  "if (token.type == token_type::regster) {";
  "    regster = token.data.regster;";
  "    token = ctx.tokenize();";
  "    try_reuse(ctx, token, op, 8);";
  "}";
  "op.add_bits(static_cast<uint64_t>(regster) << 8);";
  "if constexpr ($1) {";
  "    if (token.type == token_type::immediate) {";
  "        const int is_zero_reg = regster == ZERO_REGISTER;";
  "        const int64_t min = is_zero_reg ? 0 : -(1 << ($2 - 1));";
  "        const int64_t max = max_bits(is_zero_reg ? $3 : ($4 - 1));";
  "        uint64_t value;";
  "        CHECK(convert_integer(token, min, max, &value));";
  "        value >>= $5;";
  "        op.add_bits((value & max_bits($6)) << $7);";
  "        token = ctx.tokenize();";
  "    }";
  "}";
  "CHECK(confirm_type(token, token_type::bracket_right));";
  "token = ctx.tokenize();";
  "return {};"] (fun vs =>
    match vs with
    | [VBool i; VInt s1; VInt s2; VInt s3; VInt h; VInt s4; VInt a] =>
      if Z.eqb s1 s2 && Z.eqb s1 s3 && Z.eqb s1 s4 then Some (OMemAddress i (Z.to_N a) (Z.to_N s1) (Z.to_N h)) else None
    | _ => None
    end).

(** operand.h:444-452, flow_tests. *)
Definition i_flow_tests : idiom := Idiom [
  "static const char* tests[] = {";
  "    $list, nullptr};";
  "return assemble_cc_tests(ctx, op, token, tests, $2);"] (fun vs =>
    match vs with
    | [VStrings l; VInt a] => Some (OCcTests l (Z.to_N a))
    | _ => None
    end).

(** operand.h:457-466, store_cache. *)
Definition i_store_cache : idiom := Idiom [
  "static const char* table[] = {$list, nullptr};";
  "std::optional<uint64_t> cache = find_in_table(token, table, ""."");";
  "if (cache) {";
  "    token = ctx.tokenize();";
  "}";
  "op.add_bits(cache.value_or($2) << $3);";
  "return {};"] (fun vs =>
    match vs with
    | [VStrings l; VInt d; VInt a] => Some (ODotTable (Some (Z.to_N d)) (Z.to_N a) l)
    | _ => None
    end).

(** operand.h:493-501, ald::p. *)
Definition i_text_bit : idiom := Idiom [
  "if (!equal(token, $1)) {";
  "    return fail(token, $2);";
  "}";
  "op.add_bits(1ULL << $3);";
  "token = ctx.tokenize();";
  "return {};"] (fun vs =>
    match vs with
    | [VString s; VString m; VInt b] => Some (OReqText s (Z.to_N (2 ^ b)) m)
    | _ => None
    end).

(** operand.h:503-510, ald::phys. *)
Definition i_text : idiom := Idiom [
  "if (!equal(token, $1)) {";
  "    return fail(token, $2);";
  "}";
  "token = ctx.tokenize();";
  "return {};"] (fun vs =>
    match vs with
    | [VString s; VString m] => Some (OReqText s 0 m)
    | _ => None
    end).

(** operand.h:514-530, ald::imm_attr. *)
Definition i_imm_attr : idiom := Idiom [
  "if (!equal(token, ""a"")) {";
  "    return fail(token, ""expected 'a'"");";
  "}";
  "token = ctx.tokenize();";
  "CHECK(confirm_type(token, token_type::bracket_left));";
  "token = ctx.tokenize();";
  "CHECK((uinteger<10, 20>(ctx, token, op)));";
  "op.add_bits(0xFFULL << 8);";
  "CHECK(confirm_type(token, token_type::bracket_right));";
  "token = ctx.tokenize();";
  "return {};"] (fun vs =>
    match vs with
    | [] => Some OImmAttr
    | _ => None
    end).

(** operand.h:532-552, ald::patch_attr. *)
Definition i_patch_attr : idiom := Idiom [
  "if (!equal(token, ""a"")) {";
  "    return fail(token, ""expected 'a'"");";
  "}";
  "token = ctx.tokenize();";
  "CHECK(confirm_type(token, token_type::bracket_left));";
  "token = ctx.tokenize();";
  "CHECK((sgpr<8>(ctx, token, op)));";
  "if (token.type == token_type::plus) {";
  "    token = ctx.tokenize();";
  "}";
  "CHECK((sinteger<11, 20>(ctx, token, op)));";
  "CHECK(confirm_type(token, token_type::bracket_right));";
  "token = ctx.tokenize();";
  "return {};"] (fun vs =>
    match vs with
    | [] => Some OPatchAttr
    | _ => None
    end).

(** operand.h:554-569, ald::phys_attr. *)
Definition i_phys_attr : idiom := Idiom [
  "if (!equal(token, ""a"")) {";
  "    return fail(token, ""expected 'a'"");";
  "}";
  "token = ctx.tokenize();";
  "CHECK(confirm_type(token, token_type::bracket_left));";
  "token = ctx.tokenize();";
  "CHECK((sgpr<8>(ctx, token, op)));";
  "CHECK(confirm_type(token, token_type::bracket_right));";
  "token = ctx.tokenize();";
  "return {};"] (fun vs =>
    match vs with
    | [] => Some OPhysAttr
    | _ => None
    end).

(** operand.h:579-588, b2r::warp. *)
Definition i_text_after : idiom := Idiom [
  "if (!equal(token, $1)) {";
  "    return fail(token, $2);";
  "}";
  "token = ctx.tokenize();";
  "op.add_bits($3 << $4);";
  "op.add_bits($5 << $6);";
  "return {};"] (fun vs =>
    match vs with
    | [VString s; VString m; VInt a; VInt b; VInt c; VInt d] =>
      Some (OReqTextAfter s (Z.to_N (a * 2 ^ b)) (Z.to_N (c * 2 ^ d)) m)
    | _ => None
    end).

(** operand.h:624-645, xmad::signs. *)
Definition i_xmad_signs : idiom := Idiom [
  "const bool is_s16 = equal(token, "".S16"");";
  "if (!is_s16 && !equal(token, "".U16"")) {";
  "    return {};";
  "}";
  "token = ctx.tokenize();";
  "if (is_s16) {";
  "    op.add_bits(1ULL << 48);";
  "}";
  "if (equal(token, "".S16"")) {";
  "    op.add_bits(1ULL << 49);";
  "} else if (!equal(token, "".U16"")) {";
  "    return fail(token, ""expected .S16 or .U16"");";
  "}";
  "token = ctx.tokenize();";
  "return {};"] (fun vs =>
    match vs with
    | [] => Some OXmadSigns
    | _ => None
    end).

(** operand.h:702-733, f2f::rounding. *)
Definition i_f2f_rounding : idiom := Idiom [
  "const int dst_format = (op.value >> 8) & 0b11;";
  "const int src_format = (op.value >> 10) & 0b11;";
  "if (dst_format == src_format) {";
  "    std::optional<uint64_t> result;";
  "    if (equal(token, "".ROUND"")) {";
  "        result = 0b1000;";
  "    } else if (equal(token, "".FLOOR"")) {";
  "        result = 0b1001;";
  "    } else if (equal(token, "".CEIL"")) {";
  "        result = 0b1010;";
  "    } else if (equal(token, "".TRUNC"")) {";
  "        result = 0b1011;";
  "    } else if (equal(token, "".PASS"")) {";
  "        result = 0b0011;";
  "    }";
  "    if (result) {";
  "        token = ctx.tokenize();";
  "    }";
  "    op.add_bits(result.value_or(0) << 39);";
  "    return {};";
  "}";
  "static const char* table[] = {""RN"", ""RM"", ""RP"", ""RZ"", nullptr};";
  "const std::optional result = find_in_table(token, table, ""."");";
  "if (result) {";
  "    token = ctx.tokenize();";
  "}";
  "op.add_bits(result.value_or(0) << 39);";
  "return {};"] (fun vs =>
    match vs with
    | [] => Some OF2fRounding
    | _ => None
    end).

(** operand.h:754-770, f2i::int_format. *)
Definition i_int_format : idiom := Idiom [
  "static const char* table_unsigned[] = {$list, nullptr};";
  "static const char* table_signed[] = {$list, nullptr};";
  "std::optional result = find_in_table(token, table_unsigned, ""."");";
  "if (!result) {";
  "    result = find_in_table(token, table_signed, ""."");";
  "    if (!result) {";
  "        return fail(token, $3);";
  "    }";
  "    op.add_bits(1ULL << $4);";
  "}";
  "op.add_bits(*result << $5);";
  "token = ctx.tokenize();";
  "return {};"] (fun vs =>
    match vs with
    | [VStrings u; VStrings s; VString m; VInt g; VInt a] => Some (OIntFormat u s (Z.to_N a) (Z.to_N g) m)
    | _ => None
    end).

(** operand.h:1269-1285, i2i::format. *)
Definition i_i2i_format : idiom := Idiom [
  "static const char* table_unsigned[] = {$list, nullptr};";
  "static const char* table_signed[] = {$list, nullptr};";
  "std::optional<int64_t> result = find_in_table(token, table_unsigned, ""."");";
  "if (!result) {";
  "    result = find_in_table(token, table_signed, ""."");";
  "    if (!result) {";
  "        return fail(token, $3);";
  "    }";
  "    op.add_bits(1ULL << $4);";
  "}";
  "op.add_bits(*result << $5);";
  "token = ctx.tokenize();";
  "return {};"] (fun vs =>
    match vs with
    | [VStrings u; VStrings s; VString m; VInt g; VInt a] => Some (OIntFormat u s (Z.to_N a) (Z.to_N g) m)
    | _ => None
    end).

(** operand.h:778-788, p2r::mode. *)
Definition i_p2r_mode : idiom := Idiom [
  "static const char* table[] = {$list, nullptr};";
  "const std::optional<uint64_t> result = find_in_table(token, table, $2);";
  "if (!result) {";
  "    return fail(token, $3);";
  "}";
  "op.add_bits(*result << $4);";
  "token = ctx.tokenize();";
  "return {};"] (fun vs =>
    match vs with
    | [VStrings l; VString p; VString m; VInt a] => Some (OReqTable p (Z.to_N a) l m)
    | _ => None
    end).

(** operand.h:843-861, ldc::address. *)
Definition i_ldc_address : idiom := Idiom [
  "if (!equal(token, ""c"")) {";
  "    return fail(token, ""expected constant buffer"");";
  "}";
  "token = ctx.tokenize();";
  "CHECK(confirm_type(token, token_type::bracket_left));";
  "token = ctx.tokenize();";
  "uint64_t value;";
  "CHECK(convert_integer(token, 0, max_bits(5), &value));";
  "op.add_bits(static_cast<uint64_t>(value) << 36);";
  "token = ctx.tokenize();";
  "CHECK(confirm_type(token, token_type::bracket_right));";
  "token = ctx.tokenize();";
  "return memory::address<true, 20, 16, 0>(ctx, token, op);"] (fun vs =>
    match vs with
    | [] => Some OLdcAddress
    | _ => None
    end).

(** operand.h:898-1197, s2r. *)
Definition i_s2r : idiom := Idiom [
  "static const char* table[] = {";
  "    $list,";
  "    nullptr,";
  "};";
  "std::optional<uint64_t> value;";
  "if (equal(token, ""SR_TID"")) {";
  "    token = ctx.tokenize();";
  "    if (equal(token, "".X"")) {";
  "        value = 33;";
  "    } else if (equal(token, "".Y"")) {";
  "        value = 34;";
  "    } else if (equal(token, "".Z"")) {";
  "        value = 35;";
  "    } else {";
  "        value = 32;";
  "    }";
  "    if (value != 32) {";
  "        token = ctx.tokenize();";
  "    }";
  "} else if (equal(token, ""SR_CTAID"")) {";
  "    token = ctx.tokenize();";
  "    if (equal(token, "".X"")) {";
  "        value = 37;";
  "    } else if (equal(token, "".Y"")) {";
  "        value = 38;";
  "    } else if (equal(token, "".Z"")) {";
  "        value = 39;";
  "    } else {";
  "        return fail(token, ""expected .X, .Y or .Z after SR_CTAID"");";
  "    }";
  "    token = ctx.tokenize();";
  "} else {";
  "    value = find_in_table(token, table, """");";
  "    if (!value) {";
  "        return fail(token, ""invalid system register \33[1m%.*s\33[0m"",";
  "                    static_cast<int>(token.data.string.size()), token.data.string.data());";
  "    }";
  "    token = ctx.tokenize();";
  "}";
  "op.add_bits(*value << 20);";
  "return {};"] (fun vs =>
    match vs with
    | [VStrings l] => Some (OS2r l)
    | _ => None
    end).

(** operand.h:1208-1225, ldg::size. *)
Definition i_ldg_size : idiom := Idiom [
  "static const char* table[] = {""U8"", ""S8"", ""U16"", ""S16"", ""32"", ""64"", ""128"", ""U""};";
  "static const char* msg = ""expected .U8, .S8, .U16, .S16, .32, .64, .128 or .U.128"";";
  "const std::optional result = find_in_table(token, table, ""."");";
  "if (result) {";
  "    token = ctx.tokenize();";
  "    if (*result == 7) {";
  "        if (!equal(token, "".128"")) {";
  "            return fail(token, msg);";
  "        }";
  "        token = ctx.tokenize();";
  "    }";
  "}";
  "op.add_bits(result.value_or(4) << 48);";
  "return {};"] (fun vs =>
    match vs with
    | [] => Some OLdgSize
    | _ => None
    end).

(** operand.h:1436-1449, video::selector. *)
Definition i_selector : idiom := Idiom [
  "static const char* bytes[] = {""B0"", ""B1"", ""B2"", ""B3"", nullptr};";
  "static const char* shorts[] = {$list, nullptr};";
  "const uint64_t type = (op.value >> $2) & 0b111;";
  "const char* const* const table = type == $3 ? shorts : bytes;";
  "const std::optional result = find_in_table(token, table, ""."");";
  "if (result) {";
  "    token = ctx.tokenize();";
  "}";
  "op.add_bits(result.value_or(0) << $4);";
  "return {};"] (fun vs =>
    match vs with
    | [VStrings l; VInt t; VInt n; VInt a] => Some (OSelector (Z.to_N t) (Z.to_N n) l (Z.to_N a))
    | _ => None
    end).

(** operand.h:1317-1340, atomic_size. *)
Definition i_atomic_size : idiom := Idiom [
  "static const char* msg = ""expected .U32, .S32, .U64, .S64, .F32.FTZ.RN, .F16x2.RN or .S64"";";
  "static const char* table[] = {""U32"", ""S32"", ""U64"", ""F32"", ""F16x2"", ""S64"", nullptr};";
  "const std::optional<uint64_t> result = find_in_table(token, table, ""."");";
  "if (result) {";
  "    token = ctx.tokenize();";
  "    switch (*result) {";
  "    case 3:";
  "        if (!equal(token, "".FTZ"")) {";
  "            return fail(token, msg);";
  "        }";
  "        token = ctx.tokenize();";
  "        [[fallthrough]];";
  "    case 4:";
  "        if (!equal(token, "".RN"")) {";
  "            return fail(token, msg);";
  "        }";
  "        token = ctx.tokenize();";
  "    }";
  "}";
  "op.add_bits(result.value_or(0) << $1);";
  "return {};"] (fun vs =>
    match vs with
    | [VInt a] => Some (OAtomicSize (Z.to_N a))
    | _ => None
    end).

(** operand.h:1366-1372, lea::lo. *)
Definition i_opt_text : idiom := Idiom [
  "if (equal(token, $1)) {";
  "    token = ctx.tokenize();";
  "}";
  "return {};"] (fun vs =>
    match vs with
    | [VString s] => Some (OOptText s)
    | _ => None
    end).

(** operand.h:1407-1426, video::src_format. *)
Definition i_src_format : idiom := Idiom [
  "static const char* signed_table[] = {""S8"", """", ""S16"", ""S32"", nullptr};";
  "static const char* unsigned_table[] = {""U8"", """", ""U16"", ""U32"", nullptr};";
  "bool is_signed = true;";
  "std::optional<int64_t> result = find_in_table(token, signed_table, ""."");";
  "if (!result) {";
  "    is_signed = false;";
  "    result = find_in_table(token, unsigned_table, ""."");";
  "    if (!result) {";
  "        is_signed = true;";
  "    }";
  "}";
  "if (result) {";
  "    token = ctx.tokenize();";
  "}";
  "op.add_bits(result.value_or(3) << $1);";
  "op.add_bits((is_signed ? 1ULL : 0ULL) << $2);";
  "return {};"] (fun vs =>
    match vs with
    | [VInt a; VInt g] => Some (OSrcFormat (Z.to_N a) (Z.to_N g))
    | _ => None
    end).

(** operand.h:1452-1461, video::imm_format. *)
Definition i_imm_format : idiom := Idiom [
  "static const char* table[] = {$list, nullptr};";
  "std::optional<int64_t> result = find_in_table(token, table, ""."");";
  "if (result) {";
  "    token = ctx.tokenize();";
  "}";
  "op.add_bits(result.value_or($2) << $3);";
  "return {};"] (fun vs =>
    match vs with
    | [VStrings l; VInt d; VInt a] => Some (ODotTable (Some (Z.to_N d)) (Z.to_N a) l)
    | _ => None
    end).

(** operand.h:1496-1509, tex_type. *)
Definition i_tex_type : idiom := Idiom [
  "static const char* types[]{";
  "    ""1D"", ""ARRAY_1D"", ""2D"", ""ARRAY_2D"", ""3D"", ""ARRAY_3D"", ""CUBE"", ""ARRAY_CUBE"",";
  "};";
  "const std::optional<uint64_t> result = find_in_table(token, types, """");";
  "if (!result) {";
  "    return fail(token,";
  "                ""expected 1D, ARRAY_1D, 2D, ARRAY_2D, 3D, ARRAY_3D, CUBE, or ARRAY_CUBE"");";
  "}";
  "token = ctx.tokenize();";
  "op.add_bits(*result << $1);";
  "return {};"] (fun vs =>
    match vs with
    | [VInt a] => Some (OTexType (Z.to_N a))
    | _ => None
    end).

(** operand.h:1529-1536, zero. *)
Definition i_zero : idiom := Idiom [
  "if (token.type != token_type::immediate || token.data.immediate != 0) {";
  "    return fail(token, ""expected 0"");";
  "}";
  "token = ctx.tokenize();";
  "return {};"] (fun vs =>
    match vs with
    | [] => Some OZero
    | _ => None
    end).

(** operand.h:1552-1571, texs_mode. *)
Definition i_texs_mode : idiom := Idiom [
  "Lod lod = Lod::None;";
  "bool dc = false;";
  "if (equal(token, "".LZ"")) {";
  "    lod = Lod::LZ;";
  "    token = ctx.tokenize();";
  "} else if (equal(token, "".LL"")) {";
  "    lod = Lod::LL;";
  "    token = ctx.tokenize();";
  "}";
  "if (equal(token, "".DC"")) {";
  "    dc = true;";
  "    token = ctx.tokenize();";
  "}";
  "op.add_bits(((dc ? 0b100ULL : 0ULL) | static_cast<uint64_t>(lod)) << $1);";
  "return {};"] (fun vs =>
    match vs with
    | [VInt a] => Some (OTexsMode (Z.to_N a))
    | _ => None
    end).

(** operand.h:1574-1640, tlds_type. *)
Definition i_tlds_type : idiom := Idiom [
  "static constexpr const char* table[]{";
  "    ""1D"", ""2D"", ""3D"", ""ARRAY_2D"", nullptr,";
  "};";
  "const bool ll = ((op.value >> $1) & 1) != 0;";
  "const bool aoffi = ((op.value >> ($2 + 1)) & 1) != 0;";
  "const bool ms = ((op.value >> ($3 + 2)) & 1) != 0;";
  "op.value &= ~(uint64_t(0b111) << $4);";
  "const std::optional<uint64_t> type = find_in_table(token, table, """");";
  "if (!type) {";
  "    return fail(token, ""expected 1D, 2D, ARRAY_2D, or 3D"");";
  "}";
  "uint64_t mode = 0;";
  "switch (*type) {";
  "case 0:";
  "    if (aoffi) {";
  "        return fail(token, ""1D has no AOFFI"");";
  "    }";
  "    if (ms) {";
  "        return fail(token, ""1D has no MS"");";
  "    }";
  "    mode = ll ? 1 : 0;";
  "    break;";
  "case 1:";
  "    if (aoffi && ms) {";
  "        return fail(token, ""AOFFI and MS can't be used at the same time"");";
  "    }";
  "    if (ll) {";
  "        if (ms) {";
  "            return fail(token, ""LL can't be used with MS in 2D"");";
  "        }";
  "        mode = aoffi ? 12 : 5;";
  "    } else {";
  "        if (aoffi) {";
  "            mode = 4;";
  "        } else if (ms) {";
  "            mode = 6;";
  "        } else {";
  "            mode = 2;";
  "        }";
  "    }";
  "    break;";
  "case 2:";
  "    if (aoffi) {";
  "        return fail(token, ""AOFFI can't be used in 3D"");";
  "    }";
  "    if (ms) {";
  "        return fail(token, ""MS can't be used in 3D"");";
  "    }";
  "    mode = 7;";
  "    break;";
  "case 3:";
  "    if (aoffi) {";
  "        return fail(token, ""AOFFI can't be used in ARRAY_2D"");";
  "    }";
  "    if (ms) {";
  "        return fail(token, ""MS can't be used in ARRAY_2D"");";
  "    }";
  "    mode = 8;";
  "    break;";
  "}";
  "op.add_bits(mode << $5);";
  "token = ctx.tokenize();";
  "return {};"] (fun vs =>
    match vs with
    | [VInt a; VInt b; VInt c; VInt d; VInt e] =>
      if Z.eqb a b && Z.eqb a c && Z.eqb a d && Z.eqb a e then Some (OTldsType (Z.to_N a)) else None
    | _ => None
    end).

(** operand.h:1643-1742, texs_type. *)
Definition i_texs_type : idiom := Idiom [
  "static constexpr const char* table[]{";
  "    ""1D"", ""2D"", """", """", """", """", """", ""ARRAY_2D"", """", """", ""3D"", """", ""CUBE"", """", nullptr,";
  "};";
  "const std::optional<uint64_t> type = find_in_table(token, table, """");";
  "if (!type) {";
  "    return fail(token, ""expected 1D, 2D, ARRAY_2D, 3D, or CUBE"");";
  "}";
  "const Lod lod = static_cast<Lod>((op.value >> $1) & 0b011);";
  "const bool dc = ((op.value >> $2) & 0b100) != 0;";
  "op.value &= ~(uint64_t{0b111} << $3);";
  "switch (*type) {";
  "case 0:";
  "    if (lod != Lod::LZ || dc) {";
  "        return fail(token, ""1D is only valid with LZ and no-DC"");";
  "    }";
  "    op.add_bits(0x0000000000000000ULL);";
  "    break;";
  "case 1:";
  "    if (dc) {";
  "        switch (lod) {";
  "        case Lod::None:";
  "            op.add_bits(0x0080000000000000ULL);";
  "            break;";
  "        case Lod::LZ:";
  "            op.add_bits(0x00C0000000000000ULL);";
  "            break;";
  "        case Lod::LL:";
  "            op.add_bits(0x00A0000000000000ULL);";
  "            break;";
  "        }";
  "    } else {";
  "        switch (lod) {";
  "        case Lod::None:";
  "            op.add_bits(0x0020000000000000ULL);";
  "            break;";
  "        case Lod::LZ:";
  "            op.add_bits(0x0040000000000000ULL);";
  "            break;";
  "        case Lod::LL:";
  "            op.add_bits(0x0060000000000000ULL);";
  "            break;";
  "        }";
  "    }";
  "    break;";
  "case 7:";
  "    if (dc) {";
  "        if (lod != Lod::LZ) {";
  "            return fail(token, ""DC ARRAY_2D is only valid with LZ"");";
  "        }";
  "        op.add_bits(0x0120000000000000ULL);";
  "    } else {";
  "        switch (lod) {";
  "        case Lod::None:";
  "            op.add_bits(0x00E0000000000000ULL);";
  "            break;";
  "        case Lod::LZ:";
  "            op.add_bits(0x0100000000000000ULL);";
  "            break;";
  "        default:";
  "            return fail(token, ""LL ARRAY_2D is illegal"");";
  "        }";
  "    }";
  "    break;";
  "case 10:";
  "    if (dc) {";
  "        return fail(token, ""3D cannot be DC"");";
  "    }";
  "    switch (lod) {";
  "    case Lod::None:";
  "        op.add_bits(0x0140000000000000ULL);";
  "        break;";
  "    case Lod::LZ:";
  "        op.add_bits(0x0160000000000000ULL);";
  "        break;";
  "    default:";
  "        return fail(token, ""3D can only have the default lod or LZ"");";
  "    }";
  "    break;";
  "case 12:";
  "    if (dc) {";
  "        return fail(token, ""CUBE cannot be DC"");";
  "    }";
  "    switch (lod) {";
  "    case Lod::None:";
  "        op.add_bits(0x0180000000000000ULL);";
  "        break;";
  "    case Lod::LL:";
  "        op.add_bits(0x01A0000000000000ULL);";
  "        break;";
  "    default:";
  "        return fail(token, ""CUBE can only have the default lod or LL"");";
  "    }";
  "    break;";
  "}";
  "token = ctx.tokenize();";
  "return {};"] (fun vs =>
    match vs with
    | [VInt a; VInt b; VInt c] => if Z.eqb a b && Z.eqb a c then Some (OTexsType (Z.to_N a)) else None
    | _ => None
    end).

(** operand.h:1744-1783, texs_swizzle. *)
Definition i_texs_swizzle : idiom := Idiom [
  "if (((op.value >> 28) & 0xFF) == 0xFF) {";
  "    if (equal(token, ""R"")) {";
  "        op.add_bits(0x0000000000000000ULL);";
  "    } else if (equal(token, ""G"")) {";
  "        op.add_bits(0x0004000000000000ULL);";
  "    } else if (equal(token, ""B"")) {";
  "        op.add_bits(0x0008000000000000ULL);";
  "    } else if (equal(token, ""A"")) {";
  "        op.add_bits(0x000C000000000000ULL);";
  "    } else if (equal(token, ""RG"")) {";
  "        op.add_bits(0x0010000000000000ULL);";
  "    } else if (equal(token, ""RA"")) {";
  "        op.add_bits(0x0014000000000000ULL);";
  "    } else if (equal(token, ""GA"")) {";
  "        op.add_bits(0x0018000000000000ULL);";
  "    } else if (equal(token, ""BA"")) {";
  "        op.add_bits(0x001C000000000000ULL);";
  "    } else {";
  "        return fail(token, ""invalid RGBA swizzle"");";
  "    }";
  "} else {";
  "    if (equal(token, ""RGB"")) {";
  "        op.add_bits(0x0000000000000000ULL);";
  "    } else if (equal(token, ""RGA"")) {";
  "        op.add_bits(0x0004000000000000ULL);";
  "    } else if (equal(token, ""RBA"")) {";
  "        op.add_bits(0x0008000000000000ULL);";
  "    } else if (equal(token, ""GBA"")) {";
  "        op.add_bits(0x000C000000000000ULL);";
  "    } else if (equal(token, ""RGBA"")) {";
  "        op.add_bits(0x0010000000000000ULL);";
  "    } else {";
  "        return fail(token, ""invalid RGBA swizzle"");";
  "    }";
  "}";
  "token = ctx.tokenize();";
  "return {};"] (fun vs =>
    match vs with
    | [] => Some OTexsSwizzle
    | _ => None
    end).

(** operand.h:1808-1827, txq::mode. *)
Definition i_txq_mode : idiom := Idiom [
  "static const char* modes[]{";
  "    $list,";
  "    nullptr,";
  "};";
  "const std::optional<uint64_t> result = find_in_table(token, modes, $2);";
  "if (!result) {";
  "    return fail(token, $3);";
  "}";
  "op.add_bits(*result << $4);";
  "token = ctx.tokenize();";
  "return {};"] (fun vs =>
    match vs with
    | [VStrings l; VString p; VString m; VInt a] => Some (OReqTable p (Z.to_N a) l m)
    | _ => None
    end).

(** All of them. *)
Definition idioms : list idiom := [
  i_comma; i_uimm_extended; i_label; i_dgpr; i_sgpr; i_mirror_dgpr; i_cbuf; i_imm; i_fimm; i_dimm; i_half_neg; i_half; i_bop; i_pred; i_inverted_pred; i_neg; i_tilde; i_abs; i_po; i_default_rz; i_memory_address; i_flow_tests; i_store_cache; i_text_bit; i_text; i_imm_attr; i_patch_attr; i_phys_attr; i_text_after; i_xmad_signs; i_f2f_rounding; i_int_format; i_i2i_format; i_p2r_mode; i_ldc_address; i_s2r; i_ldg_size; i_selector; i_atomic_size; i_opt_text; i_src_format; i_imm_format; i_tex_type; i_zero; i_texs_mode; i_tlds_type; i_texs_type; i_texs_swizzle; i_txq_mode].
