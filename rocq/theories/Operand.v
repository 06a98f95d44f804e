(** * Operand: /repo/src/helper.cpp and the hand-written operands of
    /repo/src/operand.h.

    An operand is a C++ function [error (context&, token&, opcode&)].  Here it
    maps the environment (labels, pc, assert mode: constant while one
    instruction is parsed) and the state (cursor, current token, opcode) to an
    outcome.  [Err] corresponds to returning a set [error]; the partially
    updated context and opcode are then thrown away by [parse_instruction]
    (src/parse.cpp:175-177) and are not part of the model. *)
From Verif Require Import Base Float Lexer.
Local Open Scope string_scope.
Open Scope Z_scope.

(** What operands read besides the state. *)
Record env := Env { e_labels : labels; e_pc : Z; e_asserts : bool }.

(** What operands update. *)
Record st := St { s_cur : cursor; s_tok : token; s_op : opcode }.

Definition s_kind (s : st) : tkind := kind (s_tok s).

(** [token = ctx.tokenize();] *)
Definition advance_tok (s : st) : res st :=
  let* (t, c) := tokenize (s_cur s) in Ok (St c t (s_op s)).

(** [op.add_bits(bits);] *)
Definition put (e : env) (bits : N) (s : st) : res st :=
  let* op := add_bits (e_asserts e) (s_op s) bits in Ok (St (s_cur s) (s_tok s) op).

(** Assigning [op.value]. *)
Definition set_value (v : N) (s : st) : st :=
  St (s_cur s) (s_tok s) (Opcode v (reuse (s_op s)) (sched (s_op s))).

(** ** /repo/src/helper.cpp *)

(** helper.cpp:29-40. *)
Definition expected_message (ty : ttype) (k : tkind) : message :=
  match k with
  | TNone => Message ("expected " ++ bold "%s") [AStr (lit (type_name ty))]
  | _ =>
      Message ("expected " ++ bold "%s" ++ " and got " ++ bold "%s %.*s")
        (AStr (lit (type_name ty)) :: AStr (lit (type_name (type_of k))) :: int_view (token_view k))
  end.
Definition confirm_type (ty : ttype) (s : st) : res st :=
  if ttype_eqb (type_of (s_kind s)) ty then Ok s
  else fail (s_tok s) (expected_message ty (s_kind s)).

(** helper.cpp:23-27. *)
Definition confirm_type_next (ty : ttype) (s : st) : res st :=
  let* s := advance_tok s in confirm_type ty s.

(** helper.cpp:42-49. *)
Definition equal (t : token) (str : string) : bool :=
  match kind t with TIdent s => text_eqb s (lit str) | _ => false end.

(** helper.cpp:57-60. *)
Definition range_message (v min max : Z) : message :=
  Message ("integer " ++ bold "%d" ++ " is out of range, expected to be from %ld to %ld inclusively")
    [ALong v; ALong min; ALong max].
(** helper.cpp:51-64: the converted value, as the [uint64_t] written to
    [result]. *)
Definition convert_integer (s : st) (min max : Z) : res N :=
  let* s := confirm_type ty_imm s in
  match s_kind s with
  | TImm v =>
      if (v <? min) || (max <? v) then
        fail (s_tok s) (range_message v min max)
      else Ok (u64_of_Z v)
  | _ => Undef UB_inactive_union (* not reached: confirm_type checked it *)
  end.

(** helper.cpp:66-89.  [terminated] says whether the C++ array ends with the
    [nullptr] sentinel the loop looks for; walking past the end of one that
    does not is undefined. *)
Fixpoint index_of (i : N) (tbl : list string) (t : text) : option N :=
  match tbl with
  | [] => None
  | x :: tbl' => if text_eqb t (lit x) then Some i else index_of (i + 1) tbl' t
  end.
Fixpoint strip_prefix (p t : text) : option text :=
  match p, t with
  | [], _ => Some t
  | x :: p', y :: t' => if Ascii.eqb x y then strip_prefix p' t' else None
  | _ :: _, [] => None
  end.
Definition find_in_table (terminated : bool) (tbl : list string) (prefix : string) (t : token)
  : res (option N) :=
  match kind t with
  | TIdent s =>
      match strip_prefix (lit prefix) s with
      | None => Ok None
      | Some txt =>
          match index_of 0 tbl txt with
          | Some i => Ok (Some i)
          | None => if terminated then Ok None else Undef UB_table_overrun
          end
      end
  | _ => Ok None
  end.

Definition value_or (o : option N) (d : N) : N := match o with Some x => x | None => d end.

(** helper.cpp:91-112. *)
Definition try_reuse (e : env) (address : N) (s : st) : res st :=
  if negb (equal (s_tok s) ".reuse") then Ok s
  else
    let set flag :=
      let* op := add_reuse (e_asserts e) (s_op s) flag in
      advance_tok (St (s_cur s) (s_tok s) op) in
    if N.eqb address 8 then set reuse_gpr8
    else if N.eqb address 20 then set reuse_gpr20
    else if N.eqb address 39 then set reuse_gpr39
    else fail (s_tok s) "register cannot be reused".

(** helper.cpp:13-21 (also 114-122: destinations and sources are the same). *)
Definition assemble_gpr (e : env) (address : N) (s : st) : res st :=
  let* s := confirm_type ty_reg s in
  match s_kind s with
  | TReg r =>
      let* s := put e (shl64 r address) s in
      let* s := advance_tok s in
      try_reuse e address s
  | _ => Undef UB_inactive_union
  end.

(** helper.cpp:124-144.  [value - (1 << 19)] cannot overflow. *)
Definition assemble_signed_20bit_immediate (e : env) (s : st) : res st :=
  let* v := convert_integer s (- 2 ^ 19) (Z.of_N (max_bits 19)) in
  let value := s64_of_N v in
  let raw := if value <? 0 then N.land (u64_of_Z (value - 2 ^ 19)) (max_bits 19) else v in
  let negative := if value <? 0 then 1%N else 0%N in
  let* s := put e (shl64 raw 20) s in
  let* s := put e (shl64 negative 56) s in
  advance_tok s.

(** helper.cpp:146-200.  The comparison of line 157 converts its integer side
    to float and so compares a float with itself.  [bits] is 20 or 32. *)
Definition FLOAT_MESSAGE := "expected floating-point literal, QNAN, or INF".
(** helper.cpp:158-159: the conversion lacks its '%', the argument is unused. *)
Definition integer_message (z : Z) : message :=
  Message "integer immediate ldcannot be represented as float" [ALong z].
Definition assemble_float_immediate (e : env) (bits : N) (s : st) : res st :=
  let* (raw, s) :=
    match s_kind s with
    | TFloat f => Ok (f, s)
    | TImm z =>
        let value := f32_of_Z z in
        if f32_ne (f32_of_Z z) value then
          fail (s_tok s) (integer_message z)
        else Ok (value, s)
    | TPlus | TMinus | TIdent _ =>
        let negate := match s_kind s with TMinus => true | _ => false end in
        let* s := match s_kind s with TIdent _ => Ok s | _ => advance_tok s end in
        if equal (s_tok s) "QNAN" then Ok (with_sign negate f32_sign f32_qnan, s)
        else if equal (s_tok s) "INF" then Ok (with_sign negate f32_sign f32_inf, s)
        else fail (s_tok s) FLOAT_MESSAGE
    | _ => fail (s_tok s) FLOAT_MESSAGE
    end in
  let* s :=
    (if N.eqb bits 20 then
       let* s := put e (shl64 (N.shiftr (N.modulo (N.shiftl raw 1) two32) 13) 20) s in
       if negb (N.eqb (N.shiftr raw 31) 0) then put e (shl64 1 56) s else Ok s
     else if N.eqb bits 32 then put e (shl64 raw 20) s
     else if e_asserts e then Abort "invalid bits" else Ok s) in
  advance_tok s.

(** helper.cpp:202-247. *)
Definition assemble_double_immediate (e : env) (s : st) : res st :=
  let* (raw, s) :=
    match s_kind s with
    | TFloat f =>
        let value := f64_of_f32 f in
        let* s := if f64_lt0 value then put e (shl64 1 56) s else Ok s in
        Ok (value, s)
    | TImm z =>
        let value := f64_of_Z z in
        let* s := if f64_lt0 value then put e (shl64 1 56) s else Ok s in
        Ok (value, s)
    | TPlus | TMinus | TIdent _ =>
        let* s := match s_kind s with TMinus => put e (shl64 1 56) s | _ => Ok s end in
        let* s := match s_kind s with TIdent _ => Ok s | _ => advance_tok s end in
        if equal (s_tok s) "QNAN" then Ok (f64_qnan, s)
        else if equal (s_tok s) "INF" then Ok (f64_inf, s)
        else fail (s_tok s) FLOAT_MESSAGE
    | _ => fail (s_tok s) FLOAT_MESSAGE
    end in
  let* s := put e (shl64 (N.shiftr (shl64 raw 1) 45) 20) s in
  advance_tok s.

(** helper.cpp:249-304.  [neg_bit] is absent when the C++ argument is -1;
    [bits] is 9 or 16. *)
Definition assemble_half_float_immediate (e : env) (bits offset : N) (neg_bit : option N) (s : st)
  : res st :=
  let put_neg (b : bool) (s : st) : res st :=
    match neg_bit with
    | Some a => if b then put e (shl64 1 a) s else Ok s
    | None => Ok s
    end in
  let* (value, s) :=
    match s_kind s with
    | TFloat f => let* s := put_neg (f32_lt0 f) s in Ok (fp32_to_fp16 f, s)
    | TImm z => let* s := put_neg (z <? 0) s in Ok (fp32_to_fp16 (f32_of_Z z), s)
    | TPlus | TMinus | TIdent _ =>
        let negate := match s_kind s with TMinus => true | _ => false end in
        let* s := match s_kind s with TIdent _ => Ok s | _ => advance_tok s end in
        let* value :=
          (if equal (s_tok s) "QNAN" then Ok 0x7FFF%N
           else if equal (s_tok s) "INF" then Ok 0x7C00%N
           else fail (s_tok s) FLOAT_MESSAGE) in
        let* s := put_neg negate s in
        Ok (match neg_bit with
            | None => if negate then N.lor value 0x8000 else value
            | Some _ => value
            end, s)
    | _ => fail (s_tok s) FLOAT_MESSAGE
    end in
  let* s :=
    (if N.eqb bits 9 then put e (shl64 (N.shiftr (u16 (N.shiftl value 1)) 7) offset) s
     else if N.eqb bits 16 then put e (shl64 value offset) s
     else if e_asserts e then Abort "invalid bits" else Ok s) in
  advance_tok s.

(** helper.cpp:306-336.  [static_cast<int16_t>] is exact after the check. *)
Definition assemble_constant_buffer (e : env) (s : st) : res st :=
  let first_token := s_tok s in
  if negb (equal (s_tok s) "c") then fail (s_tok s) "expected constant buffer"
  else
    let* s := confirm_type_next ty_lbrack s in
    let* s := advance_tok s in
    let* v := convert_integer s 0 (Z.of_N (max_bits 5)) in
    let* s := put e (shl64 v 34) s in
    let* s := confirm_type_next ty_rbrack s in
    let* s := confirm_type_next ty_lbrack s in
    let* s := advance_tok s in
    let* v := convert_integer s (-32768) 32767 in
    let offset := s64_of_N v in
    if negb (Z.rem offset 4 =? 0) then
      fail first_token "immediate constant buffer access has to be aligned to 4 bytes"
    else
      let* s := put e (shl64 (N.shiftr (Z.to_N (offset mod 65536)) 2) 20) s in
      let* s := confirm_type_next ty_rbrack s in
      advance_tok s.

(** ** /repo/src/operand.h, helpers and hand-written operands *)

(** operand.h:71-78. *)
Definition assemble_flag (e : env) (flag : string) (address : N) (s : st) : res st :=
  if equal (s_tok s) flag then
    let* s := put e (shl64 1 address) s in advance_tok s
  else Ok s.

(** operand.h:80-87. *)
Definition assemble_uint (e : env) (max_size : Z) (address : N) (s : st) : res st :=
  let* v := convert_integer s 0 max_size in
  let* s := put e (shl64 v address) s in
  advance_tok s.

(** operand.h:89-100. *)
Definition run_uimm_extended (e : env) (s : st) : res st :=
  let* v := convert_integer s 0 (2 ^ 20) in
  let* (v, s) :=
    (if N.leb 0x80000 v then
       let* s := put e (shl64 1 56) s in Ok ((v - 0x80000)%N, s)
     else Ok (v, s)) in
  let* s := put e (shl64 v 20) s in
  advance_tok s.

(** operand.h:102-113. *)
Definition assemble_int (e : env) (bits : N) (address : N) (s : st) : res st :=
  let raw_bits := Z.of_N bits - 1 in
  let* v := convert_integer s (- 2 ^ raw_bits) (2 ^ raw_bits - 1) in
  let raw := N.land v (N.shiftl 1 bits - 1) in
  let* s := put e (shl64 raw address) s in
  advance_tok s.

(** operand.h:33-48 [DEFINE_DOT_TABLE]; [default] is absent when the C++
    default is negative.  Also [store_cache] (operand.h:456-466), the same
    code written out. *)
Definition dot_table (e : env) (default : option N) (address : N) (tbl : list string) (s : st)
  : res st :=
  let* result := find_in_table true tbl "." (s_tok s) in
  match result, default with
  | None, None => fail (s_tok s) "invalid identifier"
  | None, Some d => put e (shl64 d address) s
  | Some i, _ => let* s := advance_tok s in put e (shl64 i address) s
  end.

(** operand.h:296-307 [bop], 775-789 [p2r::mode], 1806-1828 [txq::mode]: a
    mandatory table entry, bits added before reading the next token. *)
Definition req_table (e : env) (prefix : string) (address : N) (tbl : list string) (msg : string)
  (s : st) : res st :=
  let* result := find_in_table true tbl prefix (s_tok s) in
  match result with
  | None => fail (s_tok s) msg
  | Some i => let* s := put e (shl64 i address) s in advance_tok s
  end.

(** A mandatory literal identifier that adds [bits] first and then reads the
    next token: [ald::p] 493-501, [ald::phys] 503-510, [cc_text] 608-615,
    [lop3::lut] 655-662, [image::p] 866-873, [image::d] 875-883, [lea::hi]
    1357-1364, [shf::r], [shf::l] 1377-1393, [b_text] 1511-1518, [lod_text]
    1520-1527. *)
Definition req_text (e : env) (str : string) (bits : N) (msg : string) (s : st) : res st :=
  if negb (equal (s_tok s) str) then fail (s_tok s) msg
  else let* s := put e bits s in advance_tok s.

(** operand.h:577-600 [b2r::warp], [b2r::result]: reads the next token, then
    adds two groups of bits. *)
Definition req_text_after (e : env) (str : string) (bits1 bits2 : N) (msg : string) (s : st)
  : res st :=
  if negb (equal (s_tok s) str) then fail (s_tok s) msg
  else
    let* s := advance_tok s in
    let* s := put e bits1 s in
    put e bits2 s.

(** operand.h:1366-1372 [lea::lo]. *)
Definition opt_text (str : string) (s : st) : res st :=
  if equal (s_tok s) str then advance_tok s else Ok s.

(** operand.h:115-120. *)
Definition run_comma (s : st) : res st :=
  let* s := confirm_type ty_comma s in advance_tok s.

(** Signed 64-bit subtraction. *)
Definition sub64 (a b : Z) : res Z :=
  let r := a - b in
  if (r <? INT64_MIN) || (INT64_MAX <? r) then Undef UB_signed_overflow else Ok r.

(** operand.h:130-131. *)
Definition label_message (s : text) : message :=
  Message ("label " ++ bold "%.*s" ++ " not defined") (size_view s).
(** operand.h:122-154. *)
Definition run_label (e : env) (s : st) : res st :=
  let* absolute :=
    match s_kind s with
    | TIdent name =>
        match find_label (e_labels e) name with
        | None => fail (s_tok s) (label_message name)
        | Some a => Ok a
        end
    | TImm z => Ok z
    | _ => fail (s_tok s) "expected label"
    end in
  let max := Z.of_N (max_bits 23) in
  let min := - Z.of_N (max_bits 23) - 1 in
  let* d := sub64 absolute (e_pc e) in
  let* value := sub64 d 8 in
  if (max <? value) || (value <? min) then fail (s_tok s) "label out of range"
  else
    let* s := put e (shl64 (N.land (u64_of_Z value) 0x7FFFFF) 20) s in
    let* s := put e (shl64 (if value <? 0 then 1 else 0) 43) s in
    advance_tok s.

(** operand.h:168-181. *)
Definition run_mirror_dgpr (e : env) (address : N) (s : st) : res st :=
  let old_op_value := value (s_op s) in
  let s := set_value (andnot old_op_value (shl64 0xFF address)) s in
  let* s := assemble_gpr e address s in
  if negb (N.eqb (value (s_op s)) old_op_value) then
    fail (s_tok s) "source register is not mirrored to destination register"
  else Ok s.

(** operand.h:309-323. *)
Definition run_pred (e : env) (address : N) (negable : bool) (s : st) : res st :=
  let* s := confirm_type ty_pred s in
  match s_kind s with
  | TPred index negated =>
      let* s := put e (shl64 index address) s in
      if negable then
        let* s := put e (shl64 (if negated then 1 else 0) (address + 3)) s in
        advance_tok s
      else if negated then fail (s_tok s) "predicate can't be negated"
      else advance_tok s
  | _ => Undef UB_inactive_union
  end.

(** operand.h:325-335.  [7 - index] is an [int] between 0 and 7. *)
Definition run_inverted_pred (e : env) (address : N) (s : st) : res st :=
  let* s := confirm_type ty_pred s in
  match s_kind s with
  | TPred index negated =>
      let* s := put e (shl64 (u64_of_Z (7 - Z.of_N index)) address) s in
      if negated then fail (s_tok s) "predicate can't be negated"
      else advance_tok s
  | _ => Undef UB_inactive_union
  end.

(** operand.h:337-355 [neg], [tilde]. *)
Definition opt_type (e : env) (ty : ttype) (address : N) (s : st) : res st :=
  if ttype_eqb (type_of (s_kind s)) ty then
    let* s := put e (shl64 1 address) s in advance_tok s
  else Ok s.

(** operand.h:363-379; [inner] is the template's operand argument. *)
Definition run_abs (e : env) (address : N) (inner : st -> res st) (s : st) : res st :=
  let is_absolute := ttype_eqb (type_of (s_kind s)) ty_vbar in
  let* s :=
    (if is_absolute then
       let* s := put e (shl64 1 address) s in advance_tok s
     else Ok s) in
  let* s := inner s in
  if is_absolute then
    let* s := confirm_type ty_vbar s in advance_tok s
  else Ok s.

(** operand.h:381-390. *)
Definition run_po (e : env) (address1 address2 : N) (s : st) : res st :=
  if negb (equal (s_tok s) ".PO") then Ok s
  else let* s := put e (N.lor (shl64 1 address1) (shl64 1 address2)) s in advance_tok s.

(** operand.h:409-441.  The error of [try_reuse] is ignored by the C++ code;
    with address 8 it has none.  [value >>= shr] shifts a [uint64_t]. *)
Definition run_memory_address (e : env) (imm_offset : bool) (addr size shr : N) (s : st) : res st :=
  let* s := confirm_type ty_lbrack s in
  let* s := advance_tok s in
  let* (regster, s) :=
    match s_kind s with
    | TReg r =>
        let* s := advance_tok s in
        let* s := try_reuse e 8 s in
        Ok (r, s)
    | _ => Ok (ZERO_REGISTER, s)
    end in
  let* s := put e (shl64 regster 8) s in
  let* s :=
    match imm_offset, s_kind s with
    | true, TImm _ =>
        let is_zero_reg := N.eqb regster ZERO_REGISTER in
        let min := if is_zero_reg then 0 else - 2 ^ (Z.of_N size - 1) in
        let max := Z.of_N (max_bits (if is_zero_reg then size else size - 1)) in
        let* v := convert_integer s min max in
        let v := N.shiftr v shr in
        let* s := put e (shl64 (N.land v (max_bits size)) addr) s in
        advance_tok s
    | _, _ => Ok s
    end in
  let* s := confirm_type ty_rbrack s in
  advance_tok s.

(** operand.h:62-63. *)
Definition test_message (s : text) : message := Message "unexpected test %.*s" (size_view s).
(** operand.h:52-69 [assemble_cc_tests]. *)
Definition assemble_cc_tests (e : env) (tests : list string) (address : N) (s : st) : res st :=
  if equal (s_tok s) "CC" then
    let* s := advance_tok s in
    let* s := confirm_type ty_ident s in
    let* r := find_in_table true tests "." (s_tok s) in
    match r with
    | None => fail (s_tok s) (test_message (token_view (s_kind s)))
    | Some i => let* s := advance_tok s in put e (shl64 i address) s
    end
  else put e (shl64 15 address) s.

(** operand.h:514-530 [ald::imm_attr]. *)
Definition run_imm_attr (e : env) (s : st) : res st :=
  if negb (equal (s_tok s) "a") then fail (s_tok s) "expected 'a'"
  else
    let* s := advance_tok s in
    let* s := confirm_type ty_lbrack s in
    let* s := advance_tok s in
    let* s := assemble_uint e (Z.of_N (max_bits 10)) 20 s in
    let* s := put e (shl64 0xFF 8) s in
    let* s := confirm_type ty_rbrack s in
    advance_tok s.

(** operand.h:532-552 [ald::patch_attr]. *)
Definition run_patch_attr (e : env) (s : st) : res st :=
  if negb (equal (s_tok s) "a") then fail (s_tok s) "expected 'a'"
  else
    let* s := advance_tok s in
    let* s := confirm_type ty_lbrack s in
    let* s := advance_tok s in
    let* s := assemble_gpr e 8 s in
    let* s := if ttype_eqb (type_of (s_kind s)) ty_plus then advance_tok s else Ok s in
    let* s := assemble_int e 11 20 s in
    let* s := confirm_type ty_rbrack s in
    advance_tok s.

(** operand.h:554-569 [ald::phys_attr]. *)
Definition run_phys_attr (e : env) (s : st) : res st :=
  if negb (equal (s_tok s) "a") then fail (s_tok s) "expected 'a'"
  else
    let* s := advance_tok s in
    let* s := confirm_type ty_lbrack s in
    let* s := advance_tok s in
    let* s := assemble_gpr e 8 s in
    let* s := confirm_type ty_rbrack s in
    advance_tok s.

(** operand.h:624-645 [xmad::signs]. *)
Definition run_xmad_signs (e : env) (s : st) : res st :=
  let is_s16 := equal (s_tok s) ".S16" in
  if negb is_s16 && negb (equal (s_tok s) ".U16") then Ok s
  else
    let* s := advance_tok s in
    let* s := if is_s16 then put e (shl64 1 48) s else Ok s in
    if equal (s_tok s) ".S16" then
      let* s := put e (shl64 1 49) s in advance_tok s
    else if equal (s_tok s) ".U16" then advance_tok s
    else fail (s_tok s) "expected .S16 or .U16".

(** operand.h:702-733 [f2f::rounding]. *)
Definition run_f2f_rounding (e : env) (s : st) : res st :=
  let dst_format := N.land (N.shiftr (value (s_op s)) 8) 3 in
  let src_format := N.land (N.shiftr (value (s_op s)) 10) 3 in
  let* result :=
    (if N.eqb dst_format src_format then
       Ok (if equal (s_tok s) ".ROUND" then Some 8%N
           else if equal (s_tok s) ".FLOOR" then Some 9%N
           else if equal (s_tok s) ".CEIL" then Some 10%N
           else if equal (s_tok s) ".TRUNC" then Some 11%N
           else if equal (s_tok s) ".PASS" then Some 3%N
           else None)
     else find_in_table true ["RN"; "RM"; "RP"; "RZ"] "." (s_tok s)) in
  let* s := match result with Some _ => advance_tok s | None => Ok s end in
  put e (shl64 (value_or result 0) 39) s.

(** operand.h:752-770 [f2i::int_format], 1232-1248 [i2f::int_format],
    1268-1285 [i2i::format]: unsigned names, else signed names plus a sign
    bit. *)
Definition run_int_format (e : env) (unsigned signed : list string) (address sign_address : N)
  (msg : string) (s : st) : res st :=
  let* r := find_in_table true unsigned "." (s_tok s) in
  match r with
  | Some i => let* s := put e (shl64 i address) s in advance_tok s
  | None =>
      let* r := find_in_table true signed "." (s_tok s) in
      match r with
      | None => fail (s_tok s) msg
      | Some i =>
          let* s := put e (shl64 1 sign_address) s in
          let* s := put e (shl64 i address) s in
          advance_tok s
      end
  end.

(** operand.h:843-861 [ldc::address]. *)
Definition run_ldc_address (e : env) (s : st) : res st :=
  if negb (equal (s_tok s) "c") then fail (s_tok s) "expected constant buffer"
  else
    let* s := advance_tok s in
    let* s := confirm_type ty_lbrack s in
    let* s := advance_tok s in
    let* v := convert_integer s 0 (Z.of_N (max_bits 5)) in
    let* s := put e (shl64 v 36) s in
    let* s := advance_tok s in
    let* s := confirm_type ty_rbrack s in
    let* s := advance_tok s in
    run_memory_address e true 20 16 0 s.

(** Reading [token.data.string] of a token that is not an identifier:
    [token_data] starts out with [string] active (token.h:34), the tokenizer
    activates another member for registers, predicates and immediates
    (context.cpp:105,128,161,164,183,209). *)
Definition string_is_active (k : tkind) : bool :=
  match k with
  | TReg _ | TPred _ _ | TImm _ | TFloat _ => false
  | _ => true
  end.

(** operand.h:1190-1191. *)
Definition system_message (s : text) : message :=
  Message ("invalid system register " ++ bold "%.*s") (int_view s).
(** operand.h:898-1197 [s2r]; [tbl] is the table of lines 900-1158. *)
Definition run_s2r (e : env) (tbl : list string) (s : st) : res st :=
  let* (v, s) :=
    (if equal (s_tok s) "SR_TID" then
       let* s := advance_tok s in
       let v := if equal (s_tok s) ".X" then 33%N
                else if equal (s_tok s) ".Y" then 34%N
                else if equal (s_tok s) ".Z" then 35%N else 32%N in
       let* s := if N.eqb v 32 then Ok s else advance_tok s in
       Ok (v, s)
     else if equal (s_tok s) "SR_CTAID" then
       let* s := advance_tok s in
       let* v := (if equal (s_tok s) ".X" then Ok 37%N
                  else if equal (s_tok s) ".Y" then Ok 38%N
                  else if equal (s_tok s) ".Z" then Ok 39%N
                  else fail (s_tok s) "expected .X, .Y or .Z after SR_CTAID") in
       let* s := advance_tok s in
       Ok (v, s)
     else
       let* r := find_in_table true tbl "" (s_tok s) in
       match r with
       | None =>
           if string_is_active (s_kind s) then fail (s_tok s) (system_message (token_view (s_kind s)))
           else Undef UB_inactive_union
       | Some v => let* s := advance_tok s in Ok (v, s)
       end) in
  put e (shl64 v 20) s.

(** operand.h:1208-1225 [ldg::size]; the table of line 1210 has no sentinel. *)
Definition run_ldg_size (e : env) (s : st) : res st :=
  let* r := find_in_table false ["U8"; "S8"; "U16"; "S16"; "32"; "64"; "128"; "U"] "." (s_tok s) in
  let* s :=
    match r with
    | None => Ok s
    | Some i =>
        let* s := advance_tok s in
        if N.eqb i 7 then
          if negb (equal (s_tok s) ".128") then
            fail (s_tok s) "expected .U8, .S8, .U16, .S16, .32, .64, .128 or .U.128"
          else advance_tok s
        else Ok s
    end in
  put e (shl64 (value_or r 4) 48) s.

(** operand.h:1250-1263 [i2f::selector], 1287-1300 [i2i::selector],
    1435-1449 [video::selector]: the table depends on the format bits written
    before. *)
Definition run_selector (e : env) (type_address short_type : N) (shorts : list string)
  (address : N) (s : st) : res st :=
  let type := N.land (N.shiftr (value (s_op s)) type_address) 7 in
  let tbl := if N.eqb type short_type then shorts else ["B0"; "B1"; "B2"; "B3"] in
  let* r := find_in_table true tbl "." (s_tok s) in
  let* s := match r with Some _ => advance_tok s | None => Ok s end in
  put e (shl64 (value_or r 0) address) s.

(** operand.h:1316-1340 [atomic_size]. *)
Definition run_atomic_size (e : env) (address : N) (s : st) : res st :=
  let msg := "expected .U32, .S32, .U64, .S64, .F32.FTZ.RN, .F16x2.RN or .S64" in
  let* r := find_in_table true ["U32"; "S32"; "U64"; "F32"; "F16x2"; "S64"] "." (s_tok s) in
  let expect_rn s :=
    if negb (equal (s_tok s) ".RN") then fail (s_tok s) msg else advance_tok s in
  let* s :=
    match r with
    | None => Ok s
    | Some i =>
        let* s := advance_tok s in
        if N.eqb i 3 then
          if negb (equal (s_tok s) ".FTZ") then fail (s_tok s) msg
          else let* s := advance_tok s in expect_rn s
        else if N.eqb i 4 then expect_rn s
        else Ok s
    end in
  put e (shl64 (value_or r 0) address) s.

(** operand.h:1406-1426 [video::src_format]. *)
Definition run_src_format (e : env) (address sign_address : N) (s : st) : res st :=
  let* r := find_in_table true ["S8"; ""; "S16"; "S32"] "." (s_tok s) in
  let* (is_signed, r) :=
    match r with
    | Some i => Ok (true, Some i)
    | None =>
        let* r := find_in_table true ["U8"; ""; "U16"; "U32"] "." (s_tok s) in
        Ok (match r with Some _ => false | None => true end, r)
    end in
  let* s := match r with Some _ => advance_tok s | None => Ok s end in
  let* s := put e (shl64 (value_or r 3) address) s in
  put e (shl64 (if is_signed then 1 else 0) sign_address) s.

(** operand.h:1495-1509 [tex_type]; the table of line 1498 has no sentinel. *)
Definition run_tex_type (e : env) (address : N) (s : st) : res st :=
  let* r := find_in_table false
      ["1D"; "ARRAY_1D"; "2D"; "ARRAY_2D"; "3D"; "ARRAY_3D"; "CUBE"; "ARRAY_CUBE"] "" (s_tok s) in
  match r with
  | None =>
      fail (s_tok s) "expected 1D, ARRAY_1D, 2D, ARRAY_2D, 3D, ARRAY_3D, CUBE, or ARRAY_CUBE"
  | Some i => let* s := advance_tok s in put e (shl64 i address) s
  end.

(** operand.h:1529-1536. *)
Definition run_zero (s : st) : res st :=
  match s_kind s with
  | TImm 0 => advance_tok s
  | _ => fail (s_tok s) "expected 0"
  end.

(** operand.h:1544-1571 [Lod], [texs_mode]; None = 0, LL = 1, LZ = 2. *)
Definition LOD_NONE : N := 0.
Definition LOD_LL : N := 1.
Definition LOD_LZ : N := 2.
Definition run_texs_mode (e : env) (address : N) (s : st) : res st :=
  let* (lod, s) :=
    (if equal (s_tok s) ".LZ" then let* s := advance_tok s in Ok (LOD_LZ, s)
     else if equal (s_tok s) ".LL" then let* s := advance_tok s in Ok (LOD_LL, s)
     else Ok (LOD_NONE, s)) in
  let* (dc, s) :=
    (if equal (s_tok s) ".DC" then let* s := advance_tok s in Ok (4%N, s)
     else Ok (0%N, s)) in
  put e (shl64 (N.lor dc lod) address) s.

(** operand.h:1573-1640 [tlds_type]. *)
Definition run_tlds_type (e : env) (address : N) (s : st) : res st :=
  let v := value (s_op s) in
  let ll := N.testbit v address in
  let aoffi := N.testbit v (address + 1) in
  let ms := N.testbit v (address + 2) in
  let s := set_value (andnot v (shl64 7 address)) s in
  let t := s_tok s in
  let* type := find_in_table true ["1D"; "2D"; "3D"; "ARRAY_2D"] "" t in
  let* mode :=
    match type with
    | None => fail t "expected 1D, 2D, ARRAY_2D, or 3D"
    | Some 0%N =>
        if aoffi then fail t "1D has no AOFFI"
        else if ms then fail t "1D has no MS"
        else Ok (if ll then 1%N else 0%N)
    | Some 1%N =>
        if aoffi && ms then fail t "AOFFI and MS can't be used at the same time"
        else if ll then
          if ms then fail t "LL can't be used with MS in 2D"
          else Ok (if aoffi then 12%N else 5%N)
        else Ok (if aoffi then 4%N else if ms then 6%N else 2%N)
    | Some 2%N =>
        if aoffi then fail t "AOFFI can't be used in 3D"
        else if ms then fail t "MS can't be used in 3D"
        else Ok 7%N
    | Some 3%N =>
        if aoffi then fail t "AOFFI can't be used in ARRAY_2D"
        else if ms then fail t "MS can't be used in ARRAY_2D"
        else Ok 8%N
    | Some _ => Ok 0%N (* mode keeps its initial value *)
    end in
  let* s := put e (shl64 mode address) s in
  advance_tok s.

(** operand.h:1642-1742 [texs_type].  The encodings are at fixed positions
    (bits 53 and up), whatever [address] is.  The three [switch (lod)]
    without default do nothing for the value 3, which [texs_mode] never
    writes. *)
Definition run_texs_type (e : env) (address : N) (s : st) : res st :=
  let t := s_tok s in
  let* type := find_in_table true
      ["1D"; "2D"; ""; ""; ""; ""; ""; "ARRAY_2D"; ""; ""; "3D"; ""; "CUBE"; ""] "" t in
  match type with
  | None => fail t "expected 1D, 2D, ARRAY_2D, 3D, or CUBE"
  | Some ty =>
      let v := value (s_op s) in
      let lod := N.land (N.shiftr v address) 3 in
      let dc := negb (N.eqb (N.land (N.shiftr v address) 4) 0) in
      let s := set_value (andnot v (shl64 7 address)) s in
      let is l := N.eqb lod l in
      let* s :=
        match ty with
        | 0%N =>
            if negb (is LOD_LZ) || dc then fail t "1D is only valid with LZ and no-DC"
            else put e 0 s
        | 1%N =>
            if dc then
              if is LOD_NONE then put e 0x0080000000000000 s
              else if is LOD_LZ then put e 0x00C0000000000000 s
              else if is LOD_LL then put e 0x00A0000000000000 s
              else Ok s
            else
              if is LOD_NONE then put e 0x0020000000000000 s
              else if is LOD_LZ then put e 0x0040000000000000 s
              else if is LOD_LL then put e 0x0060000000000000 s
              else Ok s
        | 7%N =>
            if dc then
              if negb (is LOD_LZ) then fail t "DC ARRAY_2D is only valid with LZ"
              else put e 0x0120000000000000 s
            else
              if is LOD_NONE then put e 0x00E0000000000000 s
              else if is LOD_LZ then put e 0x0100000000000000 s
              else fail t "LL ARRAY_2D is illegal"
        | 10%N =>
            if dc then fail t "3D cannot be DC"
            else if is LOD_NONE then put e 0x0140000000000000 s
            else if is LOD_LZ then put e 0x0160000000000000 s
            else fail t "3D can only have the default lod or LZ"
        | 12%N =>
            if dc then fail t "CUBE cannot be DC"
            else if is LOD_NONE then put e 0x0180000000000000 s
            else if is LOD_LL then put e 0x01A0000000000000 s
            else fail t "CUBE can only have the default lod or LL"
        | _ => Ok s
        end in
      advance_tok s
  end.

(** operand.h:1744-1783 [texs_swizzle]: a table of (name, bits) chosen by the
    second destination register being RZ. *)
Fixpoint assoc_text (tbl : list (string * N)) (t : token) : option N :=
  match tbl with
  | [] => None
  | (k, v) :: tbl' => if equal t k then Some v else assoc_text tbl' t
  end.
Definition texs_swizzle_one : list (string * N) :=
  [("R", 0); ("G", 0x0004000000000000); ("B", 0x0008000000000000); ("A", 0x000C000000000000);
   ("RG", 0x0010000000000000); ("RA", 0x0014000000000000); ("GA", 0x0018000000000000);
   ("BA", 0x001C000000000000)]%N.
Definition texs_swizzle_two : list (string * N) :=
  [("RGB", 0); ("RGA", 0x0004000000000000); ("RBA", 0x0008000000000000);
   ("GBA", 0x000C000000000000); ("RGBA", 0x0010000000000000)]%N.
Definition run_texs_swizzle (e : env) (s : st) : res st :=
  let tbl := if N.eqb (N.land (N.shiftr (value (s_op s)) 28) 255) 255
             then texs_swizzle_one else texs_swizzle_two in
  match assoc_text tbl (s_tok s) with
  | None => fail (s_tok s) "invalid RGBA swizzle"
  | Some bits => let* s := put e bits s in advance_tok s
  end.

(** ** The operand catalogue as data

    [opnd] names every instantiation of an operand that appears in
    /repo/src/table.h; [run_operand] is the C++ function it stands for. *)
Inductive opnd :=
| OComma
| OFlag (s : string) (address : N)
| OUint (max : Z) (address : N)
| OInt (bits address : N)
| ODotTable (default : option N) (address : N) (tbl : list string)
| OReqTable (prefix : string) (address : N) (tbl : list string) (msg : string)
| OReqText (s : string) (bits : N) (msg : string)
| OReqTextAfter (s : string) (bits1 bits2 : N) (msg : string)
| OOptText (s : string)
| OUimmExtended
| OLabel
| OGpr (address : N)
| OMirrorGpr (address : N)
| OCbuf
| OImm20
| OFimm (bits : N)
| ODimm
| OHalf (bits offset : N) (neg_bit : option N)
| OPred (address : N) (negable : bool)
| OInvPred (address : N)
| OOptType (ty : ttype) (address : N)
| OAbs (address : N) (inner : opnd)
| OPo (address1 address2 : N)
| ODefaultRz (address : N)
| OMemAddress (imm_offset : bool) (addr size shr : N)
| OCcTests (tests : list string) (address : N)
| OImmAttr
| OPatchAttr
| OPhysAttr
| OXmadSigns
| OF2fRounding
| OIntFormat (unsigned signed : list string) (address sign_address : N) (msg : string)
| OLdcAddress
| OS2r (tbl : list string)
| OLdgSize
| OSelector (type_address short_type : N) (shorts : list string) (address : N)
| OAtomicSize (address : N)
| OSrcFormat (address sign_address : N)
| OTexType (address : N)
| OZero
| OTexsMode (address : N)
| OTldsType (address : N)
| OTexsType (address : N)
| OTexsSwizzle.

Fixpoint run_operand (e : env) (o : opnd) (s : st) : res st :=
  match o with
  | OComma => run_comma s
  | OFlag str a => assemble_flag e str a s
  | OUint max a => assemble_uint e max a s
  | OInt bits a => assemble_int e bits a s
  | ODotTable d a tbl => dot_table e d a tbl s
  | OReqTable p a tbl msg => req_table e p a tbl msg s
  | OReqText str bits msg => req_text e str bits msg s
  | OReqTextAfter str b1 b2 msg => req_text_after e str b1 b2 msg s
  | OOptText str => opt_text str s
  | OUimmExtended => run_uimm_extended e s
  | OLabel => run_label e s
  | OGpr a => assemble_gpr e a s
  | OMirrorGpr a => run_mirror_dgpr e a s
  | OCbuf => assemble_constant_buffer e s
  | OImm20 => assemble_signed_20bit_immediate e s
  | OFimm bits => assemble_float_immediate e bits s
  | ODimm => assemble_double_immediate e s
  | OHalf bits offset nb => assemble_half_float_immediate e bits offset nb s
  | OPred a n => run_pred e a n s
  | OInvPred a => run_inverted_pred e a s
  | OOptType ty a => opt_type e ty a s
  | OAbs a inner => run_abs e a (run_operand e inner) s
  | OPo a1 a2 => run_po e a1 a2 s
  | ODefaultRz a => put e (shl64 0xFF a) s                 (* operand.h:398-403 *)
  | OMemAddress i addr size shr => run_memory_address e i addr size shr s
  | OCcTests tests a => assemble_cc_tests e tests a s
  | OImmAttr => run_imm_attr e s
  | OPatchAttr => run_patch_attr e s
  | OPhysAttr => run_phys_attr e s
  | OXmadSigns => run_xmad_signs e s
  | OF2fRounding => run_f2f_rounding e s
  | OIntFormat u sg a sa msg => run_int_format e u sg a sa msg s
  | OLdcAddress => run_ldc_address e s
  | OS2r tbl => run_s2r e tbl s
  | OLdgSize => run_ldg_size e s
  | OSelector ta st sh a => run_selector e ta st sh a s
  | OAtomicSize a => run_atomic_size e a s
  | OSrcFormat a sa => run_src_format e a sa s
  | OTexType a => run_tex_type e a s
  | OZero => run_zero s
  | OTexsMode a => run_texs_mode e a s
  | OTldsType a => run_tlds_type e a s
  | OTexsType a => run_texs_type e a s
  | OTexsSwizzle => run_texs_swizzle e s
  end.
