(** * Lexer: /repo/src/context.cpp, tokenizer and label collection.

    The tokens of /repo/src/token.h and the functions of
    /repo/src/context.cpp, one definition per C++ function or block. *)
From Verif Require Import Base Float.
Local Open Scope char_scope.
Open Scope Z_scope.

(** ** Characters *)

(** src/context.cpp:16-19 [is_contained]. *)
Definition is_contained (s : string) (ch : ascii) : bool :=
  existsb (Ascii.eqb ch) (lit s).

(** The C escapes used in the source literals. *)
Definition TAB : ascii := ascii_of_N 9.
Definition LF : ascii := ascii_of_N 10.
Definition CR : ascii := ascii_of_N 13.
Definition BLANK : ascii := ascii_of_N 32.

(** The literal of context.cpp:82, [" \t\r\n"]. *)
Definition blank_chars : text := [BLANK; TAB; CR; LF].
Definition is_blank (ch : ascii) : bool := existsb (Ascii.eqb ch) blank_chars.

(** src/context.cpp:21-24. *)
Definition is_operator (ch : ascii) : bool := is_contained "+-~|[]@,;" ch.
(** src/context.cpp:26-29. *)
Definition is_separator (ch : ascii) : bool :=
  is_blank ch || Ascii.eqb ch "." || is_operator ch || Ascii.eqb ch NUL.
(** src/context.cpp:31-34.  The argument is the promoted [char]; bytes above
    127 (negative when [char] is signed) are in neither range either way. *)
Definition is_alpha (ch : ascii) : bool :=
  let n := N_of_ascii ch in
  (N.leb 97 n && N.leb n 122) || (N.leb 65 n && N.leb n 90).
(** src/context.cpp:36-39. *)
Definition is_decimal (ch : ascii) : bool :=
  let n := N_of_ascii ch in N.leb 48 n && N.leb n 57.
(** src/context.cpp:41-44. *)
Definition is_alnum (ch : ascii) : bool := is_alpha ch || is_decimal ch.

Definition is_sign (ch : ascii) : bool := is_contained "+-" ch.
Definition is_hex_char (ch : ascii) : bool := is_contained "AaBbCcDdEeFfXx" ch.

(** ** Tokens (src/token.h:6-47) *)

(** [token_type] together with the active member of [token_data]. *)
Inductive tkind :=
| TNone
| TIdent (s : text)
| TReg (r : N)
| TPred (index : N) (negated : bool)
| TImm (z : Z)
| TFloat (f32 : N)     (* the float strtof returned, stored in a double *)
| TPlus | TMinus | TTilde | TVbar | TLbrack | TRbrack | TAt | TSemi | TComma.

Record token := Token { kind : tkind; t_line : Z; t_col : Z }.

(** The type tag compared by [confirm_type]. *)
Inductive ttype :=
| ty_none | ty_ident | ty_reg | ty_pred | ty_imm | ty_float
| ty_plus | ty_minus | ty_tilde | ty_vbar | ty_lbrack | ty_rbrack
| ty_at | ty_semi | ty_comma.
Definition type_of (k : tkind) : ttype :=
  match k with
  | TNone => ty_none | TIdent _ => ty_ident | TReg _ => ty_reg
  | TPred _ _ => ty_pred | TImm _ => ty_imm | TFloat _ => ty_float
  | TPlus => ty_plus | TMinus => ty_minus | TTilde => ty_tilde
  | TVbar => ty_vbar | TLbrack => ty_lbrack | TRbrack => ty_rbrack
  | TAt => ty_at | TSemi => ty_semi | TComma => ty_comma
  end.
Definition ttype_eqb (a b : ttype) : bool :=
  match a, b with
  | ty_none, ty_none | ty_ident, ty_ident | ty_reg, ty_reg
  | ty_pred, ty_pred | ty_imm, ty_imm | ty_float, ty_float
  | ty_plus, ty_plus | ty_minus, ty_minus | ty_tilde, ty_tilde
  | ty_vbar, ty_vbar | ty_lbrack, ty_lbrack | ty_rbrack, ty_rbrack
  | ty_at, ty_at | ty_semi, ty_semi | ty_comma, ty_comma => true
  | _, _ => false
  end.

(** [fail(token, ...)] and [fatal_error(token, ...)] (src/error.cpp:16-69):
    the reported position is the token's. *)
Definition diag_at (t : token) (msg : message) : diag :=
  Diag (Some (t_line t, t_col t)) msg.
Definition fail {A} (t : token) (msg : message) : res A := Err (diag_at t msg).
Definition fatal_error {A} (t : token) (msg : message) : res A := Fatal (diag_at t msg).

(** src/token.cpp:5-40 [name]. *)
Definition type_name (ty : ttype) : string :=
  match ty with
  | ty_none => "nothing" | ty_ident => "identifier" | ty_reg => "register"
  | ty_pred => "predicate" | ty_imm => "immediate" | ty_float => "floating-point immediate"
  | ty_plus => "plus" | ty_minus => "minus" | ty_tilde => "tilde" | ty_vbar => "vertical bar"
  | ty_lbrack => "squared bracket left" | ty_rbrack => "squared bracket right"
  | ty_at => "at" | ty_semi => "semicolon" | ty_comma => "comma"
  end.

(** src/token.cpp:42-48 [info]; also [token.data.string] of a token whose
    [string] member is active but was never assigned (src/token.h:34). *)
Definition token_view (k : tkind) : text := match k with TIdent s => s | _ => [] end.

(** The two arguments of [%.*s]: a length converted to [int], or left a
    [size_t], and the pointer. *)
Definition int_view (s : text) : list arg := [AInt (s32_of_Z (Z.of_nat (List.length s))); APtr s].
Definition size_view (s : text) : list arg := [ASize (N.of_nat (List.length s)); APtr s].

(** ** The cursor: fields [text], [line], [column] of [context] *)

(** [int line], [int column] are modelled as unbounded integers. *)
Record cursor := Cursor { rest : text; line : Z; col : Z }.

(** src/context.cpp:237-249: effect of one character on line and column. *)
Definition adv_line (ch : ascii) (l : Z) : Z := if Ascii.eqb ch LF then l + 1 else l.
Definition adv_col (ch : ascii) (c : Z) : Z :=
  if Ascii.eqb ch TAB then c + 4 else if Ascii.eqb ch LF then 0 else c + 1.

(** src/context.cpp:235-250 [next].  Stepping over the terminating NUL leaves
    the pointer one past the array; every caller dereferences it next, hence
    the undefined behaviour is reported here. *)
Definition next (c : cursor) : res cursor :=
  match rest c with
  | [] => Undef UB_read_past_nul
  | ch :: l => Ok (Cursor l (adv_line ch (line c)) (adv_col ch (col c)))
  end.

(** [while (p( *text)) next();] for a predicate that is false on NUL
    (so the loop cannot run past the end). *)
Fixpoint skip_while (p : ascii -> bool) (l : text) (ln cl : Z) : cursor :=
  match l with
  | [] => Cursor [] ln cl
  | ch :: l' =>
      if p ch then skip_while p l' (adv_line ch ln) (adv_col ch cl)
      else Cursor l ln cl
  end.
Definition skipc (p : ascii -> bool) (c : cursor) : cursor :=
  skip_while p (rest c) (line c) (col c).

(** The characters between two cursors of the same text: [contents .. text). *)
Definition between (c0 c1 : cursor) : text :=
  firstn (List.length (rest c0) - List.length (rest c1)) (rest c0).

(** ** libc number parsing *)

(** [isspace] in the C locale: blank, \t \n \v \f \r. *)
Definition is_space (ch : ascii) : bool :=
  let n := N_of_ascii ch in N.eqb n 32 || (N.leb 9 n && N.leb n 13).

(** Value of a digit, 36 when the character is not alphanumeric. *)
Definition digit_value (ch : ascii) : Z :=
  let n := N_of_ascii ch in
  if N.leb 48 n && N.leb n 57 then Z.of_N n - 48
  else if N.leb 97 n && N.leb n 122 then Z.of_N n - 87
  else if N.leb 65 n && N.leb n 90 then Z.of_N n - 55
  else 36.

(** Longest run of digits below [base]: accumulated value, rest of the text. *)
Fixpoint digits (base acc : Z) (l : text) : Z * text :=
  match l with
  | ch :: l' =>
      if digit_value ch <? base then digits base (acc * base + digit_value ch) l'
      else (acc, l)
  | [] => (acc, [])
  end.

(** [strtoll] clamps to the range of [long long]. *)
Definition clamp64 (z : Z) : Z :=
  if z <? INT64_MIN then INT64_MIN else if INT64_MAX <? z then INT64_MAX else z.

Fixpoint skip_space (l : text) : text :=
  match l with
  | ch :: l' => if is_space ch then skip_space l' else l
  | [] => []
  end.

Definition starts_digit (base : Z) (l : text) : bool :=
  match l with ch :: _ => digit_value ch <? base | [] => false end.

(** [std::strtoll(nptr, &end, base)] for [base] 0 or 10 in the C locale
    (C17 7.22.1.4: no binary literals): the value and the text [end] points
    to; [end = nptr] when no conversion could be performed. *)
Definition strtoll (base : Z) (nptr : text) : Z * text :=
  let l := skip_space nptr in
  let '(neg, l) :=
    match l with
    | ch :: l' =>
        if Ascii.eqb ch "-" then (true, l')
        else if Ascii.eqb ch "+" then (false, l') else (false, l)
    | [] => (false, l)
    end in
  let '(base, l) :=
    if base =? 0 then
      match l with
      | "0"%char :: x :: l' =>
          if (Ascii.eqb x "x" || Ascii.eqb x "X") && starts_digit 16 l' then (16, l')
          else (8, l)
      | "0"%char :: [] => (8, l)
      | _ => (10, l)
      end
    else (base, l) in
  if starts_digit base l then
    let '(v, e) := digits base 0 l in (clamp64 (if neg then - v else v), e)
  else (0, nptr).

(** [std::strtof] on the shape the tokenizer hands over: optional sign, at
    least one decimal digit, then the longest decimal "digits[.digits]".
    The remaining syntax of strtof (exponents, hexadecimal floats, INF, NAN) cannot
    follow here because the tokenizer has checked that the literal is followed by a
    separator and contains no letter ([strtof_letters_irrelevant] in Text.v).
    The value is the correctly rounded binary32. *)
Definition strtof (nptr : text) : N * text :=
  let l := skip_space nptr in
  let '(neg, l) :=
    match l with
    | ch :: l' =>
        if Ascii.eqb ch "-" then (true, l')
        else if Ascii.eqb ch "+" then (false, l') else (false, l)
    | [] => (false, l)
    end in
  if starts_digit 10 l then
    let '(ip, l1) := digits 10 0 l in
    match l1 with
    | "."%char :: l2 =>
        let '(v, l3) := digits 10 ip l2 in
        let k := Z.of_nat (List.length l2 - List.length l3) in
        (f32_of_ratio neg v (10 ^ k), l3)
    | _ => (f32_of_ratio neg ip 1, l1)
    end
  else (0%N, nptr).

(** [conversion_end != text]: both point into the same buffer. *)
Definition same_end (e : text) (c : cursor) : bool :=
  Nat.eqb (List.length e) (List.length (rest c)).

(** ** tokenize *)

(** src/context.cpp:46-70 [get_operator_type]. *)
Definition operator_type (ch : ascii) : tkind :=
  if Ascii.eqb ch "-" then TMinus
  else if Ascii.eqb ch "~" then TTilde
  else if Ascii.eqb ch "|" then TVbar
  else if Ascii.eqb ch "[" then TLbrack
  else if Ascii.eqb ch "]" then TRbrack
  else if Ascii.eqb ch "@" then TAt
  else if Ascii.eqb ch ";" then TSemi
  else if Ascii.eqb ch "," then TComma
  else TPlus.

(** The messages of the tokenizer that are not plain: src/context.cpp:108,
    167-168, 199-200 and 203-206. *)
Definition BANG_MESSAGE : string := ("fatal: invalid usage of '!'" ++ String LF EmptyString)%string.
Definition literal_message (s : text) : message :=
  Message ("failed to parse literal " ++ bold_red "%.*s")%string (int_view s).
Definition register_message (s : text) : message :=
  Message ("invalid register index " ++ bold_red "%.*s")%string (int_view s).
Definition register_range_message (s : text) : message :=
  Message ("register index " ++ bold_red "%.*s" ++
           " is out of range, expected to be from 0 to 254 inclusively")%string (int_view s).

(** src/context.cpp:102-133: predicates.  [c] points at the first character
    and [t] carries the token position.  Returns the token kind if one was
    recognised and the cursor where lexing continues. *)
Definition lex_predicate (t : token) (c : cursor) : res (option tkind * cursor) :=
  let negated := Ascii.eqb (peek (rest c)) "!" in
  let* c1 :=
    (if negated then
       let* c' := next c in
       if is_contained "Pp" (peek (rest c')) then Ok c'
       else fatal_error t BANG_MESSAGE
     else Ok c) in
  let* c2 := next c1 in
  let ch := peek (rest c2) in
  let is_true := is_contained "Tt" ch in
  let index :=
    if is_true then Some 7%N
    else if is_decimal ch then Some (N_of_ascii ch - 48)%N
    else None in
  match index with
  | None => Ok (None, c2)
  | Some i =>
      let* c3 := next c2 in
      if is_separator (peek (rest c3)) then
        if negb is_true && N.ltb 6 i then fatal_error t "out of range predicate"
        else Ok (Some (TPred i negated), c3)
      else Ok (None, c3)
  end.

(** src/context.cpp:140-144: characters of the integer part. *)
Definition is_imm_char (ch : ascii) : bool :=
  is_decimal ch || is_sign ch || is_hex_char ch.

(** src/context.cpp:135-171: numeric literals. *)
Definition lex_immediate (t : token) (c : cursor) : res (tkind * cursor) :=
  let c1 := skipc is_imm_char c in
  let has_hex := existsb is_hex_char (between c c1) in
  let* (is_fp, c2) :=
    (if Ascii.eqb (peek (rest c1)) "." then
       if has_hex then
         fatal_error t "floating point literal cannot have hex characters"
       else
         let* c' := next c1 in
         Ok (true, skipc is_decimal c')
     else Ok (false, c1)) in
  if negb (is_separator (peek (rest c2))) then
    fatal_error t "no separator after immediate"
  else
    let '(k, conversion_end) :=
      if is_fp
      then let '(f, e) := strtof (rest c) in (TFloat f, e)
      else let '(z, e) := strtoll 0 (rest c) in (TImm z, e) in
    if negb (same_end conversion_end c2) then
      fatal_error t (literal_message (between c c2))
    else Ok (k, c2).

(** src/context.cpp:172-212: registers. *)
Definition lex_register (t : token) (c : cursor) : res (option tkind * cursor) :=
  let* c1 := next c in
  if Ascii.eqb (peek (rest c1)) "Z" then
    let* c2 := next c1 in
    if negb (is_separator (peek (rest c2))) then
      fatal_error t "no separator after register"
    else Ok (Some (TReg ZERO_REGISTER), c2)
  else
    (* while (!is_separator) { if (!is_decimal) { invalid; break; } next(); }
       no decimal digit is a separator, so this skips digits *)
    let c2 := skipc is_decimal c1 in
    let invalid_register := negb (is_separator (peek (rest c2))) in
    if invalid_register then Ok (None, c2)
    else
      let '(value, conversion_end) := strtoll 10 (rest c1) in
      if negb (same_end conversion_end c2) then
        fatal_error t (register_message (between c c2))
      else if (value <? 0) || (NUM_USER_REGISTERS <=? value) then
        fatal_error t (register_range_message (between c c2))
      else Ok (Some (TReg (Z.to_N value)), c2).

(** One pass of [tokenize]: a token, or [Skip] when the identifier was a
    label definition (context.cpp:217-220, the tail call). *)
Inductive lexed := Got (t : token) (c : cursor) | Skip (c : cursor).

(** src/context.cpp:213-223: identifiers.  [c0] is [contents]; [c] is where
    the failed predicate or register attempt left [text]. *)
Definition lex_identifier (t : token) (c0 c : cursor) : res lexed :=
  let* c1 := next c in
  let c2 := skipc (fun ch => negb (is_separator ch)) c1 in
  let contents := between c0 c2 in
  if Ascii.eqb (List.last contents NUL) ":" then Ok (Skip c2)
  else Ok (Got (Token (TIdent contents) (t_line t) (t_col t)) c2).

(** src/context.cpp:80-224. *)
Definition tokenize1 (c0 : cursor) : res lexed :=
  let c := skipc is_blank c0 in
  let t := Token TNone (line c) (col c) in
  let with_kind k := Token k (line c) (col c) in
  let ch := peek (rest c) in
  if Ascii.eqb ch NUL then Ok (Got t c)
  else if is_operator ch && (negb (is_sign ch) || negb (is_decimal (peek1 (rest c)))) then
    let* c1 := next c in Ok (Got (with_kind (operator_type ch)) c1)
  else
    let* (p, c1) :=
      (if is_contained "!Pp" ch then lex_predicate t c else Ok (None, c)) in
    match p with
    | Some k => Ok (Got (with_kind k) c1)
    | None =>
        if (is_decimal ch || is_sign ch) && negb (Ascii.eqb (peek1 (rest c1)) "D") then
          let* (k, c2) := lex_immediate t c1 in Ok (Got (with_kind k) c2)
        else
          let* (r, c2) :=
            (if Ascii.eqb ch "R" then lex_register t c1 else Ok (None, c1)) in
          match r with
          | Some k => Ok (Got (with_kind k) c2)
          | None => lex_identifier t c c2
          end
    end.

Fixpoint tokenize_fuel (fuel : nat) (c : cursor) : res (token * cursor) :=
  match fuel with
  | O => OutOfFuel
  | S fuel' =>
      let* r := tokenize1 c in
      match r with
      | Got t c' => Ok (t, c')
      | Skip c' => tokenize_fuel fuel' c'
      end
  end.

(** [context::tokenize].  The recursion of the C++ code skips at least one
    character per call, so the length of the text bounds its depth
    ([tokenize_never_out_of_fuel]). *)
Definition tokenize (c : cursor) : res (token * cursor) :=
  tokenize_fuel (S (List.length (rest c))) c.

(** ** Labels *)

(** [std::unordered_map<std::string, int64_t>]; iteration order is never observed. *)
Definition labels := list (text * Z).

(** src/context.cpp:226-233 [find_label]. *)
Fixpoint find_label (ls : labels) (name : text) : option Z :=
  match ls with
  | [] => None
  | (k, v) :: ls' => if text_eqb k name then Some v else find_label ls' name
  end.
(** [labels.insert]: an existing key is kept. *)
Definition insert_label (ls : labels) (name : text) (v : Z) : labels :=
  match find_label ls name with Some _ => ls | None => (name, v) :: ls end.

(** src/context.cpp:262-270 [advance]: text cursor and [pc]. *)
Definition bump_pc (ch : ascii) (pc : Z) : Z :=
  if Ascii.eqb ch ";" then
    let pc := pc + 8 in if Z.rem pc 32 =? 0 then pc + 8 else pc
  else pc.
Definition advance (cp : cursor * Z) : res (cursor * Z) :=
  let '(c, pc) := cp in
  let pc' := bump_pc (peek (rest c)) pc in
  let* c' := next c in Ok (c', pc').

(** src/context.cpp:271-275 [next_line]: do advance while not at the end and
    not at the start of a line.  The loop condition reads [*text]. *)
Fixpoint next_line (fuel : nat) (cp : cursor * Z) : res (cursor * Z) :=
  match fuel with
  | O => OutOfFuel
  | S fuel' =>
      let* (c, pc) := advance cp in
      if negb (Ascii.eqb (peek (rest c)) NUL) && (0 <? col c)
      then next_line fuel' (c, pc) else Ok (c, pc)
  end.

(** src/context.cpp:287-289: the identifier loop. *)
Definition is_label_char (ch : ascii) : bool := is_alnum ch || Ascii.eqb ch "_".
Fixpoint skip_label (fuel : nat) (cp : cursor * Z) : res (cursor * Z) :=
  match fuel with
  | O => OutOfFuel
  | S fuel' =>
      if is_label_char (peek (rest (fst cp))) then
        let* cp' := advance cp in skip_label fuel' cp'
      else Ok cp
  end.

(** src/context.cpp:281-296: the main loop. *)
Fixpoint generate_labels_loop (fuel : nat) (cp : cursor * Z) (ls : labels) : res labels :=
  match fuel with
  | O => OutOfFuel
  | S fuel' =>
      let c := fst cp in
      let n := S (List.length (rest c)) in
      if Ascii.eqb (peek (rest c)) NUL then Ok ls
      else if negb (is_alpha (peek (rest c))) then
        let* cp' := next_line n cp in generate_labels_loop fuel' cp' ls
      else
        let* (c1, pc1) := skip_label n cp in
        let ls' :=
          if Ascii.eqb (peek (rest c1)) ":" then insert_label ls (between c c1) pc1
          else ls in
        let* cp2 := next_line n (c1, pc1) in
        generate_labels_loop fuel' cp2 ls'
  end.

(** src/context.cpp:260-299; pc starts at 8, [reset] restores the cursor. *)
Definition generate_labels (code : text) : res labels :=
  generate_labels_loop (S (List.length code)) (Cursor code 0 0, 8) [].
