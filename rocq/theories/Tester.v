(** * Tester: /repo/tests/tester.cpp, the program behind each test. *)
From Verif Require Import Base Float Lexer Parse Assemble.
Local Open Scope string_scope.
Local Open Scope list_scope.
Open Scope Z_scope.

(** [std::from_chars] for a [uint64_t] in base 16: the longest run of digits,
    no sign, no prefix; no digits and numbers that do not fit are errors. *)
Definition from_chars (l : text) : option N :=
  if starts_digit 16 l then
    let '(v, _) := digits 16 0 l in
    if v <? 2 ^ 64 then Some (Z.to_N v) else None
  else None.

(** [%" PRIX64 "], with as many digits as needed. *)
Definition hex_digit (n : N) : ascii := nth (N.to_nat n) (lit "0123456789ABCDEF") "?"%char.
Fixpoint hex_upper (fuel : nat) (n : N) : text :=
  match fuel with
  | O => []
  | S fuel' => (if N.ltb n 16 then [] else hex_upper fuel' (n / 16)) ++ [hex_digit (n mod 16)]
  end.
Definition newline : text := ["010"%char].

(** The exit status of [main] and what it prints. *)
Inductive verdict := Exit (status : Z) (err : text).

(** tests/tester.cpp:24-40: the second argument and the words. *)
Definition compare_word (expected : text) (result : list N) : res verdict :=
  if (List.length expected <? 3)%nat then Ok (Exit 1 (lit "Expected opcode is too short" ++ newline))
  else if negb (Ascii.eqb (nth 0 expected NUL) "0") || (negb (Ascii.eqb (nth 1 expected NUL) "x") && negb (Ascii.eqb (nth 1 expected NUL) "X"))
  then Ok (Exit 1 (lit "Expected opcode has to start with '0x'" ++ newline))
  else
    match from_chars (skipn 2 expected) with
    | None => Ok (Exit 1 (lit "Expected opcode is not valid hex" ++ newline))
    | Some expected_opcode =>
        match nth_error result 1 with
        | None => Undef UB_vector_index
        | Some word =>
            if N.eqb word expected_opcode then Ok (Exit 0 [])
            else Ok (Exit 1 (lit "Incorrect opcode: 0x" ++ hex_upper 16 word ++ lit " vs 0x" ++ hex_upper 16 expected_opcode ++ newline))
        end
    end.

(** tests/tester.cpp:10-42 [main].  [args] are the arguments behind the name of
    the program, [name]. *)
Definition tester (asserts : bool) (name : text) (args : list text) : res verdict :=
  match args with
  | [] => Ok (Exit 1 (name ++ lit " usage: <expression> (<expected opcode>)" ++ newline))
  | expression :: more =>
      let* result := assemble asserts (expression ++ lit ";") in
      match more with
      | [] => Ok (Exit 0 [])
      | expected :: _ => compare_word expected result
      end
  end.
