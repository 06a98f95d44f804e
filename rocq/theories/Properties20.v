(** * Properties20: operands run from the text of operand.h (C101). *)
From Verif Require Import Base Lexer LexFacts Operand Catalogue Table Parse Source SourceText Cxx Exec Functions SpecRuns Lines.
Local Open Scope string_scope.
Local Open Scope list_scope.
Open Scope Z_scope.

(** C101: the functions of operand.h and helper.cpp are read from the text of these files, and run by an interpreter of
    C++ text.  For each line of table.h, each operand of the model does the same as the function the line names. *)
Theorem c101_operands : forall fs hs enums others refs,
  read_functions operand_h = Some (fs, enums) -> read_functions helper_cpp = Some (hs, others) ->
  read_refs table_h = Some refs ->
  List.length refs = List.length table /\
  forall k line i, nth_error refs k = Some line -> nth_error table k = Some i ->
  List.length line = List.length (i_operands i) /\
  (forall n r o, nth_error line n = Some r -> nth_error (i_operands i) n = Some o ->
   forall e s, kind_ok (kind (s_tok s)) -> (value (s_op s) < 2 ^ 64)%N ->
   run_ref (fs ++ hs) enums e r s = run_operand e o s) /\
  (forall e c op, (value op < 2 ^ 64)%N -> parse_line (fs ++ hs) enums e line i c op = parse_insn e i c op).
Proof. exact texts_run. Qed.
Print Assumptions c101_operands.
(** The files are read, and a line names its operands as in table.h. *)
Example c101_files : exists fs hs enums others refs,
  read_functions operand_h = Some (fs, enums) /\ read_functions helper_cpp = Some (hs, others) /\
  read_refs table_h = Some refs /\ List.length fs = 172%nat /\ List.length hs = 12%nat /\
  nth_error refs 0 = Some [ARef "al2p::o" None; ARef "amem::size" None; ARef "pred" (Some [ANum 44]);
    ARef "comma" None; ARef "dgpr" (Some [ANum 0]); ARef "comma" None; ARef "sgpr" (Some [ANum 8]);
    ARef "comma" None; ARef "sinteger" (Some [ANum 11; ANum 20])].
Proof.
  exists operand_functions, helper_functions, enumerators, [], references.
  split; [exact operand_h_read| ]. split; [exact helper_cpp_read| ]. split; [exact table_h_read| ].
  split; [reflexivity| ]. split; reflexivity.
Qed.
(** The text of [imm], run on the immediate -5: nineteen bits of two's complement and a sign bit. *)
Example c101_run : forall e l c,
  run_ref functions enumerators (Env e 8 true) (ARef "imm" None) (St (Cursor (lit ";") 1 3) (Token (TImm (-5)) l c) (Opcode 0 0 0)) =
  Ok (St (Cursor [] 1 4) (Token TSemi 1 3) (Opcode ((2 ^ 19 - 5) * 2 ^ 20 + 2 ^ 56) 0 0)).
Proof. intros. vm_compute. reflexivity. Qed.
