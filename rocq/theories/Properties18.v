(** * Properties18: the table and its source (C99). *)
From Verif Require Import Base Lexer Operand Table Source SourceText Idioms Reading.
Local Open Scope string_scope.
Local Open Scope list_scope.
Open Scope N_scope.

(** C99: the table of the model is the one that the text of table.h and operand.h
    spells out, line by line. *)
Theorem c99_table : read_table idioms operand_h table_h = Some table.
Proof. exact table_read. Qed.
Print Assumptions c99_table.
Theorem c99_lines : forall k i,
  nth_error table k = Some i <->
  exists is, read_table idioms operand_h table_h = Some is /\ nth_error is k = Some i.
Proof. exact table_lines. Qed.
Print Assumptions c99_lines.
(** One body of operand.h has no counterpart in the model, and no line names it. *)
Theorem c99_unread : forall ds p, operand_definitions = Some ds ->
  ((exists d, In d ds /\ d_path d = p /\ d_macro d = "DEFINE_OPERAND" /\ find_idiom idiom_words (d_body d) = None) <->
   p = ["stg"; "size"]).
Proof. exact unread_path. Qed.
Print Assumptions c99_unread.
(** The reader is not content with less: a changed opcode, operand or definition gives
    another table, an unknown name or a missing comma none. *)
Example c99_ex :
  match operand_definitions with Some ds => Some (List.length ds) | None => None end = Some 168%nat /\
  read_table idioms ["template <int address>"; "DEFINE_FLAG(x, "".X"", address);"] ["const insn table[]{"; "INSN(0x10ULL, 0, ""NOP"", x<5>), // that's all"; "};"]
    = Some [Insn 16 0 "NOP" [OFlag ".X" 5]] /\
  read_table idioms ["template <int address>"; "DEFINE_FLAG(x, "".Y"", address);"] ["const insn table[]{"; "INSN(0x11ULL, 0, ""NOP"", x<6>)"; "};"]
    = Some [Insn 17 0 "NOP" [OFlag ".Y" 6]] /\
  read_table idioms ["DEFINE_FLAG(x, "".X"", 5);"] ["const insn table[]{"; "INSN(0x10ULL, 0, ""NOP"", y)"; "};"] = None /\
  read_table idioms ["DEFINE_FLAG(x, "".X"", 5);"] ["const insn table[]{"; "INSN(0x10ULL, 0, ""NOP"", x x)"; "};"] = None /\
  read_table idioms ["DEFINE_OPERAND(x) { return {}; }"] ["const insn table[]{"; "INSN(0x10ULL, 0, ""NOP"", x)"; "};"] = None.
Proof.
  repeat split; vm_compute; reflexivity.
Qed.
