(** * SpecRuns: an instruction whose operands are run from the text of operand.h

    What src/parse.cpp:106-127 does with a line of src/table.h, with every operand run by the interpreter of C++ text
    in Exec.v instead of the model of the operand in Operand.v. *)
From Verif Require Import Base Lexer Operand Catalogue Table Parse Cxx Exec.
Local Open Scope string_scope.
Local Open Scope list_scope.
Open Scope Z_scope.

(** src/parse.cpp:114-120. *)
Fixpoint run_line (fs : list fn) (enums : list (string * N)) (e : env) (line : list targ) (score : Z) (s : st)
  (k : Z -> st -> res attempt) : res attempt :=
  match line with
  | [] => k score s
  | r :: line' =>
      scored score (run_ref fs enums e r s) (fun s => run_line fs enums e line' (score + 1) s k)
  end.

(** src/parse.cpp:106-127 for the instruction [i], whose operands are written [line]. *)
Definition parse_line (fs : list fn) (enums : list (string * N)) (e : env) (line : list targ) (i : insn) (c : cursor)
  (op : opcode) : res attempt :=
  let* op := add_bits (e_asserts e) op (i_opcode i) in
  let* (t, c) := tokenize c in
  let s := St c t op in
  if negb (N.eqb (N.land (i_flags i) NO_PRED) 0)
     && negb (N.eqb (N.land (N.lxor (value op) (2 ^ 64 - 1)) (7 * 2 ^ 16)) 0)
  then Ok (Failed (diag_at t (guard_message (i_mnemonic i))) 0)
  else
    run_line fs enums e line 1 s (fun score s =>
      scored (score + 1000) (assemble_sched s) (fun s =>
        scored (score + 1000) (confirm_type ty_semi s) (fun s => Ok (Parsed s)))).

(** The same with [assemble_sched] run from its text as well: [ps] are its file's functions, [fields] the bit-fields of
    src/opcode.h. *)
Definition parse_text (fs : list fn) (enums : list (string * N)) (ps : list fn) (fields : list (string * N)) (e : env)
  (line : list targ) (i : insn) (c : cursor) (op : opcode) : res attempt :=
  let* op := add_bits (e_asserts e) op (i_opcode i) in
  let* (t, c) := tokenize c in
  let s := St c t op in
  if negb (N.eqb (N.land (i_flags i) NO_PRED) 0)
     && negb (N.eqb (N.land (N.lxor (value op) (2 ^ 64 - 1)) (7 * 2 ^ 16)) 0)
  then Ok (Failed (diag_at t (guard_message (i_mnemonic i))) 0)
  else
    run_line fs enums e line 1 s (fun score s =>
      scored (score + 1000) (run_fn (100 + List.length (rest (s_cur s))) fields ps [] e "assemble_sched"
                               [PSelf "ctx"; PSelf "token"; PSelf "op"] s) (fun s =>
        scored (score + 1000) (confirm_type ty_semi s) (fun s => Ok (Parsed s)))).
