(** * Properties21: predicates and annotations run from the text of parse.cpp (C102). *)
From Verif Require Import Base Lexer LexFacts Operand Catalogue Table Parse Source SourceText Cxx Exec Functions SpecRuns RunsParse.
Local Open Scope string_scope.
Local Open Scope list_scope.
Open Scope Z_scope.

(** C102: [assemble_predicate] and [assemble_sched] are read from the text of parse.cpp and run by the interpreter, the
    latter with the bit-fields as opcode.h declares them.  They do what the model does, and so does a whole line of the
    table whose operands and annotations are all run from their text. *)
Theorem c102_parse_text : forall fs hs ps enums others others' fields refs,
  read_functions operand_h = Some (fs, enums) -> read_functions helper_cpp = Some (hs, others) ->
  read_functions parse_cpp = Some (ps, others') -> read_bit_fields opcode_h = Some fields ->
  read_refs table_h = Some refs ->
  (forall fuel e s shift n, (50 <= fuel)%nat -> kind_ok (kind (s_tok s)) -> (shift < 64)%N ->
   run_fn fuel fields (ps ++ hs) [] e "assemble_predicate"
     [PSelf "token"; PSelf "op"; PValue (VZ TI32 (Z.of_N shift)); PValue (VZ TI32 n)] s =
   (let* op := assemble_predicate (e_asserts e) (s_tok s) (s_op s) shift (negb (n =? 0)) in
    Ok (St (s_cur s) (s_tok s) op))) /\
  (forall fuel e s, (100 + List.length (rest (s_cur s)) <= fuel)%nat ->
   run_fn fuel fields (ps ++ hs) [] e "assemble_sched" [PSelf "ctx"; PSelf "token"; PSelf "op"] s = assemble_sched s) /\
  (forall k line i, nth_error refs k = Some line -> nth_error table k = Some i ->
   forall e c op, (value op < 2 ^ 64)%N ->
   parse_text (fs ++ hs) enums (ps ++ hs) fields e line i c op = parse_insn e i c op).
Proof. exact parse_texts_run. Qed.
Print Assumptions c102_parse_text.
(** The files are read: the two functions, and the bit-fields in their order. *)
Example c102_files : exists ps others fields,
  read_functions parse_cpp = Some (ps, others) /\ read_bit_fields opcode_h = Some fields /\
  map f_name ps = ["assemble_predicate"; "assemble_sched"] /\
  fields = [("stall", 4%N); ("yield", 1%N); ("write_barrier", 3%N); ("read_barrier", 3%N); ("wait_barrier", 6%N);
            ("padding", 15%N)].
Proof.
  exists parse_functions, [], sched_fields. split; [exact parse_cpp_read| ]. split; [exact opcode_h_read| ].
  split; reflexivity.
Qed.
(** The text of [assemble_sched], run on "@WAIT 9 @DEP 2 @Y ;" behind the first '@': the word has stall 9, the yield
    bit, no barriers to set and barrier 2 to wait for. *)
Example c102_run : forall ls l c,
  run_fn 200 sched_fields parse_with [] (Env ls 8 true) "assemble_sched" [PSelf "ctx"; PSelf "token"; PSelf "op"]
    (St (Cursor (lit "WAIT 9 @DEP 2 @Y ;") 0 1) (Token TAt l c) (Opcode 5 0 0)) =
  Ok (St (Cursor [] 0 19) (Token TSemi 0 18) (Opcode 5 0 (9 + 16 + 7 * 2 ^ 5 + 7 * 2 ^ 8 + 4 * 2 ^ 11))).
Proof. intros. vm_compute. reflexivity. Qed.
(** A second stall count is refused where it stands. *)
Example c102_again : forall ls l c, exists d,
  run_fn 200 sched_fields parse_with [] (Env ls 8 true) "assemble_sched" [PSelf "ctx"; PSelf "token"; PSelf "op"]
    (St (Cursor (lit "WAIT 9 @WAIT 2 ;") 0 1) (Token TAt l c) (Opcode 5 0 0)) = Err d.
Proof. intros. eexists. vm_compute. reflexivity. Qed.
