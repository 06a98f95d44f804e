(** * Properties4: annotations, forms and errors. *)
From Verif Require Import Base Float Lexer Operand Catalogue Table Parse Assemble Spec SpecOperand SpecInsn LexFacts SchedFuel ParseFacts
  Decode Program Encode Notes Insn Recover Stream Forms Sched Demo.
From Coq Require Import Lia Permutation.
Local Open Scope string_scope.
Local Open Scope list_scope.
Open Scope Z_scope.

(** C25: scheduling annotations. *)
Theorem c25_decodes : forall l, notes_ok l -> record_says (notes_record l) l.
Proof. exact record_decodes. Qed.
Print Assumptions c25_decodes.
Theorem c25_unique : forall l w w', record_says w l -> record_says w' l -> w = w'.
Proof. exact record_unique. Qed.
Print Assumptions c25_unique.
Theorem c25_order : forall l l', Permutation l l' -> notes_ok l -> notes_ok l' /\ notes_record l' = notes_record l.
Proof. exact notes_order. Qed.
Print Assumptions c25_order.
Example c25_decodes_ex : notes_ok [Wait 4; Stall 15; Yield; ReadBarrier 2; Wait 0] /\ ~ notes_ok [Stall 1; Stall 1] /\ ~ notes_ok [Wait 6] /\
  Permutation [Wait 4; Yield] [Yield; Wait 4] /\ notes_record [Wait 4; Yield; ReadBarrier 2] = 0x82F0%N.
Proof.
  split; [|split; [|split; [|split; [|reflexivity]]]].
  - repeat (constructor; [cbn; lia || exact I|repeat constructor; cbn; lia || tauto|]). constructor.
  - intros H. inversion H; subst. match goal with F : Forall _ _ |- _ => exact (Forall_inv F I) end.
  - intros H. inversion H; subst. match goal with F : note_range _ |- _ => cbn in F; lia end.
  - constructor.
Qed.
Theorem c25_form : forall lab pc i gi gn ko kn l op, In i table -> unmarked ko -> notes_tokens l kn ->
  (form_spells lab pc i gi gn (ko ++ kn ++ [TSemi]) op <->
   notes_ok l /\ sched op = notes_record l /\
   form_spells lab pc i gi gn (ko ++ [TSemi]) (Opcode (value op) (reuse op) (notes_record []))).
Proof. exact form_notes. Qed.
Print Assumptions c25_form.
Theorem c25_instruction : forall a ls x r kg gi gn name ko l kn c', no_option (c_cur x) ->
  guard_tokens gi gn kg -> unmarked ko -> notes_tokens l kn ->
  scan (c_cur x) (kg ++ TIdent name :: ko ++ kn ++ [TSemi]) c' ->
  parse_instruction a ls x opcode0 = Ok r ->
  notes_ok l /\ exists x' op, r = Some (x', op) /\ c_cur x' = c' /\ record_says (sched op) l.
Proof. exact instruction_notes. Qed.
Print Assumptions c25_instruction.
Example c25_instruction_ex : exists x ko kn c' r, x = ctx0 (lit "MOV R0, R1 @Y @WAIT 3 @DEP 2;") /\ no_option (c_cur x) /\ unmarked ko /\
  notes_tokens [Yield; Stall 3; Wait 2] kn /\ scan (c_cur x) (TIdent (lit "MOV") :: ko ++ kn ++ [TSemi]) c' /\
  parse_instruction true [] x opcode0 = Ok r /\ exists d, assemble true (lit "MOV R0, R1 @Y @WAIT 3 @Y;") = Fatal d.
Proof.
  exists (ctx0 (lit "MOV R0, R1 @Y @WAIT 3 @DEP 2;")), [TReg 0; TComma; TReg 1],
    [TAt; id "Y"; TAt; id "WAIT"; TImm 3; TAt; id "DEP"; TImm 2]. eexists _, _. split; [reflexivity|]. split.
  { intros t c' T. cbn [ctx0 c_cur] in T.
    assert (E : tokenize (Cursor (lit "MOV R0, R1 @Y @WAIT 3 @DEP 2;") 0 0) =
      Ok (Token (TIdent (lit "MOV")) 0 0, Cursor (lit " R0, R1 @Y @WAIT 3 @DEP 2;") 0 3)) by (vm_compute; reflexivity).
    rewrite E in T. injection T as <- _. reflexivity. }
  split; [repeat constructor; intros [H|H]; discriminate|].
  split.
  { apply (ntok_cons Yield _ [TAt; id "Y"]); [left; reflexivity|]. apply (ntok_cons (Stall 3) _ [TAt; id "WAIT"; TImm 3]); [reflexivity|].
    apply (ntok_cons (Wait 2) _ [TAt; id "DEP"; TImm 2] []); [reflexivity|constructor]. }
  split; [apply (kinds_scan 13); vm_compute; reflexivity|]. split; [vm_compute; reflexivity|]. eexists. vm_compute. reflexivity.
Qed.

(** C33: the first form that fits. *)
Theorem c33_first : forall tbl a ls x op r, parse_instruction_with tbl a ls x op = Ok (Some r) ->
  exists pre i post, tbl = pre ++ i :: post /\
    parse_instruction_with [i] a ls x op = Ok (Some r) /\
    forall j, In j pre -> exists d, parse_instruction_with [j] a ls x op = Fatal d.
Proof. exact first_match. Qed.
Print Assumptions c33_first.
Theorem c33_program : forall a code ls l y k x' op, program a code ls l y -> nth_error l k = Some (x', op) ->
  exists x pre i post, table = pre ++ i :: post /\
    nth_error (ctx0 code :: map fst l) k = Some x /\
    parse_instruction_with [i] a ls x opcode0 = Ok (Some (x', op)) /\
    forall j, In j pre -> exists d, parse_instruction_with [j] a ls x opcode0 = Fatal d.
Proof. exact program_forms. Qed.
Print Assumptions c33_program.
Definition no_insn : insn := Insn 0 0 "" [].
Example c33_first_ex : exists r d, parse_instruction_with table true [] (ctx0 (lit "IADD R0, R1, c[0x1][0x8];")) opcode0 = Ok (Some r) /\
    parse_instruction_with [nth 0 (filter (fun i => String.eqb (i_mnemonic i) "IADD") table) no_insn] true []
      (ctx0 (lit "IADD R0, R1, c[0x1][0x8];")) opcode0 = Fatal d.
Proof. eexists _, _. split; vm_compute; reflexivity. Qed.

(** C34: the error shown. *)
Theorem c34_shown : forall e tbl t c op d,
  parse_table e tbl t c op None = Fatal d <->
  (exists pre i post, forms_of tbl t = pre ++ i :: post /\ Forall (outranked e c op (fun _ => True)) pre /\ parse_insn e i c op = Fatal d) \/
  (forms_of tbl t = [] /\ d = diag_at t (mnemonic_message (token_view (kind t)))) \/
  (exists pre i post n, forms_of tbl t = pre ++ i :: post /\ parse_insn e i c op = Ok (Failed d n) /\
     Forall (outranked e c op (fun m => m < n)) pre /\ Forall (outranked e c op (fun m => m <= n)) post).
Proof. exact table_fatal. Qed.
Print Assumptions c34_shown.
Theorem c34_scores : forall e i c op d n, parse_insn e i c op = Ok (Failed d n) ->
  exists s, operands_start e i c op s /\
  ((n = 0 /\ refuses_guard i (value (s_op s)) /\ d_pos d = Some (t_line (s_tok s), t_col (s_tok s))) \/
   (~ refuses_guard i (value (s_op s)) /\
    ((exists pre o post s1, i_operands i = pre ++ o :: post /\ run_ops e pre s = Ok s1 /\ run_operand e o s1 = Err d /\
        n = 1 + Z.of_nat (List.length pre)) \/
     (exists s1, run_ops e (i_operands i) s = Ok s1 /\ n = 1001 + Z.of_nat (List.length (i_operands i)) /\
        (assemble_sched s1 = Err d \/ exists s2, assemble_sched s1 = Ok s2 /\ s_kind s2 <> TSemi /\ d_pos d = Some (t_line (s_tok s2), t_col (s_tok s2))))))).
Proof. exact score_meaning. Qed.
Print Assumptions c34_scores.
Theorem c34_furthest_partial : forall e tbl t c op d, parse_table e tbl t c op None = Fatal d -> forms_of tbl t <> [] ->
  (forall i, In i (forms_of tbl t) -> exists d' n m, parse_insn e i c op = Ok (Failed d' n) /\ n <> 0 /\
     form_reads e i c op m /\ (m < List.length (i_operands i))%nat) ->
  exists pre i post m n, forms_of tbl t = pre ++ i :: post /\ parse_insn e i c op = Ok (Failed d n) /\ form_reads e i c op m /\
    (forall j m', In j pre -> form_reads e j c op m' -> (m' < m)%nat) /\
    (forall j m', In j post -> form_reads e j c op m' -> (m' <= m)%nat).
Proof. exact furthest_shown. Qed.
Print Assumptions c34_furthest_partial.
(** C60: the same statement, which is exact. *)
Theorem c60_furthest : forall e tbl t c op d, parse_table e tbl t c op None = Fatal d -> forms_of tbl t <> [] ->
  (forall i, In i (forms_of tbl t) -> exists d' n m, parse_insn e i c op = Ok (Failed d' n) /\ n <> 0 /\
     form_reads e i c op m /\ (m < List.length (i_operands i))%nat) ->
  exists pre i post m n, forms_of tbl t = pre ++ i :: post /\ parse_insn e i c op = Ok (Failed d n) /\ form_reads e i c op m /\
    (forall j m', In j pre -> form_reads e j c op m' -> (m' < m)%nat) /\
    (forall j m', In j post -> form_reads e j c op m' -> (m' <= m)%nat).
Proof. exact furthest_shown. Qed.
Print Assumptions c60_furthest.
Theorem c34_unknown : forall e tbl t c op, (forall i, In i tbl -> equal t (i_mnemonic i) = false) ->
  parse_table e tbl t c op None = Fatal (Diag (Some (t_line t, t_col t)) (mnemonic_message (token_view (kind t)))).
Proof. exact unknown_mnemonic. Qed.
Print Assumptions c34_unknown.
(** The rest of an instruction behind its mnemonic, and the guard bits. *)
Definition behind (s : string) : cursor := Cursor (lit s) 0 3.
Definition unguarded : opcode := Opcode (shl64 7 16) 0 0.
Definition mov : token := Token (TIdent (lit "MOV")) 0 0.
(** What a form makes of the rest of an instruction: score and operands read. *)
Definition tried (e : env) (c : cursor) (op : opcode) (i : insn) : option (diag * Z * nat) :=
  match parse_insn e i c op, add_bits (e_asserts e) op (i_opcode i), tokenize c with
  | Ok (Failed d n), Ok op1, Ok (t, c1) => Some (d, n, operands_read e (i_operands i) (St c1 t op1))
  | _, _, _ => None
  end.
Lemma tried_ok : forall e c op i d n m, tried e c op i = Some (d, n, m) ->
  parse_insn e i c op = Ok (Failed d n) /\ form_reads e i c op m.
Proof.
  intros e c op i d n m H. unfold tried in H. destruct (parse_insn e i c op) as [[s|d' n']| | | | |]; try discriminate.
  destruct (add_bits _ op _) as [op1| | | | |] eqn:A; try discriminate. destruct (tokenize c) as [(t, c1)| | | | |] eqn:T; try discriminate.
  injection H as <- <- <-. split; [reflexivity|]. exists (St c1 t op1). split; [exists op1, t, c1; auto|reflexivity].
Qed.
Example c34_furthest_partial_ex : exists d, parse_table (Env [] 8 true) table mov (behind " R0, [;") unguarded None = Fatal d /\
  forms_of table mov <> [] /\
  forall i, In i (forms_of table mov) -> exists d' n m, parse_insn (Env [] 8 true) i (behind " R0, [;") unguarded = Ok (Failed d' n) /\ n <> 0 /\
    form_reads (Env [] 8 true) i (behind " R0, [;") unguarded m /\ (m < List.length (i_operands i))%nat.
Proof.
  eexists. split; [vm_compute; reflexivity|]. split.
  { assert (L : Nat.eqb (List.length (forms_of table mov)) 0 = false) by (vm_compute; reflexivity). intros E. rewrite E in L. discriminate. }
  assert (C : forallb (fun i => match tried (Env [] 8 true) (behind " R0, [;") unguarded i with
    | Some (d, n, m) => negb (Z.eqb n 0) && Nat.ltb m (List.length (i_operands i)) | None => false end) (forms_of table mov) = true) by (vm_compute; reflexivity).
  intros i I. rewrite forallb_forall in C. specialize (C i I). cbn beta in C.
  destruct (tried _ _ _ i) as [((d', n), m)|] eqn:T; [|discriminate]. apply tried_ok in T as (T1 & T2). apply andb_true_iff in C as (C1 & C2).
  exists d', n, m. split; [exact T1|]. split; [apply negb_true_iff, Z.eqb_neq in C1; exact C1|]. split; [exact T2|]. apply Nat.ltb_lt, C2.
Qed.
(** A form that reads all of its operands wins over one that reads more. *)
Theorem c34_refuted : exists d, assemble true (lit "MOV R0, R1, R2;") = Fatal d /\
  parse_table (Env [] 8 true) table mov (behind " R0, R1, R2;") unguarded None = Fatal d /\
  exists i j m n, In i (forms_of table mov) /\ In j (forms_of table mov) /\
    (exists k, parse_insn (Env [] 8 true) i (behind " R0, R1, R2;") unguarded = Ok (Failed d k)) /\
    (forall k, parse_insn (Env [] 8 true) j (behind " R0, R1, R2;") unguarded <> Ok (Failed d k)) /\
    form_reads (Env [] 8 true) i (behind " R0, R1, R2;") unguarded m /\ form_reads (Env [] 8 true) j (behind " R0, R1, R2;") unguarded n /\ (m < n)%nat.
Proof.
  assert (L : (2 <= List.length (forms_of table mov))%nat) by (apply Nat.leb_le; vm_compute; reflexivity).
  assert (T1 : exists d k m, tried (Env [] 8 true) (behind " R0, R1, R2;") unguarded (nth 0 (forms_of table mov) no_insn) = Some (d, k, m) /\
    assemble true (lit "MOV R0, R1, R2;") = Fatal d /\ parse_table (Env [] 8 true) table mov (behind " R0, R1, R2;") unguarded None = Fatal d /\
    m = 3%nat /\ d_pos d = Some (0, 10)).
  { do 3 eexists. split; [vm_compute; reflexivity|]. split; [vm_compute; reflexivity|]. split; [vm_compute; reflexivity|]. split; reflexivity. }
  assert (T2 : exists d k m, tried (Env [] 8 true) (behind " R0, R1, R2;") unguarded (nth 1 (forms_of table mov) no_insn) = Some (d, k, m) /\
    m = 4%nat /\ d_pos d = Some (0, 12)).
  { do 3 eexists. split; [vm_compute; reflexivity|]. split; reflexivity. }
  destruct T1 as (d & k & m & T1 & A1 & A2 & -> & P1), T2 as (d2 & k2 & m2 & T2 & -> & P2).
  apply tried_ok in T1 as (F1 & R1), T2 as (F2 & R2).
  exists d. split; [exact A1|]. split; [exact A2|]. exists (nth 0 (forms_of table mov) no_insn), (nth 1 (forms_of table mov) no_insn), 3%nat, 4%nat.
  split; [apply nth_In; lia|]. split; [apply nth_In; lia|]. split; [exists k; exact F1|].
  split; [intros k' E; rewrite F2 in E; injection E as E _; congruence|]. split; [exact R1|]. split; [exact R2|]. lia.
Qed.
Print Assumptions c34_refuted.
