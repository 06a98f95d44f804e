(** * Properties: the theorems, one block per entry of properties.jsonl. *)
From Verif Require Import Base Float Lexer Operand Catalogue Table Parse Assemble
  Spec LexFacts Outcomes Decode Emit Program Modes Footprint Encode Layout.
Local Open Scope char_scope.
Open Scope Z_scope.

(** A program used to show that hypotheses can be met: five instructions, two
    definitions of one label, annotations. *)
Definition demo : text := lit
"start:
  MOV R0, R1 @WAIT 3 @Y;
  @!P2 IADD R3, R0.reuse, -0x5;
loop:
  BRA loop; NOP;
start:
  EXIT @DEP 1;
".
Definition demo_words : list N :=
 [0x1F8040FC0007F3; 0x5C98078000170000; 0x3910007FFFBA0003; 0xE2400FFFFF87000F;
  0x1F8002FC0007E0; 0x50B0000000070F00; 0xE30000000007000F; 0x50B0000000070F00]%N.
Lemma demo_ok : assemble true demo = Ok demo_words.
Proof. vm_compute. reflexivity. Qed.
Lemma demo_program : exists ls l y, program true demo ls l y /\ List.length l = 5%nat.
Proof.
  destruct (proj1 (assemble_ok _ _ _) demo_ok) as (ls & l & y & P & _). exists ls, l, y.
  split; [exact P|]. destruct P as (_ & _ & L). rewrite (L eq_refl). vm_compute. reflexivity.
Qed.
Lemma demo_no_nul : ~ In NUL demo.
Proof.
  assert (E : existsb (Ascii.eqb NUL) demo = false) by (vm_compute; reflexivity).
  intros I. enough (existsb (Ascii.eqb NUL) demo = true) by congruence.
  apply existsb_exists. exists NUL. auto.
Qed.

(** C01: every run ends, with an enumerated outcome. *)
Theorem c01_outcomes : forall a code,
  match assemble a code with
  | Ok _ | Fatal _ => True
  | Abort _ => a = true
  | Undef u => u = UB_read_past_nul \/ u = UB_inactive_union \/ u = UB_table_overrun \/ u = UB_signed_overflow
  | Err _ | OutOfFuel => False
  end.
Proof. exact assemble_outcomes. Qed.
Print Assumptions c01_outcomes.

(** A run that returns words has decoded a unique program. *)
Theorem c01_program : forall a code w, assemble a code = Ok w <->
  exists ls l y, program a code ls l y /\ binary ls (c_opts y) (emit (map snd l)) = Ok w.
Proof. exact assemble_ok. Qed.
Print Assumptions c01_program.
Theorem c01_program_unique : forall a code ls l y ls' l' y',
  program a code ls l y -> program a code ls' l' y' -> ls' = ls /\ l' = l /\ y' = y.
Proof. exact program_unique. Qed.
Print Assumptions c01_program_unique.
Example c01_program_ex : exists ls l y, program true demo ls l y /\ List.length l = 5%nat.
Proof. exact demo_program. Qed.

(** C02: layout of the output. *)
Theorem c02_layout : forall a code w, assemble a code = Ok w ->
  exists ls l y, program a code ls l y /\
    (o_dksh (c_opts y) = false ->
     List.length w = (4 * ((List.length l + 2) / 3))%nat /\
     forall g j, (g < (List.length l + 2) / 3)%nat -> (j < 3)%nat ->
       nth (4 * g) w 0%N = control_word (recs (map snd l)) g /\
       nth (4 * g + 1 + j) w 0%N = nth (3 * g + j) (map (fun p => value (snd p)) l) NOP).
Proof. exact output_layout. Qed.
Print Assumptions c02_layout.
Example c02_layout_ex : assemble true demo = Ok demo_words.
Proof. exact demo_ok. Qed.

(** C03: control words decode to the records of their instructions. *)
Theorem c03_control : forall a code ls l y g j, program a code ls l y -> (j < 3)%nat ->
  (control_word (recs (map snd l)) g < 2 ^ 63)%N /\
  field (control_word (recs (map snd l)) g) (21 * N.of_nat j) 21 =
    match nth_error l (3 * g + j) with
    | Some (_, op) => (sched op + reuse op * 2 ^ 17)%N
    | None => 0x7E0%N
    end /\
  (forall x op, nth_error l (3 * g + j) = Some (x, op) -> (sched op < 2 ^ 17 /\ reuse op < 2 ^ 4)%N).
Proof. exact control_decodes. Qed.
Print Assumptions c03_control.
Example c03_control_ex : exists ls l y, program true demo ls l y /\ (2 < 3)%nat.
Proof. destruct demo_program as (ls & l & y & P & _). exists ls, l, y. auto. Qed.

(** C04: the decode buffer is never overrun. *)
Theorem c04_no_overrun : forall a code, assemble a code <> Undef UB_vector_index.
Proof. exact assemble_no_overrun. Qed.
Print Assumptions c04_no_overrun.

(** C05: with asserts, every ';' ends one instruction. *)
Theorem c05_semicolons : forall code ls l y, program true code ls l y ->
  List.length l = semis code /\
  forall k, (k <= List.length l)%nat -> exists p, code = p ++ left_after code l k /\ semis p = k.
Proof. exact debug_count. Qed.
Print Assumptions c05_semicolons.
Example c05_semicolons_ex : exists ls l y, program true demo ls l y /\ (3 <= List.length l)%nat.
Proof. destruct demo_program as (ls & l & y & P & E). exists ls, l, y. rewrite E. auto with arith. Qed.

(** C06: a label is the address of the instruction it stands in front of or
    inside of; the word at that byte offset is that instruction's. *)
Theorem c06_labels : forall code w ls l y p name, assemble true code = Ok w -> program true code ls l y ->
  ~ In NUL code -> first_defines code p name ->
  exists k, find_label ls name = Some (addr k) /\ (k <= List.length l)%nat /\
    (List.length (left_after code l k) >= List.length code - List.length p)%nat /\
    ((k < List.length l)%nat ->
     (List.length (left_after code l (Datatypes.S k)) < List.length code - List.length p)%nat /\
     (o_dksh (c_opts y) = false ->
      addr k mod 8 = 0 /\
      nth (Z.to_nat (addr k / 8)) w 0%N = value (snd (nth k l (ctx0 code, opcode0))))).
Proof. exact label_address. Qed.
Print Assumptions c06_labels.
Example c06_labels_ex : assemble true demo = Ok demo_words /\ ~ In NUL demo /\
  (exists p, first_defines demo p (lit "loop")) /\ exists ls l y, program true demo ls l y.
Proof.
  split; [exact demo_ok|]. split; [exact demo_no_nul|]. split.
  - assert (exists ls, generate_labels demo = Ok ls /\ find_label ls (lit "loop") = Some 24) as (ls & G & F).
    { eexists. vm_compute. auto. }
    apply (first_definition _ _ demo_no_nul G) in F as (p & D & _). eauto.
  - destruct demo_program as (ls & l & y & P & _). eauto.
Qed.

(** C08: the first definition wins; names that are not defined are rejected. *)
Theorem c08_first : forall code ls, ~ In NUL code -> generate_labels code = Ok ls ->
  forall name v, find_label ls name = Some v <-> exists p, first_defines code p name /\ v = addr (semis p).
Proof. exact first_definition. Qed.
Print Assumptions c08_first.
Example c08_first_ex : ~ In NUL demo /\ exists ls, generate_labels demo = Ok ls /\
  find_label ls (lit "start") = Some 8 /\ find_label ls (lit "loop") = Some 24.
Proof. split; [exact demo_no_nul|]. eexists. vm_compute. auto. Qed.
Theorem c08_undefined : forall e s name, s_kind s = TIdent name -> find_label (e_labels e) name = None ->
  run_operand e OLabel s = fail (s_tok s) (label_message name).
Proof. exact undefined_label. Qed.
Print Assumptions c08_undefined.

(** C09: builds with asserts either abort or do what builds without do. *)
Theorem c09_modes : forall code, (forall w, assemble true code <> Abort w) ->
  assemble false code = assemble true code.
Proof. exact modes_same. Qed.
Print Assumptions c09_modes.
Example c09_modes_ex : (forall w, assemble true demo <> Abort w) /\ assemble false demo = Ok demo_words.
Proof.
  assert (forall w, assemble true demo <> Abort w) as H by (rewrite demo_ok; discriminate).
  split; [exact H|]. rewrite (modes_same _ H). exact demo_ok.
Qed.
