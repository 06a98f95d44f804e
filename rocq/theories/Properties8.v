(** * Properties8: what a word says. *)
From Verif Require Import Base Float Lexer Operand Catalogue Table Parse Assemble Spec SpecOperand SpecInsn SpecSame
  Recover Unique Kin Twins.
Local Open Scope string_scope.
Local Open Scope list_scope.
Open Scope Z_scope.

(** C49: different operands of one form give different words.  The full
    statement is false: .PO is the two signs of IADD. *)
Theorem c49_refuted : exists a code ls i gi gn kf kf' op op', In i table /\
  assembled a code ls 0 i gi gn kf op /\ assembled a code ls 1 i gi gn kf' op' /\
  value op = value op' /\ reuse op = reuse op' /\
  ~ same_operands false (find_label ls) (find_label ls) (addr 0) (addr 1) i kf kf'.
Proof.
  assert (H : lost true "IADD.PO R0, R1, R2; IADD R0, -R1, -R2;" (form 139) (id ".PO")) by (apply lost_ok; vm_compute; reflexivity).
  destruct H as (ls & gi & gn & kf & kf' & op & op' & A & B & V & R & _ & D).
  exists true, (lit "IADD.PO R0, R1, R2; IADD R0, -R1, -R2;"), ls, (form 139), gi, gn, kf, kf', op, op'.
  split; [apply nth_In; vm_compute; repeat constructor|]. auto.
Qed.
Print Assumptions c49_refuted.
(** Away from the unclear tokens the word, and with [q] the reuse bits, tell
    the guard and every operand. *)
Theorem c49_partial : forall q a code ls k i gi gn kf op a' code' ls' k' gi' gn' kf' op',
  assembled a code ls k i gi gn kf op -> assembled a' code' ls' k' i gi' gn' kf' op' ->
  ~ unclear i kf -> ~ unclear i kf' -> value op = value op' -> (q = true -> reuse op = reuse op') ->
  gi = gi' /\ gn = gn' /\ same_operands q (find_label ls) (find_label ls') (addr k) (addr k') i kf kf'.
Proof. exact assembled_same. Qed.
Print Assumptions c49_partial.
(** C64: the same statement, which is exact. *)
Theorem c64_operands : forall q a code ls k i gi gn kf op a' code' ls' k' gi' gn' kf' op',
  assembled a code ls k i gi gn kf op -> assembled a' code' ls' k' i gi' gn' kf' op' ->
  ~ unclear i kf -> ~ unclear i kf' -> value op = value op' -> (q = true -> reuse op = reuse op') ->
  gi = gi' /\ gn = gn' /\ same_operands q (find_label ls) (find_label ls') (addr k) (addr k') i kf kf'.
Proof. exact assembled_same. Qed.
Print Assumptions c64_operands.
Example c49_partial_ex : exists ls gi gn op op', let code := lit "LDG.E R0, [R1]; LDG.E.32 R0, [R1+0x0];" in
  let kf := [id ".E"; TReg 0; TComma; TLbrack; TReg 1; TRbrack; TSemi] in
  let kf' := [id ".E"; id ".32"; TReg 0; TComma; TLbrack; TReg 1; TImm 0; TRbrack; TSemi] in
  exists n, assembled true code ls 0 (form n) gi gn kf op /\ assembled true code ls 1 (form n) gi gn kf' op' /\
  ~ unclear (form n) kf /\ ~ unclear (form n) kf' /\ value op = value op' /\ reuse op = reuse op'.
Proof.
  destruct (twins_ok true "LDG.E R0, [R1]; LDG.E.32 R0, [R1+0x0];" 254 254
    [id ".E"; TReg 0; TComma; TLbrack; TReg 1; TRbrack] [id ".E"; id ".32"; TReg 0; TComma; TLbrack; TReg 1; TImm 0; TRbrack])
    as (ls & gi & gn & op & op' & A & B & V & R); [vm_compute; reflexivity|].
  exists ls, gi, gn, op, op', 254%nat. split; [exact A|]. split; [exact B|].
  split; [intros [(k & [] & _)|(E & _)]; vm_compute in E; discriminate|].
  split; [intros [(k & [] & _)|(E & _)]; vm_compute in E; discriminate|]. auto.
Qed.
(** Every token listed as unclear does lose operands. *)
Theorem c49_unclear : forall i k, In i table -> In k (unclear_tokens i) -> exists a s, lost a s i k.
Proof. exact unclear_lost. Qed.
Print Assumptions c49_unclear.
Theorem c49_unclear_tlds : forall t, t = "3D" \/ t = "ARRAY_2D" -> exists i, In i table /\ i_mnemonic i = "TLDS" /\
  lost true ("TLDS.LL R4, R6, R8, R2, 0x28, " ++ t ++ ", RGBA; TLDS.LZ R4, R6, R8, R2, 0x28, " ++ t ++ ", RGBA;")%string i (id ".LL").
Proof.
  intros t [->| ->]; exists (form 247); (split; [apply nth_In; vm_compute; repeat constructor|]);
    (split; [vm_compute; reflexivity|]); apply lost_ok; vm_compute; reflexivity.
Qed.
Print Assumptions c49_unclear_tlds.
Example c49_unclear_ex : In (form 234) table /\ In (id ".B3") (unclear_tokens (form 234)).
Proof. split; [apply nth_In; vm_compute; repeat constructor|vm_compute; auto]. Qed.

(** C50: different forms that mean different things have different words.  The
    full statement is false: ICMP with a constant buffer. *)
Theorem c50_refuted : exists a code ls i i' gi gn op op', In i table /\ In i' table /\ i <> i' /\
  assembled a code ls 0 i gi gn
    [id ".LT"; TReg 0; TComma; TReg 1; TComma; TReg 2; TComma; id "c"; TLbrack; TImm 0; TRbrack; TLbrack; TImm 4; TRbrack; TSemi] op /\
  assembled a code ls 1 i' gi gn
    [id ".LT"; TReg 0; TComma; TReg 1; TComma; id "c"; TLbrack; TImm 0; TRbrack; TLbrack; TImm 4; TRbrack; TComma; TReg 2; TSemi] op' /\
  value op = value op' /\ reuse op = reuse op'.
Proof.
  destruct (twins_ok true "ICMP.LT R0, R1, R2, c[0x0][0x4]; ICMP.LT R0, R1, c[0x0][0x4], R2;" 147 148
    [id ".LT"; TReg 0; TComma; TReg 1; TComma; TReg 2; TComma; id "c"; TLbrack; TImm 0; TRbrack; TLbrack; TImm 4; TRbrack]
    [id ".LT"; TReg 0; TComma; TReg 1; TComma; id "c"; TLbrack; TImm 0; TRbrack; TLbrack; TImm 4; TRbrack; TComma; TReg 2])
    as (ls & gi & gn & op & op' & A & B & V & R); [vm_compute; reflexivity|].
  exists true, (lit "ICMP.LT R0, R1, R2, c[0x0][0x4]; ICMP.LT R0, R1, c[0x0][0x4], R2;"), ls, (form 147), (form 148), gi, gn, op, op'.
  split; [apply nth_In; vm_compute; repeat constructor|]. split; [apply nth_In; vm_compute; repeat constructor|].
  split; [intros E; apply (f_equal i_operands) in E; vm_compute in E; discriminate|]. auto.
Qed.
Print Assumptions c50_refuted.
(** Otherwise instructions with the same word have the same mnemonic and guard,
    and are of one form, or of two forms of a family and say the same operands,
    or are the two forms of ICMP. *)
Theorem c50_partial : forall a code ls k i gi gn kf op a' code' ls' k' i' gi' gn' kf' op',
  assembled a code ls k i gi gn kf op -> assembled a' code' ls' k' i' gi' gn' kf' op' -> value op = value op' ->
  i_mnemonic i = i_mnemonic i' /\ gi = gi' /\ gn = gn' /\
  (i = i' \/ related (find_label ls) (find_label ls') (addr k) (addr k') i i' kf kf' \/ swapped i i').
Proof. exact assembled_related. Qed.
Print Assumptions c50_partial.
(** C65: the same statement, which is exact. *)
Theorem c65_forms : forall a code ls k i gi gn kf op a' code' ls' k' i' gi' gn' kf' op',
  assembled a code ls k i gi gn kf op -> assembled a' code' ls' k' i' gi' gn' kf' op' -> value op = value op' ->
  i_mnemonic i = i_mnemonic i' /\ gi = gi' /\ gn = gn' /\
  (i = i' \/ related (find_label ls) (find_label ls') (addr k) (addr k') i i' kf kf' \/ swapped i i').
Proof. exact assembled_related. Qed.
Print Assumptions c65_forms.
Example c50_partial_ex : exists ls gi gn op op', let code := lit "MOV R0, R1; MOV R0, R1, 15;" in
  let kf := [TReg 0; TComma; TReg 1; TSemi] in let kf' := [TReg 0; TComma; TReg 1; TComma; TImm 15; TSemi] in
  assembled true code ls 0 (form 58) gi gn kf op /\ assembled true code ls 1 (form 59) gi gn kf' op' /\
  value op = value op' /\ form 58 <> form 59.
Proof.
  destruct (twins_ok true "MOV R0, R1; MOV R0, R1, 15;" 58 59 [TReg 0; TComma; TReg 1] [TReg 0; TComma; TReg 1; TComma; TImm 15])
    as (ls & gi & gn & op & op' & A & B & V & R); [vm_compute; reflexivity|].
  exists ls, gi, gn, op, op'. split; [exact A|]. split; [exact B|]. split; [exact V|].
  intros E; apply (f_equal i_operands) in E; vm_compute in E; discriminate.
Qed.
