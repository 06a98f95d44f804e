(** * Properties2: what operands leave in the words. *)
From Verif Require Import Base Float Lexer Operand Catalogue Table Parse Assemble Spec SpecOperand SpecInsn Bits LexFacts
  SchedFuel Param Reach ParseFacts Outcomes Decode Program Footprint Encode Operands Operands2 Operands3 Quiet Notes Insn Words
  Clash Recover Fields Reject Fields2 Fields3 Demo.
Local Open Scope string_scope.
Local Open Scope list_scope.
Open Scope Z_scope.

(** Every instruction of every program that assembles is [assembled], so what
    follows speaks about all of them. *)
Theorem every_instruction : forall a code ls l y k x op, program a code ls l y -> nth_error l k = Some (x, op) ->
  exists i gi gn kf, assembled a code ls k i gi gn kf op.
Proof. exact program_assembled. Qed.
Print Assumptions every_instruction.

(** C07: branches. *)
Theorem c07_distance : forall a code ls k i gi gn kf op pre, assembled a code ls k i gi gn kf op ->
  has i pre OLabel ->
  exists ka t kb target, found ls k i gi gn kf pre ka [t] kb /\
    ((exists name, t = TIdent name /\ find_label ls name = Some target) \/ t = TImm target) /\
    - 2 ^ 23 <= target - (addr k + 8) < 2 ^ 23 /\
    addr k + 8 + sint 24 (field (value op) 20 24) = target.
Proof. exact label_field. Qed.
Print Assumptions c07_distance.
Example c07_distance_ex : exists ls i gi gn kf op pre, assembled true samples ls 0 i gi gn kf op /\ has i pre (OLabel).
Proof. apply sample_has. vm_compute. reflexivity. Qed.
Theorem c07_rejects : forall ls pc a s, 0 <= pc < 2 ^ 61 ->
  (forall t, target_of ls (s_kind s) = Some t -> - 2 ^ 62 <= t < 2 ^ 62) ->
  ~ (exists t, target_of ls (s_kind s) = Some t /\ - 2 ^ 23 <= t - (pc + 8) < 2 ^ 23) ->
  exists d, run_operand (Env ls pc a) OLabel s = Err d.
Proof. exact label_rejects. Qed.
Print Assumptions c07_rejects.
Example c07_rejects_ex : 0 <= 8 < 2 ^ 61 /\
  (forall t, target_of [] (TImm 0x900000) = Some t -> - 2 ^ 62 <= t < 2 ^ 62) /\
  ~ (exists t, target_of [] (TImm 0x900000) = Some t /\ - 2 ^ 23 <= t - (8 + 8) < 2 ^ 23).
Proof. split; [|split]; [easy|intros t [= <-]; easy|intros (t & [= <-] & _ & H); discriminate H]. Qed.
(** Only literals near the ends of the 64-bit range escape: the subtraction
    overflows, which is undefined. *)
Theorem c07_overflow_refuted : exists code, assemble true code = Undef UB_signed_overflow /\
  code = lit "BRA -0x8000000000000000;".
Proof. eexists. split; [|reflexivity]. vm_compute. reflexivity. Qed.

(** C10, C12: opcode, guard, and nothing outside the fields. *)
Theorem c10_shape : forall a code ls k i gi gn kf op, assembled a code ls k i gi gn kf op ->
  field (value op) 16 4 = guard_field gi gn /\
  N.land (value op) (i_opcode i) = i_opcode i /\
  sub (value op) (N.lor (N.lor (i_opcode i) (range 16 4)) (operand_bits i)).
Proof. exact word_shape. Qed.
Print Assumptions c10_shape.
Example c10_shape_ex : exists ls i gi gn kf op pre, assembled true samples ls 1 i gi gn kf op /\ has i pre OImm20.
Proof. apply sample_has. vm_compute. reflexivity. Qed.
Theorem c12_guard_alone : forall a code a' code' ls k i gi gn gi' gn' kf op op',
  assembled a code ls k i gi gn kf op -> assembled a' code' ls k i gi' gn' kf op' ->
  N.ldiff (value op) (range 16 4) = N.ldiff (value op') (range 16 4) /\ reuse op = reuse op' /\ sched op = sched op'.
Proof. exact guard_alone. Qed.
Print Assumptions c12_guard_alone.
Theorem c12_unguarded : forall gi gn, guard_tokens gi gn [] -> guard_field gi gn = 7%N.
Proof. intros gi gn [(_ & -> & ->)|[=]]. reflexivity. Qed.
Print Assumptions c12_unguarded.
Theorem c12_guarded : forall gi gn gi' gn', guard_tokens gi gn [TAt; TPred gi' gn'] ->
  guard_field gi gn = (gi' + (if gn' then 8 else 0))%N.
Proof. intros gi gn gi' gn' [([=] & _)|[= -> ->]]. reflexivity. Qed.
Print Assumptions c12_guarded.

(** C11: overlaps. *)
Theorem c11_disjoint : forall n i, nth_error table n = Some i -> ~ In n clash_at ->
  ForallOrdPairs disjoint (fields i).
Proof. exact fields_disjoint. Qed.
Print Assumptions c11_disjoint.
Theorem c11_silent : forall n i ls pc a c gi gn w, nth_error table n = Some i -> ~ In n clash_at -> (gi <= 7)%N ->
  parse_insn (Env ls pc a) i c (Opcode (place (guard_field gi gn) 16) 0 0) <> Abort w.
Proof. exact unlisted_silent. Qed.
Print Assumptions c11_silent.
Theorem c11_assert : forall code w, assemble true code = Abort w ->
  w = "index == max_decode_instructions" \/
  exists n i ls pc c gi gn, In n clash_at /\ nth_error table n = Some i /\ tried (Cursor code 0 0) i c /\
    parse_insn (Env ls pc true) i c (Opcode (place (guard_field gi gn) 16) 0 0) = Abort w.
Proof. exact assemble_abort. Qed.
Print Assumptions c11_assert.
Theorem c11_listed : forall n, In n clash_at -> exists i txt, nth_error table n = Some i /\
  assemble true (lit (i_mnemonic i ++ txt)) = Abort overlap /\
  parse_insn (Env [] 8 true) i (Cursor (lit txt) 0 0) (Opcode (place 7 16) 0 0) = Abort overlap.
Proof. exact clash_witness. Qed.
Print Assumptions c11_listed.
Example c11_disjoint_ex : nth_error table 0 <> None /\ ~ In 0%nat clash_at.
Proof. split; [discriminate|]. vm_compute. intuition discriminate. Qed.
Example c11_listed_ex : exists n, In n clash_at.
Proof. eexists. left. reflexivity. Qed.

(** C13: instructions that are always executed. *)
Theorem c13_rejects : forall a ls x t c tg cg tm cm t1 c1 gi gn name,
  tokenize (c_cur x) = Ok (t, c) -> kind t = TAt -> tokenize c = Ok (tg, cg) -> kind tg = TPred gi gn -> gi <> 7%N ->
  tokenize cg = Ok (tm, cm) -> kind tm = id name -> always_executed name -> tokenize cm = Ok (t1, c1) ->
  parse_instruction a ls x opcode0 = Fatal (diag_at t1 (NO_GUARD name)).
Proof. exact guarded_fatal. Qed.
Print Assumptions c13_rejects.
Example c13_rejects_ex : exists w, assemble true (lit "@P0 PBK 8;") = Fatal w /\ exists l, assemble true (lit "@PT PBK 8;") = Ok l.
Proof. eexists. split; [vm_compute; reflexivity|]. eexists. vm_compute. reflexivity. Qed.
Theorem c13_accepted : forall a code ls k i gi gn kf op, assembled a code ls k i gi gn kf op ->
  always_executed (i_mnemonic i) -> gi = 7%N.
Proof. exact always_seven. Qed.
Print Assumptions c13_accepted.
Example c13_accepted_ex : exists ls i gi gn kf op pre, assembled true samples ls 18 i gi gn kf op /\ has i pre OLabel.
Proof. apply sample_has. vm_compute. reflexivity. Qed.

(** C14: signed 20-bit immediates. *)
Theorem c14_field : forall a code ls k i gi gn kf op pre, assembled a code ls k i gi gn kf op ->
  has i pre OImm20 ->
  exists ka z kb, found ls k i gi gn kf pre ka [TImm z] kb /\ - 2 ^ 19 <= z < 2 ^ 19 /\
    field (value op) 20 19 = Z.to_N (z mod 2 ^ 19) /\ field (value op) 56 1 = (if (z <? 0)%Z then 1 else 0)%N /\
    sint 20 (field (value op) 20 19 + 2 ^ 19 * field (value op) 56 1) = z.
Proof. exact imm20_field. Qed.
Print Assumptions c14_field.
Example c14_field_ex : exists ls i gi gn kf op pre, assembled true samples ls 1 i gi gn kf op /\ has i pre (OImm20).
Proof. apply sample_has. vm_compute. reflexivity. Qed.
Theorem c14_rejects : forall e s, ~ (exists z, s_kind s = TImm z /\ - 2 ^ 19 <= z < 2 ^ 19) ->
  exists d, run_operand e OImm20 s = Err d.
Proof. exact imm20_rejects. Qed.
Print Assumptions c14_rejects.
Theorem c14_accepts : forall ls pc c t op z t1 c1, kind t = TImm z -> - 2 ^ 19 <= z < 2 ^ 19 -> tokenize c = Ok (t1, c1) ->
  exists op', run_operand (Env ls pc false) OImm20 (St c t op) = Ok (St c1 t1 op').
Proof. exact imm20_accepts. Qed.
Print Assumptions c14_accepts.
Example c14_rejects_ex : exists w, assemble true (lit "IADD R0, R1, 0x80000;") = Fatal w /\
  exists l, assemble true (lit "IADD R0, R1, -0x80000;") = Ok l.
Proof. eexists. split; [vm_compute; reflexivity|]. eexists. vm_compute. reflexivity. Qed.

(** C15: integers of fixed width. *)
Theorem c15_unsigned : forall a code ls k i gi gn kf op pre n ad, assembled a code ls k i gi gn kf op ->
  has i pre (OUint (2 ^ Z.of_N n - 1) ad) ->
  exists ka z kb, found ls k i gi gn kf pre ka [TImm z] kb /\
    0 <= z < 2 ^ Z.of_N n /\ field (value op) ad n = Z.to_N z.
Proof. exact uint_field. Qed.
Print Assumptions c15_unsigned.
Example c15_unsigned_ex : exists ls i gi gn kf op pre, assembled true samples ls 16 i gi gn kf op /\ has i pre (OUint (2 ^ Z.of_N 32 - 1) 20).
Proof. apply sample_has. vm_compute. reflexivity. Qed.
Theorem c15_widths : forall i pre mx ad, In i table -> has i pre (OUint mx ad) -> exists n, mx = 2 ^ Z.of_N n - 1.
Proof. exact uint_exact. Qed.
Print Assumptions c15_widths.
Theorem c15_signed : forall a code ls k i gi gn kf op pre n ad, assembled a code ls k i gi gn kf op ->
  has i pre (OInt n ad) ->
  exists ka z kb, found ls k i gi gn kf pre ka [TImm z] kb /\
    - 2 ^ (Z.of_N n - 1) <= z < 2 ^ (Z.of_N n - 1) /\ sint n (field (value op) ad n) = z.
Proof. exact int_field. Qed.
Print Assumptions c15_signed.
Example c15_signed_ex : exists ls i gi gn kf op pre, assembled true samples ls 17 i gi gn kf op /\ has i pre (OInt 32 20).
Proof. apply sample_has. vm_compute. reflexivity. Qed.
Theorem c15_unsigned_rejects : forall e mx ad s, ~ (exists z, s_kind s = TImm z /\ 0 <= z <= mx) ->
  exists d, run_operand e (OUint mx ad) s = Err d.
Proof. exact uint_rejects. Qed.
Print Assumptions c15_unsigned_rejects.
Theorem c15_signed_rejects : forall e n ad s, ~ (exists z, s_kind s = TImm z /\ - 2 ^ (Z.of_N n - 1) <= z < 2 ^ (Z.of_N n - 1)) ->
  exists d, run_operand e (OInt n ad) s = Err d.
Proof. exact int_rejects. Qed.
Print Assumptions c15_signed_rejects.
Theorem c15_unsigned_accepts : forall ls pc mx ad c t op z t1 c1, kind t = TImm z -> 0 <= z <= mx -> tokenize c = Ok (t1, c1) ->
  exists op', run_operand (Env ls pc false) (OUint mx ad) (St c t op) = Ok (St c1 t1 op').
Proof. exact uint_accepts. Qed.
Print Assumptions c15_unsigned_accepts.
Theorem c15_signed_accepts : forall ls pc n ad c t op z t1 c1, kind t = TImm z ->
  - 2 ^ (Z.of_N n - 1) <= z < 2 ^ (Z.of_N n - 1) -> tokenize c = Ok (t1, c1) ->
  exists op', run_operand (Env ls pc false) (OInt n ad) (St c t op) = Ok (St c1 t1 op').
Proof. exact int_accepts. Qed.
Print Assumptions c15_signed_accepts.

(** C16: the immediate of IADD3.  The literal 2^20 is accepted and spills into
    the register that follows. *)
Theorem c16_field_partial : forall a code ls k i gi gn kf op pre, assembled a code ls k i gi gn kf op ->
  has i pre OUimmExtended ->
  exists ka z kb, found ls k i gi gn kf pre ka [TImm z] kb /\ 0 <= z <= 2 ^ 20 /\
    (z < 2 ^ 20 -> Z.of_N (field (value op) 20 19 + 2 ^ 19 * field (value op) 56 1) = z).
Proof. exact uimm_field. Qed.
Print Assumptions c16_field_partial.
(** C55: the same statement, which is exact. *)
Theorem c55_field : forall a code ls k i gi gn kf op pre, assembled a code ls k i gi gn kf op ->
  has i pre OUimmExtended ->
  exists ka z kb, found ls k i gi gn kf pre ka [TImm z] kb /\ 0 <= z <= 2 ^ 20 /\
    (z < 2 ^ 20 -> Z.of_N (field (value op) 20 19 + 2 ^ 19 * field (value op) 56 1) = z).
Proof. exact uimm_field. Qed.
Print Assumptions c55_field.
Example c16_field_partial_ex : exists ls i gi gn kf op pre, assembled true samples ls 2 i gi gn kf op /\ has i pre (OUimmExtended).
Proof. apply sample_has. vm_compute. reflexivity. Qed.
Theorem c16_rejects : forall e s, ~ (exists z, s_kind s = TImm z /\ 0 <= z <= 2 ^ 20) ->
  exists d, run_operand e OUimmExtended s = Err d.
Proof. exact uimm_rejects. Qed.
Print Assumptions c16_rejects.
Theorem c16_refuted : exists code code' w, code = lit "IADD3 R0, R1, 0x100000, R2;" /\
  code' = lit "IADD3 R0, R1, 0x80000, R3;" /\ assemble true code = Ok w /\ assemble true code' = Ok w.
Proof. do 3 eexists. split; [reflexivity|]. split; [reflexivity|]. split; vm_compute; reflexivity. Qed.
Print Assumptions c16_refuted.

(** C17: constant buffers. *)
Theorem c17_field : forall a code ls k i gi gn kf op pre, assembled a code ls k i gi gn kf op ->
  has i pre OCbuf ->
  exists ka bank off kb,
    found ls k i gi gn kf pre ka [id "c"; TLbrack; TImm bank; TRbrack; TLbrack; TImm off; TRbrack] kb /\
    0 <= bank <= 31 /\ - 2 ^ 15 <= off < 2 ^ 15 /\ off mod 4 = 0 /\
    field (value op) 34 5 = Z.to_N bank /\ sint 16 (4 * field (value op) 20 14) = off.
Proof. exact cbuf_field. Qed.
Print Assumptions c17_field.
Example c17_field_ex : exists ls i gi gn kf op pre, assembled true samples ls 3 i gi gn kf op /\ has i pre (OCbuf).
Proof. apply sample_has. vm_compute. reflexivity. Qed.
Theorem c17_accepts : forall ls pc c t op bank off t1 c1,
  reads t c [id "c"; TLbrack; TImm bank; TRbrack; TLbrack; TImm off; TRbrack] t1 c1 ->
  (0 <= bank <= 31 /\ - 2 ^ 15 <= off < 2 ^ 15 /\ off mod 4 = 0 /\
   exists op', run_operand (Env ls pc false) OCbuf (St c t op) = Ok (St c1 t1 op')) \/
  (~ (0 <= bank <= 31 /\ - 2 ^ 15 <= off < 2 ^ 15 /\ off mod 4 = 0) /\
   exists d, run_operand (Env ls pc false) OCbuf (St c t op) = Err d).
Proof. exact cbuf_accepts. Qed.
Print Assumptions c17_accepts.

(** C18: memory operands. *)
Theorem c18_memory : forall a code ls k i gi gn kf op pre imm ad size shr, assembled a code ls k i gi gn kf op ->
  has i pre (OMemAddress imm ad size shr) ->
  exists ka kr ki n reused o kb, found ls k i gi gn kf pre ka (TLbrack :: kr ++ ki ++ [TRbrack]) kb /\
    base_tokens kr n reused /\ offset_tokens imm n size ki o /\ (n <= 255)%N /\
    field (value op) 8 8 = n /\
    (imm = true -> field (value op) ad size = Z.to_N ((o / 2 ^ Z.of_N shr) mod 2 ^ Z.of_N size)) /\
    (imm = true -> shr = 0%N ->
       (if N.eqb n 255 then Z.of_N (field (value op) ad size) else sint size (field (value op) ad size)) = o) /\
    (N.testbit (reuse op) 0 = reused).
Proof. exact memory_field. Qed.
Print Assumptions c18_memory.
Example c18_memory_ex : exists ls i gi gn kf op pre, assembled true samples ls 19 i gi gn kf op /\ has i pre (OMemAddress true 20 24 0).
Proof. apply sample_has. vm_compute. reflexivity. Qed.
Example c18_rz_ex : exists ls i gi gn kf op pre, assembled true samples ls 20 i gi gn kf op /\ has i pre (OMemAddress true 20 20 0).
Proof. apply sample_has. vm_compute. reflexivity. Qed.
Example c18_scaled_ex : exists ls i gi gn kf op pre, assembled true samples ls 21 i gi gn kf op /\ has i pre (OMemAddress true 30 22 2).
Proof. apply sample_has. vm_compute. reflexivity. Qed.
Theorem c18_ldc : forall a code ls k i gi gn kf op pre, assembled a code ls k i gi gn kf op ->
  has i pre OLdcAddress ->
  exists ka bank kr ki n reused o kb,
    found ls k i gi gn kf pre ka (id "c" :: TLbrack :: TImm bank :: TRbrack :: TLbrack :: kr ++ ki ++ [TRbrack]) kb /\
    base_tokens kr n reused /\ offset_tokens true n 16 ki o /\ (n <= 255)%N /\
    0 <= bank <= 31 /\ field (value op) 36 5 = Z.to_N bank /\
    field (value op) 8 8 = n /\
    (if N.eqb n 255 then Z.of_N (field (value op) 20 16) else sint 16 (field (value op) 20 16)) = o /\
    N.testbit (reuse op) 0 = reused.
Proof. exact ldc_field. Qed.
Print Assumptions c18_ldc.
Example c18_ldc_ex : exists ls i gi gn kf op pre, assembled true samples ls 4 i gi gn kf op /\ has i pre (OLdcAddress).
Proof. apply sample_has. vm_compute. reflexivity. Qed.
Theorem c18_attribute : forall a code ls k i gi gn kf op pre, assembled a code ls k i gi gn kf op ->
  has i pre OImmAttr ->
  exists ka z kb, found ls k i gi gn kf pre ka [id "a"; TLbrack; TImm z; TRbrack] kb /\
    0 <= z < 2 ^ 10 /\ field (value op) 20 10 = Z.to_N z /\ field (value op) 8 8 = 255%N.
Proof. exact imm_attr_field. Qed.
Print Assumptions c18_attribute.
Example c18_attribute_ex : exists ls i gi gn kf op pre, assembled true samples ls 13 i gi gn kf op /\ has i pre (OImmAttr).
Proof. apply sample_has. vm_compute. reflexivity. Qed.
Theorem c18_patch : forall a code ls k i gi gn kf op pre, assembled a code ls k i gi gn kf op ->
  has i pre OPatchAttr ->
  exists ka n kr kp z kb, found ls k i gi gn kf pre ka (id "a" :: TLbrack :: TReg n :: kr ++ kp ++ [TImm z; TRbrack]) kb /\
    (kp = [] \/ kp = [TPlus]) /\ - 2 ^ 10 <= z < 2 ^ 10 /\
    field (value op) 8 8 = n /\ sint 11 (field (value op) 20 11) = z /\
    ((kr = [] /\ N.testbit (reuse op) 0 = false) \/ (kr = [id ".reuse"] /\ N.testbit (reuse op) 0 = true)).
Proof. exact patch_attr_field. Qed.
Print Assumptions c18_patch.
Example c18_patch_ex : exists ls i gi gn kf op pre, assembled true samples ls 14 i gi gn kf op /\ has i pre (OPatchAttr).
Proof. apply sample_has. vm_compute. reflexivity. Qed.
Theorem c18_physical : forall a code ls k i gi gn kf op pre, assembled a code ls k i gi gn kf op ->
  has i pre OPhysAttr ->
  exists ka n kr kb, found ls k i gi gn kf pre ka (id "a" :: TLbrack :: TReg n :: kr ++ [TRbrack]) kb /\
    field (value op) 8 8 = n /\
    ((kr = [] /\ N.testbit (reuse op) 0 = false) \/ (kr = [id ".reuse"] /\ N.testbit (reuse op) 0 = true)).
Proof. exact phys_attr_field. Qed.
Print Assumptions c18_physical.
Example c18_physical_ex : exists ls i gi gn kf op pre, assembled true samples ls 15 i gi gn kf op /\ has i pre (OPhysAttr).
Proof. apply sample_has. vm_compute. reflexivity. Qed.
(** Unaligned offsets of ATOMS lose their low bits. *)
Theorem c18_unaligned : exists code code' w, code = lit "ATOMS.ADD.U32 R0, [R1+0x7], R2;" /\
  code' = lit "ATOMS.ADD.U32 R0, [R1+0x4], R2;" /\ assemble true code = Ok w /\ assemble true code' = Ok w.
Proof. do 3 eexists. split; [reflexivity|]. split; [reflexivity|]. split; vm_compute; reflexivity. Qed.
Print Assumptions c18_unaligned.

(** C20: single precision immediates. *)
Theorem c20_truncated : forall a code ls k i gi gn kf op pre, assembled a code ls k i gi gn kf op ->
  has i pre (OFimm 20) ->
  exists ka k1 kb f, found ls k i gi gn kf pre ka k1 kb /\ single k1 f /\ (f < 2 ^ 32)%N /\
    (field (value op) 56 1 * 2 ^ 31 + field (value op) 20 19 * 2 ^ 12 = f - f mod 2 ^ 12)%N.
Proof. exact single20_field. Qed.
Print Assumptions c20_truncated.
Example c20_truncated_ex : exists ls i gi gn kf op pre, assembled true samples ls 5 i gi gn kf op /\ has i pre (OFimm 20).
Proof. apply sample_has. vm_compute. reflexivity. Qed.
Theorem c20_full : forall a code ls k i gi gn kf op pre, assembled a code ls k i gi gn kf op ->
  has i pre (OFimm 32) ->
  exists ka k1 kb f, found ls k i gi gn kf pre ka k1 kb /\ single k1 f /\ field (value op) 20 32 = f.
Proof. exact single32_field. Qed.
Print Assumptions c20_full.
Example c20_full_ex : exists ls i gi gn kf op pre, assembled true samples ls 6 i gi gn kf op /\ has i pre (OFimm 32).
Proof. apply sample_has. vm_compute. reflexivity. Qed.

(** C21: double precision immediates. *)
Theorem c21_double : forall a code ls k i gi gn kf op pre, assembled a code ls k i gi gn kf op ->
  has i pre ODimm ->
  exists ka k1 kb mag neg, found ls k i gi gn kf pre ka k1 kb /\ double k1 mag neg /\ (mag < 2 ^ 63)%N /\
    field (value op) 56 1 = (if neg then 1 else 0)%N /\ field (value op) 20 19 = (mag / 2 ^ 44)%N.
Proof. exact double_field. Qed.
Print Assumptions c21_double.
Example c21_double_ex : exists ls i gi gn kf op pre, assembled true samples ls 7 i gi gn kf op /\ has i pre (ODimm).
Proof. apply sample_has. vm_compute. reflexivity. Qed.

(** C23: half precision immediates. *)
Theorem c23_half : forall a code ls k i gi gn kf op pre n ad nb, assembled a code ls k i gi gn kf op ->
  has i pre (OHalf n ad nb) ->
  exists ka k1 kb h neg special, found ls k i gi gn kf pre ka k1 kb /\ half k1 h neg special /\ (h < 2 ^ 16)%N /\
    match nb with
    | None => n = 16%N /\ (ad = 20%N \/ ad = 36%N) /\
        field (value op) ad 16 = (if special && neg then h + 0x8000 else h)%N
    | Some s => n = 9%N /\ (ad = 20%N /\ s = 29%N \/ ad = 30%N /\ s = 56%N) /\
        field (value op) ad 9 = (h mod 2 ^ 15 / 2 ^ 6)%N /\ field (value op) s 1 = (if neg then 1 else 0)%N
    end.
Proof. exact half_field. Qed.
Print Assumptions c23_half.
Example c23_half_ex : exists ls i gi gn kf op pre, assembled true samples ls 8 i gi gn kf op /\ has i pre (OHalf 9 30 (Some 56%N)).
Proof. apply sample_has. vm_compute. reflexivity. Qed.
Example c23_half_16_ex : exists ls i gi gn kf op pre, assembled true samples ls 9 i gi gn kf op /\ has i pre (OHalf 16 36 None).
Proof. apply sample_has. vm_compute. reflexivity. Qed.

(** C26, C27: registers, predicates and reuse flags. *)
Theorem c27_register_partial : forall a code ls k i gi gn kf op pre ad, assembled a code ls k i gi gn kf op ->
  has i pre (OGpr ad) -> ~ (In OUimmExtended (i_operands i) /\ ad = 39%N) ->
  exists ka n kr kb, found ls k i gi gn kf pre ka (TReg n :: kr) kb /\ (n <= 255)%N /\ field (value op) ad 8 = n /\
    ((kr = [] /\ hd TSemi kb <> id ".reuse" /\
      forall s, reuse_slot ad = Some s -> N.testbit (reuse op) s = false) \/
     (kr = [id ".reuse"] /\ exists s, reuse_slot ad = Some s /\ N.testbit (reuse op) s = true)).
Proof. exact gpr_field. Qed.
Print Assumptions c27_register_partial.
(** C57: the same statement, which is exact. *)
Theorem c57_register : forall a code ls k i gi gn kf op pre ad, assembled a code ls k i gi gn kf op ->
  has i pre (OGpr ad) -> ~ (In OUimmExtended (i_operands i) /\ ad = 39%N) ->
  exists ka n kr kb, found ls k i gi gn kf pre ka (TReg n :: kr) kb /\ (n <= 255)%N /\ field (value op) ad 8 = n /\
    ((kr = [] /\ hd TSemi kb <> id ".reuse" /\
      forall s, reuse_slot ad = Some s -> N.testbit (reuse op) s = false) \/
     (kr = [id ".reuse"] /\ exists s, reuse_slot ad = Some s /\ N.testbit (reuse op) s = true)).
Proof. exact gpr_field. Qed.
Print Assumptions c57_register.
Example c27_register_ex : exists ls i gi gn kf op pre, assembled true samples ls 1 i gi gn kf op /\ has i pre (OGpr 8).
Proof. apply sample_has. vm_compute. reflexivity. Qed.
(** The exception: the register after the immediate of C16. *)
Theorem c27_refuted : exists code w, code = lit "IADD3 R0, R1, 0x100000, R2;" /\
  assemble true code = Ok w /\ field (nth 1 w 0%N) 39 8 = 3%N.
Proof. do 2 eexists. split; [reflexivity|]. split; vm_compute; reflexivity. Qed.
Print Assumptions c27_refuted.
Theorem c27_iadd3 : forall a code ls k i gi gn kf op, assembled a code ls k i gi gn kf op ->
  In OUimmExtended (i_operands i) ->
  exists ka z km n kr kb,
    found ls k i gi gn kf iadd3_before ka [TImm z] (km ++ (TReg n :: kr) ++ kb) /\
    found ls k i gi gn kf (iadd3_before ++ op_uimm_extended :: [op_post_neg 50; op_comma; op_neg 49]) (ka ++ [TImm z] ++ km) (TReg n :: kr) kb /\
    0 <= z <= 2 ^ 20 /\ (n <= 255)%N /\
    ((kr = [] /\ N.testbit (reuse op) 2 = false) \/ (kr = [id ".reuse"] /\ N.testbit (reuse op) 2 = true)) /\
    (z < 2 ^ 20 -> field (value op) 39 8 = n) /\ (z = 2 ^ 20 -> field (value op) 39 8 = N.lor n 1).
Proof. exact iadd3_register. Qed.
Print Assumptions c27_iadd3.
Example c27_iadd3_ex : exists ls i gi gn kf op pre, assembled true samples ls 2 i gi gn kf op /\ has i pre (OUimmExtended).
Proof. apply sample_has. vm_compute. reflexivity. Qed.
Theorem c27_rejects : forall e ad s, (forall n, s_kind s <> TReg n) -> exists d, run_operand e (OGpr ad) s = Err d.
Proof. exact gpr_rejects. Qed.
Print Assumptions c27_rejects.
Theorem c27_accepts : forall ls pc ad c t op n t1 c1, kind t = TReg n -> tokenize c = Ok (t1, c1) -> kind t1 <> id ".reuse" ->
  exists op', run_operand (Env ls pc false) (OGpr ad) (St c t op) = Ok (St c1 t1 op').
Proof. exact gpr_accepts. Qed.
Print Assumptions c27_accepts.
Theorem c26_reuse_rejected : forall e ad c t w n t1 c1, kind t = TReg n -> tokenize c = Ok (t1, c1) ->
  kind t1 = id ".reuse" -> ad <> 8%N -> ad <> 20%N -> ad <> 39%N ->
  (exists d, run_operand e (OGpr ad) (St c t w) = Err d) \/
  (exists x, e_asserts e = true /\ run_operand e (OGpr ad) (St c t w) = Abort x).
Proof. exact gpr_reuse_rejects. Qed.
Print Assumptions c26_reuse_rejected.
Theorem c27_predicate : forall a code ls k i gi gn kf op pre ad negable, assembled a code ls k i gi gn kf op ->
  has i pre (OPred ad negable) ->
  exists ka n neg kb, found ls k i gi gn kf pre ka [TPred n neg] kb /\ (n <= 7)%N /\ field (value op) ad 3 = n /\
    (if negable then field (value op) (ad + 3) 1 = (if neg then 1 else 0)%N else neg = false).
Proof. exact pred_field. Qed.
Print Assumptions c27_predicate.
Example c27_predicate_ex : exists ls i gi gn kf op pre, assembled true samples ls 12 i gi gn kf op /\ has i pre (OPred 12 true).
Proof. apply sample_has. vm_compute. reflexivity. Qed.
Theorem c27_inverted : forall a code ls k i gi gn kf op pre ad, assembled a code ls k i gi gn kf op ->
  has i pre (OInvPred ad) ->
  exists ka n kb, found ls k i gi gn kf pre ka [TPred n false] kb /\ (n <= 7)%N /\ field (value op) ad 3 = (7 - n)%N.
Proof. exact inverted_pred_field. Qed.
Print Assumptions c27_inverted.
Example c27_inverted_ex : exists ls i gi gn kf op pre, assembled true samples ls 20 i gi gn kf op /\ has i pre (OInvPred 41).
Proof. apply sample_has. vm_compute. reflexivity. Qed.
Theorem c27_predicate_rejects : forall e ad negable s, (forall n neg, s_kind s = TPred n neg -> False) ->
  exists d, run_operand e (OPred ad negable) s = Err d.
Proof. exact pred_rejects. Qed.
Print Assumptions c27_predicate_rejects.

(** C47: mirrored registers. *)
Theorem c47_mirror : forall a code ls k i gi gn kf op pre ad, assembled a code ls k i gi gn kf op ->
  has i pre (OMirrorGpr ad) ->
  ad = 0%N /\
  exists ka kb, found ls k i gi gn kf pre ka [TReg (field (value op) 0 8)] kb /\
  exists pre' ka' kr kb', has i pre' (OGpr 0) /\ found ls k i gi gn kf pre' ka' (TReg (field (value op) 0 8) :: kr) kb'.
Proof. exact mirror_field. Qed.
Print Assumptions c47_mirror.
Example c47_mirror_ex : exists ls i gi gn kf op pre, assembled true samples ls 6 i gi gn kf op /\ has i pre (OMirrorGpr 0).
Proof. apply sample_has. vm_compute. reflexivity. Qed.

(** C48: texture modes. *)
Theorem c48_texs : forall a code ls k i gi gn kf op, assembled a code ls k i gi gn kf op -> i_mnemonic i = "TEXS" ->
  exists k0 km k1 s kb lod dc c,
    found ls k i gi gn kf [op_sample_size 59] k0 km (k1 ++ id s :: kb) /\ texs_modifiers km lod dc /\
    found ls k i gi gn kf ([op_sample_size 59; op_texs_mode 53] ++ texs_before) (k0 ++ km ++ k1) [id s] kb /\
    In (s, lod, dc, c) texs_codes /\ field (value op) 53 4 = c.
Proof. exact texs_field. Qed.
Print Assumptions c48_texs.
Example c48_texs_ex : exists ls i gi gn kf op pre, assembled true samples ls 10 i gi gn kf op /\ has i pre (OTexsType 53).
Proof. apply sample_has. vm_compute. reflexivity. Qed.
Theorem c48_texs_distinct : forall km lod dc km' lod' dc' s s' c, texs_modifiers km lod dc -> texs_modifiers km' lod' dc' ->
  In (s, lod, dc, c) texs_codes -> In (s', lod', dc', c) texs_codes -> km = km' /\ s = s'.
Proof. exact texs_distinct. Qed.
Print Assumptions c48_texs_distinct.
Theorem c48_tlds : forall a code ls k i gi gn kf op, assembled a code ls k i gi gn kf op -> i_mnemonic i = "TLDS" ->
  exists k0 km k1 s kb ll aoffi ms c,
    found ls k i gi gn kf [op_sample_size 59] k0 km (k1 ++ id s :: kb) /\ tlds_modifiers km ll aoffi ms /\
    found ls k i gi gn kf ([op_sample_size 59; op_tld_lod 53; op_aoffi 54; op_ms 55] ++ texs_before) (k0 ++ km ++ k1) [id s] kb /\
    In (s, ll, aoffi, ms, c) tlds_codes /\ field (value op) 53 4 = c.
Proof. exact tlds_field. Qed.
Print Assumptions c48_tlds.
Example c48_tlds_ex : exists ls i gi gn kf op pre, assembled true samples ls 11 i gi gn kf op /\ has i pre (OTldsType 53).
Proof. apply sample_has. vm_compute. reflexivity. Qed.
