(** * Properties6: floating-point literals and immediates. *)
From Verif Require Import Base Float Lexer Operand Catalogue Table Parse Assemble Spec SpecOperand SpecInsn SpecLex SpecFloat
  LexFacts Decode Program Operands Operands3 Recover Fields Lexemes Stream Text Round Half Floats Demo.
From Coq Require Import Lia.
Local Open Scope string_scope.
Local Open Scope list_scope.
Open Scope Z_scope.

(** C19: literals become the nearest binary32. *)
Theorem c19_token : forall g s neg v k q, gap g (s ++ q) -> fraction s neg v k -> ends q ->
  exists f, reads (g ++ s ++ q) (TFloat f) q /\ single_of neg v (10 ^ k) f.
Proof. exact float_value. Qed.
Print Assumptions c19_token.
Theorem c19_immediate : forall a code ls k i gi gn kf op pre, assembled a code ls k i gi gn kf op ->
  has i pre (OFimm 32) ->
  exists ka k1 kb, found ls k i gi gn kf pre ka k1 kb /\
    let f := field (value op) 20 32 in
    ((exists neg num den, number code k1 neg num den /\ single_of neg num den f) \/
     (exists neg, signed_name "QNAN" k1 neg /\ f = (flag_bit neg 31 + 0x7FC00000)%N) \/
     (exists neg, signed_name "INF" k1 neg /\ f = (flag_bit neg 31 + 0x7F800000)%N)).
Proof. exact single_exact_field. Qed.
Print Assumptions c19_immediate.
Theorem c19_overflow : forall neg num den f, 0 < den -> single_of neg num den f ->
  ((f mod 2 ^ 31 = 255 * 2 ^ 23)%N <-> (2 ^ 128 - 2 ^ 103) * den <= num).
Proof. exact single_overflow. Qed.
Print Assumptions c19_overflow.
Theorem c19_unique : forall neg num den f f', 0 < den -> single_of neg num den f -> single_of neg num den f' -> f = f'.
Proof. exact single_unique. Qed.
Print Assumptions c19_unique.
Example c19_token_ex : exists f, reads (lit "  -16777217.00;") (TFloat f) (lit ";") /\ single_of true 1677721700 (10 ^ 2) f.
Proof.
  apply (c19_token (lit "  ") (lit "-16777217.00") true 1677721700 2 (lit ";")).
  - apply gap_blank. repeat constructor; cbn; tauto.
  - exists (lit "-"), (lit "16777217"), (lit "00"). split; [reflexivity|]. split; [constructor|]. split; [discriminate|].
    split; [|reflexivity]. apply denotes_iff; [lia|]. split; vm_compute; reflexivity.
  - right. exists ";"%char, []. split; [reflexivity|]. cbn. tauto.
Qed.
Example c19_ties_ex : single_of false 16777217 1 0x4B800000 /\ single_of false 16777219 1 0x4B800002.
Proof. split; [exact (single_rounding false 16777217 1 ltac:(lia) ltac:(lia))|exact (single_rounding false 16777219 1 ltac:(lia) ltac:(lia))]. Qed.
Example c19_overflow_ex : single_of true (2 ^ 128 - 2 ^ 103) 1 0xFF800000 /\ single_of true (2 ^ 128 - 2 ^ 103 - 1) 1 0xFF7FFFFF.
Proof. split; [exact (single_rounding true (2 ^ 128 - 2 ^ 103) 1 ltac:(lia) ltac:(lia))|exact (single_rounding true (2 ^ 128 - 2 ^ 103 - 1) 1 ltac:(lia) ltac:(lia))]. Qed.
Example c19_immediate_ex : exists ls i gi gn kf op pre, assembled true samples ls 6 i gi gn kf op /\ has i pre (OFimm 32).
Proof. apply sample_has. vm_compute. reflexivity. Qed.

(** C20: 20-bit immediates are the top bits of that binary32. *)
Theorem c20_literal : forall a code ls k i gi gn kf op pre, assembled a code ls k i gi gn kf op ->
  has i pre (OFimm 20) ->
  exists ka k1 kb f, found ls k i gi gn kf pre ka k1 kb /\
    ((exists neg num den, number code k1 neg num den /\ single_of neg num den f) \/
     (exists neg, signed_name "QNAN" k1 neg /\ f = (flag_bit neg 31 + 0x7FC00000)%N) \/
     (exists neg, signed_name "INF" k1 neg /\ f = (flag_bit neg 31 + 0x7F800000)%N)) /\
    (field (value op) 56 1 * 2 ^ 31 + field (value op) 20 19 * 2 ^ 12 = f - f mod 2 ^ 12)%N.
Proof. exact single_top_field. Qed.
Print Assumptions c20_literal.
Example c20_literal_ex : exists ls i gi gn kf op pre, assembled true samples ls 5 i gi gn kf op /\ has i pre (OFimm 20).
Proof. apply sample_has. vm_compute. reflexivity. Qed.

(** C21: double immediates are the top bits of the binary64. *)
Theorem c21_literal : forall a code ls k i gi gn kf op pre, assembled a code ls k i gi gn kf op ->
  has i pre ODimm ->
  exists ka k1 kb d neg, found ls k i gi gn kf pre ka k1 kb /\
    ((exists f num den, k1 = [TFloat f] /\ number code k1 (N.testbit f 31) num den /\ single_of (N.testbit f 31) num den f /\ widened f d /\
        neg = N.testbit f 31 && negb (N.eqb (f mod 2 ^ 31) 0)) \/
     (exists z, k1 = [TImm z] /\ double_of (z <? 0) (Z.abs z) 1 d /\ neg = (z <? 0)) \/
     (signed_name "QNAN" k1 neg /\ d = 0x7FF8000000000000%N) \/
     (signed_name "INF" k1 neg /\ d = 0x7FF0000000000000%N)) /\
    field (value op) 56 1 = (if neg then 1 else 0)%N /\ field (value op) 20 19 = (d mod 2 ^ 63 / 2 ^ 44)%N.
Proof. exact double_exact_field. Qed.
Print Assumptions c21_literal.
Example c21_literal_ex : exists ls i gi gn kf op pre, assembled true samples ls 7 i gi gn kf op /\ has i pre (ODimm).
Proof. apply sample_has. vm_compute. reflexivity. Qed.

(** C22: conversion to binary16. *)
Theorem c22_rounding : forall x, (x < 2 ^ 32)%N -> (x mod 2 ^ 31 <= 255 * 2 ^ 23)%N ->
  half_of (N.testbit x 31) (scaled 24 (Z.of_N (x mod 2 ^ 31))) (2 ^ 149) (fp32_to_fp16 x).
Proof. exact half_rounding. Qed.
Print Assumptions c22_rounding.
Theorem c22_nan : forall x, (x < 2 ^ 32)%N -> (255 * 2 ^ 23 < x mod 2 ^ 31)%N ->
  (31 * 2 ^ 10 < fp32_to_fp16 x mod 2 ^ 15)%N /\ (fp32_to_fp16 x / 2 ^ 15 = x / 2 ^ 31)%N.
Proof. exact half_nan. Qed.
Print Assumptions c22_nan.
Theorem c22_overflow : forall neg num den h, 0 < den -> half_of neg num den h ->
  ((h mod 2 ^ 15 = 31 * 2 ^ 10)%N <-> 65520 * den <= num).
Proof. exact half_overflow. Qed.
Print Assumptions c22_overflow.
Example c22_rounding_ex : fp32_to_fp16 0xB8FFFFFF = 0x8800%N /\ half_of true (scaled 24 0x38FFFFFF) (2 ^ 149) 0x8800.
Proof. split; [vm_compute; reflexivity|]. exact (c22_rounding 0xB8FFFFFF eq_refl ltac:(discriminate)). Qed.
Example c22_overflow_ex : half_of false (scaled 24 0x477FF000) (2 ^ 149) 0x7C00 /\ half_of false (scaled 24 0x477FEFFF) (2 ^ 149) 0x7BFF.
Proof. split; [exact (c22_rounding 0x477FF000 eq_refl ltac:(discriminate))|exact (c22_rounding 0x477FEFFF eq_refl ltac:(discriminate))]. Qed.
Example c22_nan_ex : fp32_to_fp16 0xFF800001 = 0xFFFF%N.
Proof. vm_compute. reflexivity. Qed.

(** C23: half immediates are that binary16. *)
Theorem c23_literal : forall a code ls k i gi gn kf op pre n ad nb, assembled a code ls k i gi gn kf op ->
  has i pre (OHalf n ad nb) ->
  exists ka k1 kb h neg, found ls k i gi gn kf pre ka k1 kb /\
    ((exists f ng num den, number code k1 ng num den /\ single_of ng num den f /\ half_of ng (scaled 24 (Z.of_N (f mod 2 ^ 31))) (2 ^ 149) h /\
        neg = ng && negb (N.eqb (f mod 2 ^ 31) 0)) \/
     (signed_name "QNAN" k1 neg /\ h = (flag_bit neg 15 + 0x7FFF)%N) \/
     (signed_name "INF" k1 neg /\ h = (flag_bit neg 15 + 0x7C00)%N)) /\
    match nb with
    | None => n = 16%N /\ (ad = 20%N \/ ad = 36%N) /\ field (value op) ad 16 = h
    | Some s => n = 9%N /\ (ad = 20%N /\ s = 29%N \/ ad = 30%N /\ s = 56%N) /\
        field (value op) ad 9 = (h mod 2 ^ 15 / 2 ^ 6)%N /\ field (value op) s 1 = (if neg then 1 else 0)%N
    end.
Proof. exact half_exact_field. Qed.
Print Assumptions c23_literal.
Example c23_literal_ex : exists ls i gi gn kf op pre, assembled true samples ls 8 i gi gn kf op /\ has i pre (OHalf 9 30 (Some 56%N)).
Proof. apply sample_has. vm_compute. reflexivity. Qed.
Example c23_literal_16_ex : exists ls i gi gn kf op pre, assembled true samples ls 9 i gi gn kf op /\ has i pre (OHalf 16 36 None).
Proof. apply sample_has. vm_compute. reflexivity. Qed.

(** C24: half literals are not always rounded once. *)
Theorem c24_refuted : exists s v k ws, fraction s false v k /\
  assemble true (lit "HADD2_32I R0, R1, 0, " ++ s ++ lit ";") = Ok ws /\
  ~ half_of false v (10 ^ k) (field (nth 1 ws 0%N) 20 16).
Proof. exact half_not_once. Qed.
Print Assumptions c24_refuted.
Theorem c24_partial : forall a code ls k i gi gn kf op pre n ad nb, assembled a code ls k i gi gn kf op ->
  has i pre (OHalf n ad nb) ->
  exists ka k1 kb h neg, found ls k i gi gn kf pre ka k1 kb /\
    ((exists f ng num den, number code k1 ng num den /\ single_of ng num den f /\ neg = ng && negb (N.eqb (f mod 2 ^ 31) 0) /\
        (num * 2 ^ 149 = scaled 24 (Z.of_N (f mod 2 ^ 31)) * den \/
         (forall m, 0 <= m < inf16 -> 2 * scaled 24 (Z.of_N (f mod 2 ^ 31)) <> (scaled 11 m + scaled 11 (m + 1)) * 2 ^ 125) ->
         half_of ng num den h)) \/
     (signed_name "QNAN" k1 neg /\ h = (flag_bit neg 15 + 0x7FFF)%N) \/
     (signed_name "INF" k1 neg /\ h = (flag_bit neg 15 + 0x7C00)%N)) /\
    match nb with
    | None => n = 16%N /\ (ad = 20%N \/ ad = 36%N) /\ field (value op) ad 16 = h
    | Some s => n = 9%N /\ (ad = 20%N /\ s = 29%N \/ ad = 30%N /\ s = 56%N) /\
        field (value op) ad 9 = (h mod 2 ^ 15 / 2 ^ 6)%N /\ field (value op) s 1 = (if neg then 1 else 0)%N
    end.
Proof. exact half_literal. Qed.
Print Assumptions c24_partial.
(** C56: the same statement, which is exact. *)
Theorem c56_literal : forall a code ls k i gi gn kf op pre n ad nb, assembled a code ls k i gi gn kf op ->
  has i pre (OHalf n ad nb) ->
  exists ka k1 kb h neg, found ls k i gi gn kf pre ka k1 kb /\
    ((exists f ng num den, number code k1 ng num den /\ single_of ng num den f /\ neg = ng && negb (N.eqb (f mod 2 ^ 31) 0) /\
        (num * 2 ^ 149 = scaled 24 (Z.of_N (f mod 2 ^ 31)) * den \/
         (forall m, 0 <= m < inf16 -> 2 * scaled 24 (Z.of_N (f mod 2 ^ 31)) <> (scaled 11 m + scaled 11 (m + 1)) * 2 ^ 125) ->
         half_of ng num den h)) \/
     (signed_name "QNAN" k1 neg /\ h = (flag_bit neg 15 + 0x7FFF)%N) \/
     (signed_name "INF" k1 neg /\ h = (flag_bit neg 15 + 0x7C00)%N)) /\
    match nb with
    | None => n = 16%N /\ (ad = 20%N \/ ad = 36%N) /\ field (value op) ad 16 = h
    | Some s => n = 9%N /\ (ad = 20%N /\ s = 29%N \/ ad = 30%N /\ s = 56%N) /\
        field (value op) ad 9 = (h mod 2 ^ 15 / 2 ^ 6)%N /\ field (value op) s 1 = (if neg then 1 else 0)%N
    end.
Proof. exact half_literal. Qed.
Print Assumptions c56_literal.
Theorem c24_exact : forall neg num den f h, 0 < den -> single_of neg num den f -> half_of neg (scaled 24 (Z.of_N (f mod 2 ^ 31))) (2 ^ 149) h ->
  num * 2 ^ 149 = scaled 24 (Z.of_N (f mod 2 ^ 31)) * den -> half_of neg num den h.
Proof. exact half_once. Qed.
Print Assumptions c24_exact.
Theorem c24_twice : forall neg num den f h, 0 <= num -> 0 < den -> single_of neg num den f ->
  half_of neg (scaled 24 (Z.of_N (f mod 2 ^ 31))) (2 ^ 149) h ->
  (forall k, 0 <= k < inf16 -> 2 * scaled 24 (Z.of_N (f mod 2 ^ 31)) <> (scaled 11 k + scaled 11 (k + 1)) * 2 ^ 125) ->
  half_of neg num den h.
Proof. exact half_twice. Qed.
Print Assumptions c24_twice.
Theorem c24_small : forall z neg f, Z.abs z <= 2 ^ 24 -> single_of neg (Z.abs z) 1 f ->
  Z.abs z * 2 ^ 149 = scaled 24 (Z.of_N (f mod 2 ^ 31)) * 1.
Proof. exact small_integer_exact. Qed.
Print Assumptions c24_small.
Example c24_exact_ex : single_of true 15 1 0xC1700000 /\ 15 * 2 ^ 149 = scaled 24 0x41700000 * 1.
Proof. split; [exact (single_rounding true 15 1 ltac:(lia) ltac:(lia))|reflexivity]. Qed.
Example c24_twice_ex : forall k, 0 <= k < inf16 -> 2 * scaled 24 0x3F800001 <> (scaled 11 k + scaled 11 (k + 1)) * 2 ^ 125.
Proof.
  intros k K E. change (2 * scaled 24 0x3F800001) with (8388609 * 2 ^ 127) in E. change (2 ^ 127) with (4 * 2 ^ 125) in E.
  rewrite Z.mul_assoc in E. apply Z.mul_reg_r in E; [|discriminate]. change (8388609 * 4) with 33554436 in E.
  destruct (Z.le_gt_cases k 15359) as [L|L].
  - pose proof (scaled_le 11 ltac:(lia) k 15359 ltac:(lia)) as A. pose proof (scaled_le 11 ltac:(lia) (k + 1) 15360 ltac:(lia)) as B.
    change (scaled 11 15359) with 16769024 in A. change (scaled 11 15360) with 16777216 in B. lia.
  - pose proof (scaled_le 11 ltac:(lia) 15360 k ltac:(lia)) as A. pose proof (scaled_le 11 ltac:(lia) 15361 (k + 1) ltac:(lia)) as B.
    change (scaled 11 15360) with 16777216 in A. change (scaled 11 15361) with 16793600 in B. lia.
Qed.
Example c24_partial_ex : exists ls i gi gn kf op pre, assembled true samples ls 9 i gi gn kf op /\ has i pre (OHalf 16 36 None).
Proof. apply sample_has. vm_compute. reflexivity. Qed.
