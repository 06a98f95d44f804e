(** * Runs: symbolic execution of the functions of operand.h

    The tactic [runs] proves that a function, run from its text by [Exec], does the same as an operand of the model for
    every state: it follows both sides in step and splits on what they ask of the token, the word and the environment. *)
From Coq Require Import Lia ZifyBool ZifyN.
From Verif Require Footprint.
From Verif Require Import Base Float Lexer LexFacts Operand Operands Reach Outcomes Cxx Exec Functions.
Local Open Scope string_scope.
Local Open Scope list_scope.
Open Scope Z_scope.

(** ** The model's functions have no errors *)

Lemma tokenize_clean : forall c d, tokenize c <> Err d.
Proof. intros c d E. pose proof (tokenize_outcomes c) as H. rewrite E in H. exact H. Qed.

(** ** Symbolic execution *)

Ltac lit z :=
  lazymatch z with
  | Z0 => idtac | Zpos ?p => lit p | Zneg ?p => lit p | N0 => idtac | Npos ?p => lit p
  | xH => idtac | xO ?p => lit p | xI ?p => lit p
  | true => idtac | false => idtac
  end.
Ltac closed x := tryif (match x with context [?v] => is_var v end) then fail else idtac.
Ltac known x := closed x; let v := eval vm_compute in x in lit v; change x with v.

Ltac run_text x :=
  cbv -[lift equal find_in_table find_label advance_tok put add_reuse s_tok s_cur s_op s_kind kind value reuse sched
        ttype_eqb type_of type_name token_view string_is_active immediate regster predicate float_immediate
        wrap over bad_shift z_of n_of z_bit z_neg z_mask z_add z_sub z_rem z_and z_or z_eq z_lt z_shl z_shr z_not
        z_nonzero fp32_to_fp16 f32_ne f32_of_Z f64_of_Z f64_of_f32 f64_lt0 f32_lt0 f32_inf f32_qnan f64_inf f64_qnan
        f32_sign N.lxor z_length lit negb e_pc e_labels e_asserts diag_at] in x.

Ltac open_model_in y :=
  cbv beta iota zeta delta [run_operand run_comma assemble_flag assemble_uint assemble_int dot_table req_table req_text
    req_text_after opt_text run_uimm_extended run_label assemble_gpr run_mirror_dgpr assemble_constant_buffer
    assemble_signed_20bit_immediate assemble_float_immediate assemble_double_immediate assemble_half_float_immediate
    run_pred run_inverted_pred opt_type run_abs run_po run_memory_address assemble_cc_tests run_imm_attr run_patch_attr
    run_phys_attr run_xmad_signs run_f2f_rounding run_int_format run_ldc_address run_s2r run_ldg_size run_selector
    run_atomic_size run_src_format run_tex_type run_zero run_texs_mode run_tlds_type run_texs_type run_texs_swizzle
    confirm_type confirm_type_next convert_integer try_reuse s_kind plain expected_message range_message
    label_message test_message system_message size_view int_view value_or bold ESC append sub64 fail set_value assoc_text texs_swizzle_one texs_swizzle_two LOD_LZ LOD_LL LOD_NONE integer_message] in y.


Lemma put_cases : forall e x s (P : res st -> Prop),
  (forall w, P (Abort w)) -> (forall s', s_tok s' = s_tok s -> P (Ok s')) -> P (put e x s).
Proof. intros e x s P A B. unfold put, add_bits. destruct (_ && _); cbn; [apply A|apply B; reflexivity]. Qed.

Lemma put_0 : forall e s, put e 0 s = Ok s.
Proof.
  intros e [c t [v r d]]. unfold put, add_bits. cbn [s_op s_cur s_tok value reuse sched].
  rewrite N.land_0_r, N.lor_0_r. cbn. rewrite Bool.andb_false_r. reflexivity.
Qed.

Lemma reuse_cases : forall a op x (P : res opcode -> Prop),
  (forall w, P (Abort w)) -> (forall o, P (Ok o)) -> P (add_reuse a op x).
Proof. intros a op x P A B. unfold add_reuse. destruct (_ && _); [apply A|apply B]. Qed.

Lemma advance_cases : forall s (P : res st -> Prop),
  (forall d, P (Fatal d)) -> (forall w, P (Abort w)) -> (forall u, P (Undef u)) -> P OutOfFuel ->
  (forall s', kind_ok (kind (s_tok s')) -> s_op s' = s_op s -> P (Ok s')) -> P (advance_tok s).
Proof.
  intros s P A B C D H. unfold advance_tok. pose proof (tokenize_clean (s_cur s)) as K.
  destruct (tokenize (s_cur s)) as [(t, c)|d|d|w|u|] eqn:E; cbn; auto.
  - apply H; [eapply token_ok; exact E|reflexivity].
  - exfalso. eapply K. reflexivity.
Qed.

Lemma find_cases : forall b l p t (P : res (option N) -> Prop),
  (forall u, P (Undef u)) -> P (Ok None) -> (forall i, P (Ok (Some i))) -> P (find_in_table b l p t).
Proof.
  intros b l p t P A B C. unfold find_in_table. destruct (kind t); auto. destruct (strip_prefix _ _); auto.
  destruct (index_of _ _ _); auto. destruct b; auto.
Qed.

(** The innermost thing a term waits for. *)
Ltac waits x :=
  lazymatch x with
  | match ?y with _ => _ end => waits y
  | bind ?y _ => waits y
  | lift ?y _ => waits y
  | negb ?y => waits y
  | andb ?y _ => waits y
  | orb ?y _ => waits y
  | _ => x
  end.

(** ** Numbers *)

Lemma u64_mod : forall z, u64_of_Z (z mod 2 ^ 64) = u64_of_Z z.
Proof. intros z. unfold u64_of_Z. change (Z.of_N two64) with (2 ^ 64). now rewrite Z.mod_mod. Qed.

Lemma n_shl : forall z a, n_of (z_shl TU64 z (Z.of_N a)) = shl64 (u64_of_Z z) a.
Proof.
  intros z a. unfold n_of, z_shl, wrap, shl64, u64_of_Z. cbv [is_signed width]. apply N2Z.inj.
  rewrite N2Z.inj_mod, N.shiftl_mul_pow2, N2Z.inj_mul, N2Z.inj_pow. change (Z.of_N two64) with (2 ^ 64).
  rewrite !Z2N.id by (apply Z.mod_pos_bound; lia). rewrite Z.mul_mod_idemp_l by lia. reflexivity.
Qed.
Lemma n_shl_pos : forall z a, n_of (z_shl TU64 z (Zpos a)) = shl64 (u64_of_Z z) (Npos a).
Proof. intros z a. exact (n_shl z (Npos a)). Qed.
Lemma n_shl_0 : forall z, n_of (z_shl TU64 z 0) = shl64 (u64_of_Z z) 0.
Proof. intros z. exact (n_shl z 0). Qed.

Lemma u64_wrap : forall z, u64_of_Z (wrap TU64 z) = u64_of_Z z.
Proof. intros z. exact (u64_mod z). Qed.
Lemma shl_u64 : forall n a, shl64 (u64_of_Z (z_of n)) a = shl64 n a.
Proof.
  intros n a. rewrite <- n_shl. unfold n_of, z_shl, wrap, shl64, z_of. cbv [is_signed width]. apply N2Z.inj.
  rewrite N2Z.inj_mod, N.shiftl_mul_pow2, N2Z.inj_mul, N2Z.inj_pow. change (Z.of_N two64) with (2 ^ 64).
  rewrite !Z2N.id by (apply Z.mod_pos_bound; lia). reflexivity.
Qed.
Lemma n_wrap : forall z, n_of (wrap TU64 z) = u64_of_Z z.
Proof. reflexivity. Qed.

Lemma wrap_reg : forall x, kind_ok (TReg x) -> wrap TI32 (z_of x) = z_of x.
Proof.
  intros x H. cbn in H. unfold wrap, z_of. cbv [is_signed width]. rewrite Z.mod_small by lia.
  change (2 ^ (32 - 1)) with 2147483648. cbv zeta. destruct (Z.ltb_spec (Z.of_N x) 2147483648); [reflexivity|lia].
Qed.
Lemma z_nonzero_bit : forall b, z_nonzero (z_bit b) = b.
Proof. intros []; reflexivity. Qed.
Lemma n_length : forall l, n_of (z_length l) = N.of_nat (List.length l).
Proof. intros l. unfold n_of, z_length. lia. Qed.

Lemma u64_bit : forall b, u64_of_Z (z_bit b) = if b then 1%N else 0%N.
Proof. intros []; reflexivity. Qed.

Lemma z_shr_of : forall n a, z_shr (z_of n) (Zpos a) = z_of (N.shiftr n (Npos a)).
Proof.
  intros n a. unfold z_shr, z_of. rewrite N.shiftr_div_pow2, N2Z.inj_div, N2Z.inj_pow. reflexivity.
Qed.
Lemma z_shr_0 : forall x, z_shr x 0 = x.
Proof. intros x. unfold z_shr. change (2 ^ 0) with 1. apply Z.div_1_r. Qed.
Lemma z_and_of : forall n m, z_and (z_of n) (Zpos m) = z_of (N.land n (Npos m)).
Proof. intros n m. unfold z_and, z_of. change (Zpos m) with (Z.of_N (Npos m)). destruct n; reflexivity. Qed.
Lemma n_of_of : forall n, n_of (z_of n) = n.
Proof. exact N2Z.id. Qed.
Lemma z_eq_of : forall a b, z_eq (z_of a) (z_of b) = N.eqb a b.
Proof. intros a b. unfold z_eq, z_of. lia. Qed.
Lemma z_eq_pos : forall a b, z_eq (z_of a) (Zpos b) = N.eqb a (Npos b).
Proof. intros a b. exact (z_eq_of a (Npos b)). Qed.
Lemma z_eq_0 : forall a, z_eq (z_of a) 0 = N.eqb a 0.
Proof. intros a. exact (z_eq_of a 0). Qed.
Lemma z_nonzero_of : forall a, z_nonzero (z_of a) = negb (N.eqb a 0).
Proof. intros a. unfold z_nonzero, z_of. lia. Qed.

Lemma z_shl_of : forall n a, z_shl TU64 (z_of n) (Zpos a) = z_of (shl64 n (Npos a)).
Proof.
  intros n a. unfold z_shl, z_of, wrap, shl64. cbv [is_signed width].
  rewrite N2Z.inj_mod, N.shiftl_mul_pow2, N2Z.inj_mul, N2Z.inj_pow. reflexivity.
Qed.
Lemma z_shl_32_of : forall n a, z_shl TU32 (z_of n) (Zpos a) = z_of (N.shiftl n (Npos a) mod two32).
Proof.
  intros n a. unfold z_shl, z_of, wrap. cbv [is_signed width].
  rewrite N2Z.inj_mod, N.shiftl_mul_pow2, N2Z.inj_mul, N2Z.inj_pow. reflexivity.
Qed.
Lemma wrap_32_eq : forall z, exists k, wrap TI32 z = z + k * 4294967296.
Proof.
  intros z. unfold wrap. cbv [is_signed width]. change (2 ^ 32) with 4294967296. cbv zeta.
  pose proof (Z.div_mod z 4294967296 ltac:(lia)) as D.
  destruct (_ <? _); [exists (- (z / 4294967296))|exists (- (z / 4294967296) - 1)]; lia.
Qed.
Lemma wrap_32_in : forall z, -2147483648 <= z <= 2147483647 -> wrap TI32 z = z.
Proof.
  intros z B. unfold wrap. cbv [is_signed width]. change (2 ^ 32) with 4294967296.
  change (2 ^ (32 - 1)) with 2147483648. cbv zeta.
  destruct (Z.ltb_spec (z mod 4294967296) 2147483648); Z.div_mod_to_equations; lia.
Qed.
Lemma half_shl : forall n,
  wrap TI32 (wrap TU16 (z_shl TI32 (wrap TI32 (z_of n)) 1)) = z_of (u16 (N.shiftl n 1)).
Proof.
  intros n. unfold z_shl, z_of, u16.
  rewrite N2Z.inj_mod, N.shiftl_mul_pow2, N2Z.inj_mul, N2Z.inj_pow.
  change (Z.of_N 2) with 2. change (Z.of_N 1) with 1. change (2 ^ 1) with 2.
  destruct (wrap_32_eq (Z.of_N n)) as (k & K). rewrite K.
  destruct (wrap_32_eq ((Z.of_N n + k * 4294967296) * 2)) as (j & J). rewrite J.
  assert (M : forall x, wrap TU16 x = x mod 65536) by reflexivity. rewrite M.
  match goal with |- context [?a mod 65536] => pose proof (Z.mod_pos_bound a 65536 eq_refl) end.
  rewrite wrap_32_in by lia.
  replace ((Z.of_N n + k * 4294967296) * 2 + j * 4294967296) with (Z.of_N n * 2 + (k * 131072 + j * 65536) * 65536) by ring.
  rewrite Z.mod_add by lia. reflexivity.
Qed.
Lemma wrap_land : forall n m, (m < 2147483648)%N -> wrap TI32 (z_of (N.land n m)) = z_of (N.land n m).
Proof.
  intros n m H. apply wrap_32_in. unfold z_of.
  assert (B : (N.land n m <= m)%N).
  { assert (D : N.ldiff (N.land n m) m = 0%N).
    { apply N.bits_inj. intros i. rewrite N.ldiff_spec, N.land_spec, N.bits_0.
      destruct (N.testbit n i), (N.testbit m i); reflexivity. }
    apply N.ldiff_le in D. exact D. }
  lia.
Qed.
Lemma land_1 : forall v a, (N.land (N.shiftr v a) 1 =? 0)%N = negb (N.testbit v a).
Proof.
  intros v a. change 1%N with (N.ones 1). rewrite N.land_ones.
  change (2 ^ 1)%N with 2%N. rewrite <- N.bit0_mod, N.shiftr_spec' , N.add_0_l.
  destruct (N.testbit v a); reflexivity.
Qed.
Lemma wrap_is : forall z, wrap TU64 z = z_of (u64_of_Z z).
Proof.
  intros z. unfold wrap, z_of, u64_of_Z. cbv [is_signed width]. change (Z.of_N two64) with (2 ^ 64).
  rewrite Z2N.id; [reflexivity| ]. apply Z.mod_pos_bound. lia.
Qed.
Lemma u64_sub : forall z c, (Npos c <=? u64_of_Z z)%N = true ->
  u64_of_Z (z_sub (wrap TU64 z) (Zpos c)) = (u64_of_Z z - Npos c)%N.
Proof.
  intros z c H. rewrite wrap_is. unfold z_sub, z_of.
  assert (B : (u64_of_Z z < two64)%N).
  { unfold u64_of_Z. change (Z.of_N two64) with 18446744073709551616. change two64 with 18446744073709551616%N.
    pose proof (Z.mod_pos_bound z 18446744073709551616 eq_refl). lia. }
  remember (u64_of_Z z) as n. clear Heqn. unfold u64_of_Z. change (Z.of_N two64) with 18446744073709551616.
  change two64 with 18446744073709551616%N in B. rewrite Z.mod_small by lia. lia.
Qed.
Lemma wrap_16 : forall z, (z <? -32768) = false -> (32767 <? z) = false ->
  wrap TI32 (wrap TI16 (wrap TU64 z)) = z.
Proof.
  intros z A B. rewrite wrap_32_in; unfold wrap; cbv [is_signed width];
    change (2 ^ 64) with 18446744073709551616; change (2 ^ 16) with 65536; change (2 ^ (16 - 1)) with 32768; cbv zeta;
    destruct (Z.ltb_spec (z mod 18446744073709551616 mod 65536) 32768); Z.div_mod_to_equations; lia.
Qed.

Lemma wrap_u16 : forall z, wrap TI32 (wrap TU16 z) = z_of (Z.to_N (z mod 65536)).
Proof.
  intros z. assert (M : forall x, wrap TU16 x = x mod 65536) by reflexivity. rewrite M.
  pose proof (Z.mod_pos_bound z 65536 eq_refl). rewrite wrap_32_in by lia. unfold z_of. lia.
Qed.

Lemma ldiff_land : forall v k, (v < two64)%N -> (k < two64)%N -> N.ldiff v k = N.land v (two64 - 1 - k).
Proof.
  intros v k V K. apply N.bits_inj. intros i. rewrite N.ldiff_spec, N.land_spec.
  destruct (N.ltb_spec i 64) as [I|I].
  - f_equal. replace (two64 - 1 - k)%N with (N.lxor (N.ones 64) k).
    + rewrite N.lxor_spec, N.ones_spec_low by exact I. destruct (N.testbit k i); reflexivity.
    + assert (S : N.lxor (N.ones 64) k = N.ldiff (N.ones 64) k).
      { apply N.bits_inj. intros j. rewrite N.lxor_spec, N.ldiff_spec. destruct (N.ltb_spec j 64) as [J|J].
        - rewrite N.ones_spec_low by exact J. destruct (N.testbit k j); reflexivity.
        - rewrite N.ones_spec_high by exact J. rewrite Footprint.bits_small with (n := 64%N); [reflexivity|exact K|exact J]. }
      rewrite S. change (two64 - 1)%N with (N.ones 64). rewrite (N.sub_nocarry_ldiff (N.ones 64) k); [reflexivity| ].
      apply N.bits_inj. intros j. rewrite N.ldiff_spec, N.bits_0. destruct (N.ltb_spec j 64) as [J|J].
      * rewrite N.ones_spec_low by exact J. apply Bool.andb_false_r.
      * rewrite Footprint.bits_small with (n := 64%N); [reflexivity|exact K|exact J].
  - rewrite Footprint.bits_small with (n := 64%N); [reflexivity|exact V|exact I].
Qed.

Lemma s64_u64 : forall z, kind_ok (TImm z) -> s64_of_N (u64_of_Z z) = z.
Proof.
  intros z (A & B). cbv [INT64_MIN INT64_MAX] in A, B. unfold s64_of_N, u64_of_Z.
  change (N.div two64 2) with 9223372036854775808%N. change (Z.of_N two64) with 18446744073709551616.
  pose proof (Z.mod_pos_bound z 18446744073709551616 eq_refl) as M.
  rewrite Z2N.id by lia. destruct (N.ltb_spec (Z.to_N (z mod 18446744073709551616)) 9223372036854775808);
    Z.div_mod_to_equations; lia.
Qed.
Lemma wrap_u64 : forall z, kind_ok (TImm z) -> wrap TI64 (wrap TU64 z) = z.
Proof.
  intros z (A & B). cbv [INT64_MIN INT64_MAX] in A, B. unfold wrap. cbv [is_signed width].
  change (2 ^ 64) with 18446744073709551616. change (2 ^ (64 - 1)) with 9223372036854775808.
  rewrite Z.mod_mod by discriminate. cbv zeta.
  destruct (Z.ltb_spec (z mod 18446744073709551616) 9223372036854775808); Z.div_mod_to_equations; lia.
Qed.

Lemma u64_shl_64 : forall z a, u64_of_Z (z_shl TI64 z (Z.of_N a)) = shl64 (u64_of_Z z) a.
Proof.
  intros z a. rewrite <- n_shl. unfold z_shl, wrap, n_of, u64_of_Z. cbv [is_signed width].
  change (Z.of_N two64) with (2 ^ 64). cbv zeta. f_equal.
  destruct (_ <? _); [apply Z.mod_mod; lia| ].
  rewrite Zminus_mod, Z_mod_same_full, Z.sub_0_r, !Z.mod_mod by lia. reflexivity.
Qed.
Lemma u64_shl_64_pos : forall z a, u64_of_Z (z_shl TI64 z (Zpos a)) = shl64 (u64_of_Z z) (Npos a).
Proof. intros z a. exact (u64_shl_64 z (Npos a)). Qed.
Lemma u64_shl_64_0 : forall z, u64_of_Z (z_shl TI64 z 0) = shl64 (u64_of_Z z) 0.
Proof. intros z. exact (u64_shl_64 z 0). Qed.
Lemma u64_wrap_64 : forall z, u64_of_Z (wrap TI64 z) = u64_of_Z z.
Proof.
  intros z. unfold wrap, u64_of_Z. cbv [is_signed width].
  change (Z.of_N two64) with (2 ^ 64). cbv zeta. f_equal.
  destruct (_ <? _); [apply Z.mod_mod; lia| ].
  rewrite Zminus_mod, Z_mod_same_full, Z.sub_0_r, !Z.mod_mod by lia. reflexivity.
Qed.

Lemma u64_shr : forall z a, u64_of_Z (z_shr (wrap TU64 z) (Z.of_N a)) = N.shiftr (u64_of_Z z) a.
Proof.
  intros z a. unfold z_shr, wrap, u64_of_Z. cbv [is_signed width]. change (Z.of_N two64) with (2 ^ 64).
  pose proof (Z.mod_pos_bound z (2 ^ 64) eq_refl) as M. apply N2Z.inj.
  rewrite N.shiftr_div_pow2, N2Z.inj_div, N2Z.inj_pow. change (Z.of_N 2) with 2.
  assert (P : 0 < 2 ^ Z.of_N a) by (apply Z.pow_pos_nonneg; lia).
  assert (D : 0 <= z mod 2 ^ 64 / 2 ^ Z.of_N a < 2 ^ 64).
  { split; [apply Z.div_pos; lia| ]. apply Z.div_lt_upper_bound; [lia| ]. nia. }
  rewrite (Z.mod_small _ _ D), !Z2N.id by lia. reflexivity.
Qed.
Lemma u64_shr_pos : forall z a, u64_of_Z (z_shr (wrap TU64 z) (Zpos a)) = N.shiftr (u64_of_Z z) (Npos a).
Proof. intros z a. exact (u64_shr z (Npos a)). Qed.
Lemma u64_shr_0 : forall z, u64_of_Z (z_shr (wrap TU64 z) 0) = N.shiftr (u64_of_Z z) 0.
Proof. intros z. exact (u64_shr z 0). Qed.

Lemma u64_testbit : forall z i, N.testbit (u64_of_Z z) i = (i <? 64)%N && Z.testbit z (Z.of_N i).
Proof.
  intros z i. unfold u64_of_Z. change (Z.of_N two64) with (2 ^ 64).
  pose proof (Z.mod_pos_bound z (2 ^ 64) eq_refl) as M.
  rewrite <- (N2Z.id i) at 1. rewrite <- Z2N.inj_testbit by lia. rewrite Z2N.id by lia.
  destruct (N.ltb_spec i 64) as [I|I].
  - rewrite Z.mod_pow2_bits_low by lia. reflexivity.
  - rewrite Z.mod_pow2_bits_high by lia. reflexivity.
Qed.
Lemma u64_and : forall a b, u64_of_Z (z_and a b) = N.land (u64_of_Z a) (u64_of_Z b).
Proof.
  intros a b. apply N.bits_inj. intros i. unfold z_and. rewrite N.land_spec, !u64_testbit, Z.land_spec.
  destruct (i <? 64)%N; reflexivity.
Qed.
Lemma u64_or : forall a b, u64_of_Z (z_or a b) = N.lor (u64_of_Z a) (u64_of_Z b).
Proof.
  intros a b. apply N.bits_inj. intros i. unfold z_or. rewrite N.lor_spec, !u64_testbit, Z.lor_spec.
  destruct (i <? 64)%N; reflexivity.
Qed.

Lemma over_64 : forall z, over TI64 z = (z <? -9223372036854775808) || (9223372036854775807 <? z).
Proof. reflexivity. Qed.
Lemma over_32 : forall z, over TI32 z = (z <? -2147483648) || (2147483647 <? z).
Proof. reflexivity. Qed.

Ltac known_in x H := closed x; let v := eval vm_compute in x in lit v; change x with v in H.
Ltac ground_in H := repeat match type of H with
  | context [wrap ?t ?z] => known_in (wrap t z) H
  | context [over ?t ?z] => known_in (over t z) H
  | context [z_sub ?a ?b] => known_in (z_sub a b) H
  | context [z_add ?a ?b] => known_in (z_add a b) H
  | context [z_shl ?t ?a ?b] => known_in (z_shl t a b) H
  | context [z_neg ?a] => known_in (z_neg a) H
  | context [z_mask ?a] => known_in (z_mask a) H
  end; rewrite ?over_64, ?over_32, ?z_nonzero_bit, ?wrap_is, ?z_shr_of, ?z_and_of, ?z_eq_0, ?z_eq_pos, ?z_eq_of in H; cbv [z_eq z_lt z_nonzero z_bit z_of z_sub z_add z_neg z_rem] in H.

Ltac closed_parts := repeat match goal with
  | |- context [wrap ?t ?z] => known (wrap t z)
  | |- context [z_sub ?a ?b] => known (z_sub a b)
  | |- context [z_add ?a ?b] => known (z_add a b)
  | |- context [z_shl ?t ?a ?b] => known (z_shl t a b)
  | |- context [z_neg ?a] => known (z_neg a)
  | |- context [z_mask ?a] => known (z_mask a)
  | |- context [z_not ?t ?a] => known (z_not t a)
  | |- context [u64_of_Z ?a] => known (u64_of_Z a)
  | |- context [n_of ?a] => known (n_of a)
  | |- context [(?a + ?b)%N] => known (a + b)%N
  end.
Ltac model_parts := cbv [INT64_MIN INT64_MAX ZERO_REGISTER]; repeat match goal with
  | |- context [max_bits ?n] => known (max_bits n)
  | |- context [Z.of_N ?n] => known (Z.of_N n)
  | |- context [N.shiftl ?a ?n] => known (N.shiftl a n)
  | |- context [shl64 ?a ?n] => known (shl64 a n)
  | |- context [?a ^ ?b] => known (a ^ b)
  | |- context [- ?a] => known (- a)
  | |- context [?a - ?b] => known (a - b)
  | |- context [(?a - ?b)%N] => known (a - b)%N
  | |- context [N.land ?a ?b] => known (N.land a b)
  | |- context [(?a + ?b)%N] => known (a + b)%N
  | |- context [N.lor ?a ?b] => known (N.lor a b)
  | |- context [N.eqb ?a ?b] => known (N.eqb a b)
  end.
Ltac numbers := closed_parts; repeat first
  [rewrite n_shl_pos|rewrite n_shl_0|rewrite half_shl|rewrite wrap_u16|rewrite z_shl_of|rewrite z_shl_32_of|rewrite z_shr_of
  |match goal with H : (Npos ?c <=? u64_of_Z ?z)%N = true |- _ => rewrite (u64_sub z c H) end|rewrite u64_wrap|rewrite shl_u64|rewrite n_wrap|rewrite u64_bit
  |rewrite u64_shl_64_pos|rewrite u64_shl_64_0|rewrite u64_wrap_64|rewrite u64_shr_pos|rewrite u64_shr_0|rewrite u64_and|rewrite u64_or]; closed_parts; cbv [z_sub z_add z_of].

(** The function named by the use [fst p] does what the operand [snd p] of the model does. *)
Definition operand_runs (p : targ * opnd) : Prop :=
  forall e s, kind_ok (kind (s_tok s)) -> (value (s_op s) < two64)%N ->
  run_ref functions enumerators e (fst p) s = run_operand e (snd p) s.


Ltac tidy := cbn beta iota delta [lift bind negb andb orb s_tok s_cur s_op value reuse sched].

Ltac start := unfold operand_runs; cbn [fst snd]; intros e s TOK VAL;
  cbn [run_operand];
  match goal with |- ?l = ?r =>
    let x := fresh "x" in let y := fresh "y" in
    set (x := l); set (y := r); run_text x; open_model_in y; subst x y end;
  repeat match goal with
  | |- context [bad_shift ?t ?a] => known (bad_shift t a)
  | |- context [z_eq ?a ?b] => known (z_eq a b)
  end; tidy;
  closed_parts; model_parts;
  try match goal with |- context [z_of (value _)] =>
  rewrite ?z_shr_of, ?z_shr_0, ?z_and_of, ?n_of_of;
  repeat match goal with |- context [wrap TI32 (z_of (N.land ?n ?m))] => rewrite (wrap_land n m eq_refl) end;
  rewrite ?z_eq_of, ?z_eq_pos, ?z_eq_0, ?z_nonzero_of, ?land_1;
  unfold andnot;
  repeat match goal with |- context [N.ldiff ?v ?k] => rewrite (ldiff_land v k VAL eq_refl) end;
  model_parts end; tidy.

Ltac split_kind t :=
  lazymatch goal with
  | K : kind t = _ |- _ => rewrite !K
  | _ => let K := fresh "K" in destruct (kind t) eqn:K
  end;
  cbn [type_of] in *;
  cbv [immediate regster predicate float_immediate string_is_active] in *; cbn [ttype_eqb token_view] in *;
  try discriminate.

(** The form of a token of a known type. *)
Definition shape (ty : ttype) (k : tkind) : Prop :=
  match ty with
  | ty_none => k = TNone | ty_ident => exists x, k = TIdent x | ty_reg => exists r, k = TReg r
  | ty_pred => exists i n, k = TPred i n | ty_imm => exists z, k = TImm z | ty_float => exists f, k = TFloat f
  | ty_plus => k = TPlus | ty_minus => k = TMinus | ty_tilde => k = TTilde | ty_vbar => k = TVbar
  | ty_lbrack => k = TLbrack | ty_rbrack => k = TRbrack | ty_at => k = TAt | ty_semi => k = TSemi
  | ty_comma => k = TComma
  end.
Lemma shape_ok : forall k ty, ttype_eqb (type_of k) ty = true -> shape ty k.
Proof.
  intros k ty H. destruct k, ty; try discriminate H; cbn; try reflexivity; try (eexists; reflexivity).
  do 2 eexists. reflexivity.
Qed.

Ltac use_kind t K :=
  try match goal with H : kind_ok (kind t) |- _ => rewrite K in H end; rewrite ?K;
  cbn [type_of ttype_eqb]; cbv [immediate regster predicate float_immediate string_is_active];
  cbn [type_of ttype_eqb token_view].
Ltac split_type t ty :=
  lazymatch goal with
  | K : kind t = _ |- _ => use_kind t K
  | T : ttype_eqb (type_of (kind t)) ty = false |- _ => rewrite !T
  | _ =>
    let T := fresh "T" in
    destruct (ttype_eqb (type_of (kind t)) ty) eqn:T;
    [apply shape_ok in T; cbn [shape] in T;
     first [destruct T as (? & ? & T)|destruct T as (? & T)|idtac]; use_kind t T
    |idtac]
  end.
(** The match a term waits for. *)
Ltac match_of x :=
  lazymatch x with
  | match ?y with _ => _ end => lazymatch y with kind _ => x | _ => match_of y end
  | bind ?y _ => match_of y
  | lift ?y _ => match_of y
  | negb ?y => match_of y
  | andb ?y _ => match_of y
  | orb ?y _ => match_of y
  end.
Ltac other_kind m t :=
  match goal with
  | T : ttype_eqb (type_of (kind t)) ?ty = false |- _ =>
    let k := lazymatch ty with ty_semi => TComma | _ => TSemi end in
    let f := eval pattern (kind t) in m in
    lazymatch f with
    | ?g _ =>
      let v := eval cbv beta iota in (g k) in
      replace m with v by (clear - T; destruct (kind t); try discriminate T; reflexivity)
    end
  end.

Ltac same := match goal with |- ?a = ?b => constr_eq a b; reflexivity end.
Ltac arith := first [same | numbers; first [same | match goal with |- ?a = ?b => known a; known b; reflexivity end]].

(** Split a condition of the text, with a readable equation for it. *)
Ltac split_bool y :=
  let c := fresh "c" in let E := fresh "E" in
  remember y as c eqn:E; ground_in E; symmetry in E;
  first [match type of E with ?z = c => match goal with H : z = ?v |- _ => lit v; rewrite H in E end end; subst c
        |destruct c;
         [try match type of E with
          | (Z.of_N ?i =? ?c) = true => is_var i; let v := eval vm_compute in (Z.to_N c) in
              assert (i = v) by lia; subst i
          | (?i =? ?c)%N = true => is_var i; assert (i = c) by lia; subst i
          | (?i =? ?c) = true => is_var i; assert (i = c) by lia; subst i
          end| ]].
(** Decide a condition of the model from what is known. *)
Ltac decide_bool z :=
  first [match z with context [if ?b then _ else _] => decide_bool b end
        |match z with context [Z.of_N (max_bits ?n)] => known (Z.of_N (max_bits n)) end
        |known z
        |match goal with H : z = _ |- _ => rewrite H end
        |let H := fresh "D" in assert (H : z = true) by lia; rewrite H
        |let H := fresh "D" in assert (H : z = false) by lia; rewrite H
        |let E := fresh "E" in destruct z eqn:E].

(** What a token is known to be. *)
Ltac bounds := repeat match goal with
  | H : kind_ok (TImm ?z) |- _ =>
      lazymatch goal with
      | _ : -9223372036854775808 <= z <= 9223372036854775807 |- _ => fail
      | _ => assert (-9223372036854775808 <= z <= 9223372036854775807) by exact H
      end
  | H : kind_ok (TPred ?i ?b) |- _ =>
      lazymatch goal with
      | _ : (i <= 7)%N |- _ => fail
      | _ => assert (i <= 7)%N by (cbn in H; lia)
      end
  end.
Ltac back := repeat match goal with
  | A : (?z <? -32768) = false, B : (32767 <? ?z) = false |- context [wrap TI32 (wrap TI16 (wrap TU64 ?z))] =>
      rewrite (wrap_16 z A B)
  | P : s_tok ?a = s_tok _ |- context [s_tok ?a] => rewrite P
  | H : kind_ok (TReg ?x) |- context [wrap TI32 (z_of ?x)] => rewrite (wrap_reg x H)
  | H : kind_ok (TImm ?z) |- context [s64_of_N (u64_of_Z ?z)] => rewrite (s64_u64 z H)
  | H : kind_ok (TImm ?z) |- context [wrap TI64 (wrap TU64 ?z)] => rewrite (wrap_u64 z H)
  end.
Ltac within y := let H := fresh "O" in
  assert (H : y = false) by (closed_parts; cbv [z_sub z_add z_neg z_of z_rem]; rewrite ?over_64, ?over_32; bounds;
    Z.to_euclidean_division_equations; lia);
  rewrite H; clear H.

Ltac step :=
  match goal with
  | |- ?l = ?r =>
    let z := waits r in
    lazymatch z with
    | put _ ?x _ =>
        first [match x with context [if ?b then _ else _] => decide_bool b end
              |tryif lit x then fail else known x]
    end
  | |- ?l = ?r =>
    let y := waits l in let z := waits r in
    lazymatch z with
    | put ?e 0 ?s => lazymatch y with put _ _ _ => fail | _ => rewrite (put_0 e s) end
    end
  | |- ?l = ?r =>
    let y := waits l in
    lazymatch y with
    | put ?e ?x ?s =>
        let z := waits r in lazymatch z with put _ _ _ => fail | _ => replace x with 0%N by arith; rewrite (put_0 e s) end
    end
  | |- ?l = ?r =>
    let y := waits l in
    lazymatch y with
    | put ?e ?x ?s =>
        (let z := waits r in lazymatch z with put e ?x' s => replace x with x' by arith; pattern (put e x' s) end);
        let H := fresh "P" in
        apply put_cases; [intros ?; reflexivity|intros ? H; tidy; rewrite ?H]
    | advance_tok ?s => pattern (advance_tok s); apply advance_cases;
        [intros ?; reflexivity|intros ?; reflexivity|intros ?; reflexivity|reflexivity|intros ? ? ?]
    | add_reuse ?a ?op ?x =>
        (let z := waits r in lazymatch z with add_reuse a op ?x' => change x with x'; pattern (add_reuse a op x') end);
        apply reuse_cases; [intros ?; reflexivity|intros ?]
    | find_in_table ?b ?tb ?p ?t => pattern (find_in_table b tb p t); apply find_cases; [intros ?; reflexivity| |intros ?]
    | immediate (kind ?t) => split_kind t
    | regster (kind ?t) => split_kind t
    | predicate (kind ?t) => split_kind t
    | float_immediate (kind ?t) => split_kind t
    | string_is_active (kind ?t) => split_kind t
    | kind ?t => split_kind t
    | ttype_eqb (type_of (kind ?t)) ?ty => split_type t ty
    | bad_shift ?t ?z => known y
    | over ?t ?z => first [known y|within y|split_bool y]
    | Ok _ => fail
    | Err _ => fail
    | Undef _ => fail
    | Abort _ => fail
    | OutOfFuel => fail
    | _ =>
        first [known y
              |lazymatch type of y with
               | bool => split_bool y
               | _ => let E := fresh "E" in destruct y eqn:E
               end]
    end
  | |- ?l = ?r =>
    let z := waits r in
    lazymatch z with
    | kind ?t => first [let m := match_of r in other_kind m t|split_kind t]
    | ttype_eqb (type_of (kind ?t)) ?ty => split_type t ty
    | Ok _ => fail
    | Err _ => fail
    | Undef _ => fail
    | Abort _ => fail
    | put _ _ _ => fail
    | advance_tok _ => fail
    | add_reuse _ _ _ => fail
    | find_in_table _ _ _ _ => fail
    | _ =>
        lazymatch type of z with
        | bool => decide_bool z
        | N => destruct z; try (exfalso; lia)
        | Z => destruct z; try (exfalso; lia)
        | positive => destruct z; try (exfalso; lia)
        | _ => let E := fresh "E" in destruct z eqn:E
        end
    end
  | K : kind ?u = _ |- Err (diag_at ?t _) = Err (diag_at ?t ?m) =>
    match m with context [kind u] => use_kind u K end
  | |- Err (diag_at ?t _) = Err (diag_at ?t ?m) =>
    match m with context [if ?b then _ else _] => decide_bool b end
  | |- Err (diag_at ?t _) = Err (diag_at ?t ?m) =>
    match m with
    | match kind ?u with _ => _ end => first [other_kind m u|split_kind u]
    | context [match kind ?u with _ => _ end] => split_kind u
    end
  end; tidy; back.
Ltac finish := try match goal with
  | |- Ok _ = Ok _ => same
  | |- Err (diag_at _ (Message _ _)) = Err (diag_at _ (Message _ _)) => rewrite ?n_length; reflexivity
  | |- Undef _ = Undef _ => reflexivity
  | |- Abort _ = Abort _ => reflexivity
  | |- Fatal _ = Fatal _ => reflexivity
  | |- OutOfFuel = OutOfFuel => reflexivity
  | H : true = false |- _ => discriminate H
  | H : false = true |- _ => discriminate H
  | |- ?a = ?b => constr_eq a b; reflexivity
  end.
Ltac runs := start; repeat (finish; step); finish.
