(** * Bits: masks, shifts and disjoint unions of machine words. *)
From Coq Require Import NArith ZArith Lia Bool.
From Verif Require Import Base Spec.
Open Scope N_scope.

Lemma lor_add : forall a b, N.land a b = 0 -> N.lor a b = a + b.
Proof.
  intros a b H. rewrite <- N.lxor_lor by exact H. symmetry. apply N.add_nocarry_lxor. exact H.
Qed.

(** [a < 2^n] and [b] a multiple of [2^n] share no bit. *)
Lemma land_low_shift : forall a b n, a < 2 ^ n -> N.land a (N.shiftl b n) = 0.
Proof.
  intros a b n H. apply N.bits_inj. intros k. rewrite N.land_spec, N.bits_0.
  destruct (N.ltb_spec k n) as [L|L].
  - rewrite N.shiftl_spec_low by lia. apply andb_false_r.
  - rewrite <- (N.mod_small a (2 ^ n)) by exact H. rewrite N.mod_pow2_bits_high by lia. reflexivity.
Qed.
Lemma lor_shift_add : forall a b n, a < 2 ^ n -> N.lor a (N.shiftl b n) = a + b * 2 ^ n.
Proof.
  intros a b n H. rewrite lor_add by (apply land_low_shift; exact H).
  rewrite N.shiftl_mul_pow2. reflexivity.
Qed.

Lemma shl64_small : forall x s, x * 2 ^ s < two64 -> shl64 x s = x * 2 ^ s.
Proof. intros x s H. unfold shl64. rewrite N.shiftl_mul_pow2. apply N.mod_small. exact H. Qed.
Lemma shl64_bound : forall x s n, x < 2 ^ n -> n + s <= 64 -> shl64 x s = x * 2 ^ s /\ x * 2 ^ s < two64.
Proof.
  intros x s n H L.
  assert (B : x * 2 ^ s < two64).
  { change two64 with (2 ^ 64). apply N.lt_le_trans with (2 ^ n * 2 ^ s).
    - apply N.mul_lt_mono_pos_r; [|exact H]. apply N.neq_0_lt_0. apply N.pow_nonzero. lia.
    - rewrite <- N.pow_add_r. apply N.pow_le_mono_r; lia. }
  split; [apply shl64_small; exact B|exact B].
Qed.

Lemma field_spec : forall w a n k, N.testbit (field w a n) k = (k <? n) && N.testbit w (k + a).
Proof.
  intros w a n k. unfold field. rewrite N.land_spec, N.shiftr_spec by lia.
  destruct (N.ltb_spec k n).
  - rewrite N.ones_spec_low by lia. rewrite andb_true_r. reflexivity.
  - rewrite N.ones_spec_high by lia. apply andb_false_r.
Qed.
Lemma field_arith : forall w a n, field w a n = (w / 2 ^ a) mod 2 ^ n.
Proof. intros w a n. unfold field. rewrite N.land_ones, N.shiftr_div_pow2. reflexivity. Qed.
Lemma field_bound : forall w a n, field w a n < 2 ^ n.
Proof. intros w a n. rewrite field_arith. apply N.mod_lt. apply N.pow_nonzero. lia. Qed.

(** Reading a field back from a sum [low + x * 2^a + high * 2^(a+n)]. *)
Lemma field_read : forall low x high a n, low < 2 ^ a -> x < 2 ^ n ->
  field (low + x * 2 ^ a + high * 2 ^ (a + n)) a n = x.
Proof.
  intros low x high a n HL HX. rewrite field_arith.
  replace (low + x * 2 ^ a + high * 2 ^ (a + n)) with (low + (x + high * 2 ^ n) * 2 ^ a)
    by (rewrite N.pow_add_r; lia).
  rewrite N.div_add by (apply N.pow_nonzero; lia). rewrite N.div_small by exact HL. rewrite N.add_0_l.
  rewrite N.mod_add by (apply N.pow_nonzero; lia). apply N.mod_small. exact HX.
Qed.
