(** * Half: the conversion of src/fp16.h rounds to nearest, ties to even,
    for every binary32 pattern; and the other conversions of Float.v. *)
From Coq Require Import ZArith NArith Lia Bool ZifyBool ZifyN.
From Verif Require Import Base Float SpecFloat Bits Round.
Open Scope N_scope.

(** ** The bit operations as arithmetic *)

Lemma land_ones_mod : forall a n, N.land a (N.ones n) = a mod 2 ^ n.
Proof. intros. apply N.land_ones. Qed.
Lemma shiftr_div : forall a n, N.shiftr a n = a / 2 ^ n.
Proof. intros. apply N.shiftr_div_pow2. Qed.
Lemma land_one : forall a, N.land a 1 = a mod 2.
Proof. intros a. change 1 with (N.ones 1). rewrite N.land_ones. reflexivity. Qed.

Section Pattern.
Variables s m : N.
Hypothesis S1 : s < 2.
Hypothesis M1 : m < 2 ^ 31.
Let x := s * 2 ^ 31 + m.

Lemma x_sign : N.land (N.shiftr x 16) 0x8000 = s * 2 ^ 15.
Proof.
  apply N.bits_inj. intros i. rewrite N.land_spec, N.shiftr_spec by lia.
  change 0x8000 with (2 ^ 15). rewrite N.pow2_bits_eqb. destruct (N.eqb_spec 15 i) as [<-|NE].
  - change (15 + 16) with 31. rewrite andb_true_r. rewrite N.mul_pow2_bits_high by lia. rewrite N.sub_diag. unfold x.
    rewrite N.add_comm. rewrite N.testbit_spec' || idtac.
    assert (C : s = 0 \/ s = 1) by lia. destruct C as [->| ->].
    + rewrite N.mul_0_l, N.add_0_r. apply N.bits_above_log2. destruct (N.eq_dec m 0) as [->|]; [reflexivity|]. apply N.log2_lt_pow2; lia.
    + rewrite N.mul_1_l. pose proof (N.testbit_true (m + 2 ^ 31) 31) as T. apply T.
      change (m + 2 ^ 31) with (m + 1 * 2 ^ 31). rewrite N.div_add by lia. rewrite N.div_small by lia. reflexivity.
  - rewrite andb_false_r. symmetry. destruct (N.lt_ge_cases i 15) as [L|L]; [apply N.mul_pow2_bits_low; lia|].
    rewrite N.mul_pow2_bits_high by lia. apply N.bits_above_log2. assert (C : s = 0 \/ s = 1) by lia. destruct C as [->| ->]; cbn; lia.
Qed.
Lemma x_bits : N.land x 0x7FFFFFFF = m.
Proof. change 0x7FFFFFFF with (N.ones 31). rewrite N.land_ones. unfold x. rewrite N.add_comm, N.mod_add by lia. apply N.mod_small, M1. Qed.
End Pattern.

(** The rounding step: [g] is the first dropped bit, [t] whether any other is set. *)
Lemma round_bit : forall s k g t, s < 2 -> k < 2 ^ 15 - 1 -> g < 2 -> t < 2 ->
  u16 (N.lor (s * 2 ^ 15) k + N.land g (N.lor t (N.lor (s * 2 ^ 15) k))) =
  s * 2 ^ 15 + (if (g =? 1) && ((t =? 1) || N.odd k) then k + 1 else k).
Proof.
  intros s k g t S K G T.
  assert (L : N.lor (s * 2 ^ 15) k = s * 2 ^ 15 + k).
  { rewrite N.lor_comm, <- N.shiftl_mul_pow2, lor_shift_add by lia. rewrite N.shiftl_mul_pow2. lia. }
  rewrite L.
  assert (LO : N.land g (N.lor t (s * 2 ^ 15 + k)) = if (g =? 1) && ((t =? 1) || N.odd k) then 1 else 0).
  { assert (OD : N.odd (s * 2 ^ 15 + k) = N.odd k).
    { rewrite N.odd_add, N.odd_mul. change (N.odd (2 ^ 15)) with false. rewrite andb_false_r, xorb_false_l. reflexivity. }
    assert (C : g = 0 \/ g = 1) by lia. destruct C as [-> | ->]; [reflexivity|]. cbn [N.eqb Pos.eqb andb].
    rewrite N.land_comm, land_one, <- N.bit0_mod, N.lor_spec, !N.bit0_odd, OD.
    assert (C : t = 0 \/ t = 1) by lia. destruct C as [-> | ->]; cbn; [|reflexivity]. destruct (N.odd k); reflexivity. }
  rewrite LO. unfold u16. rewrite N.mod_small.
  - destruct ((g =? 1) && ((t =? 1) || N.odd k)); lia.
  - destruct ((g =? 1) && ((t =? 1) || N.odd k)); assert (s * 2 ^ 15 <= 1 * 2 ^ 15) by (apply N.mul_le_mono_r; lia); lia.
Qed.

(** Dropping the low [n + 1] bits of [a] with the rounding bits of the source. *)
Definition rounds_up (a n : N) : bool :=
  let r := a mod 2 ^ (n + 1) in (2 ^ n <? r) || ((r =? 2 ^ n) && N.odd (a / 2 ^ (n + 1))).
Lemma round_bits : forall a n, let g := (a / 2 ^ n) mod 2 in let t := if a mod 2 ^ n =? 0 then 0 else 1 in
  forall k, N.odd k = N.odd (a / 2 ^ (n + 1)) -> (g =? 1) && ((t =? 1) || N.odd k) = rounds_up a n.
Proof.
  intros a n g t k K. unfold rounds_up. rewrite K.
  assert (D : a mod 2 ^ (n + 1) = a mod 2 ^ n + 2 ^ n * g).
  { unfold g. rewrite N.pow_add_r. change (2 ^ 1) with 2. apply N.mod_mul_r; [apply N.pow_nonzero; lia|lia]. }
  rewrite D. assert (P : 0 < 2 ^ n) by (apply N.neq_0_lt_0, N.pow_nonzero; lia).
  assert (B : a mod 2 ^ n < 2 ^ n) by (apply N.mod_lt; lia). assert (G : g < 2) by (apply N.mod_lt; lia). unfold t.
  assert (C : g = 0 \/ g = 1) by lia. clearbody g. destruct C as [-> | ->]; cbn [N.eqb Pos.eqb andb].
  - rewrite N.mul_0_r, N.add_0_r. symmetry. apply orb_false_iff. split; [apply N.ltb_ge; lia|]. apply andb_false_iff. left. apply N.eqb_neq. lia.
  - rewrite N.mul_1_r. destruct (N.eqb_spec (a mod 2 ^ n) 0) as [E|E]; cbn [N.eqb Pos.eqb orb].
    + rewrite E. rewrite N.add_0_l, N.ltb_irrefl, N.eqb_refl. reflexivity.
    + symmetry. apply orb_true_iff. left. apply N.ltb_lt. lia.
Qed.

(** [fp32_to_fp16] without bit operations. *)
Definition half_of_bits (m : N) : N :=
  let e := m / 2 ^ 23 in
  if e =? 255 then (if m mod 2 ^ 23 =? 0 then 0x7C00 else 0x7FFF)
  else if 142 <? e then 0x7C00
  else if 112 <? e then
    let k := m / 2 ^ 13 - 112 * 2 ^ 10 in if rounds_up m 12 then k + 1 else k
  else if 101 <? e then
    let a := m mod 2 ^ 23 + 2 ^ 23 in
    let k := a / 2 ^ (126 - e) in if rounds_up a (125 - e) then k + 1 else k
  else 0.

Lemma fp16_arith : forall s m, s < 2 -> m < 2 ^ 31 -> fp32_to_fp16 (s * 2 ^ 31 + m) = s * 2 ^ 15 + half_of_bits m.
Proof.
  intros s m S M. unfold fp32_to_fp16. rewrite x_sign, x_bits by assumption. unfold half_of_bits.
  rewrite shiftr_div. set (e := m / 2 ^ 23). cbv zeta.
  assert (E : e < 256) by (apply N.div_lt_upper_bound; [discriminate|]; exact M).
  assert (SB : s * 2 ^ 15 <= 1 * 2 ^ 15) by (apply N.mul_le_mono_r; lia).
  assert (LS : forall k, k < 2 ^ 15 -> N.lor (s * 2 ^ 15) k = s * 2 ^ 15 + k).
  { intros k K. rewrite N.lor_comm, <- N.shiftl_mul_pow2, lor_shift_add by lia. rewrite N.shiftl_mul_pow2. lia. }
  change 0x7FFFFF with (N.ones 23). rewrite N.land_ones.
  destruct (N.eqb_spec e 255) as [E1|E1].
  { rewrite <- N.lor_assoc. unfold u16. destruct (m mod 2 ^ 23 =? 0);
    match goal with |- context [N.lor 0x7C00 ?v] => let w := eval compute in (N.lor 0x7C00 v) in change (N.lor 0x7C00 v) with w end;
    rewrite LS by reflexivity; apply N.mod_small; lia. }
  destruct (N.ltb_spec 142 e) as [E2|E2].
  { rewrite LS by reflexivity. unfold u16. rewrite N.mod_small; lia. }
  destruct (N.ltb_spec 112 e) as [E3|E3].
  { (* normal *)
    change 0x3FF with (N.ones 10). change 0xFFF with (N.ones 12). rewrite !N.land_ones, !shiftr_div, land_one.
    assert (DM : m = 2 ^ 23 * e + m mod 2 ^ 23) by (apply N.div_mod; discriminate).
    assert (ML : m mod 2 ^ 23 < 2 ^ 23) by (apply N.mod_lt; discriminate).
    assert (KQ : m / 2 ^ 13 = e * 2 ^ 10 + (m / 2 ^ 13) mod 2 ^ 10).
    { pose proof (N.div_mod (m / 2 ^ 13) (2 ^ 10) ltac:(discriminate)) as Q. rewrite N.div_div in Q by discriminate.
      change (2 ^ 13 * 2 ^ 10) with (2 ^ 23) in Q. fold e in Q. lia. }
    assert (KL : (m / 2 ^ 13) mod 2 ^ 10 < 2 ^ 10) by (apply N.mod_lt; discriminate).
    assert (EK : N.lor (N.shiftl (e - 112) 10) ((m / 2 ^ 13) mod 2 ^ 10) = m / 2 ^ 13 - 112 * 2 ^ 10).
    { rewrite N.lor_comm, lor_shift_add by exact KL. set (f := (m / 2 ^ 13) mod 2 ^ 10) in *. rewrite KQ. lia. }
    rewrite EK. set (k := m / 2 ^ 13 - 112 * 2 ^ 10). assert (KB : k < 2 ^ 15 - 1) by (unfold k; lia).
    replace (u16 k) with k by (symmetry; apply N.mod_small; lia).
    rewrite round_bit; [|assumption|assumption|apply N.mod_lt; discriminate|destruct (m mod 2 ^ 12 =? 0); reflexivity].
    rewrite (round_bits m 12 k); [reflexivity|]. unfold k. change (12 + 1) with 13.
    rewrite N.odd_sub by lia. change (N.odd (112 * 2 ^ 10)) with false. apply xorb_false_r. }
  destruct (N.ltb_spec 101 e) as [E4|E4].
  { (* subnormal *)
    assert (ML : m mod 2 ^ 23 < 2 ^ 23) by (apply N.mod_lt; discriminate).
    assert (EA : N.lor (m mod 2 ^ 23) 0x800000 = m mod 2 ^ 23 + 2 ^ 23).
    { change 0x800000 with (N.shiftl 1 23). rewrite lor_shift_add by exact ML. reflexivity. }
    rewrite EA. set (a := m mod 2 ^ 23 + 2 ^ 23) in *. assert (AB : a < 2 ^ 24) by (unfold a; change (2 ^ 24) with (2 ^ 23 + 2 ^ 23); lia).
    replace (N.shiftl 1 (125 - e) - 1) with (N.ones (125 - e)) by (rewrite N.ones_equiv, N.shiftl_1_l, N.sub_1_r; reflexivity).
    rewrite !N.land_ones, !shiftr_div, land_one. replace (126 - e) with (125 - e + 1) by lia.
    set (i := 125 - e) in *. set (k := a / 2 ^ (i + 1)).
    assert (KB : k < 2 ^ 10 + 1).
    { unfold k. apply N.div_lt_upper_bound; [apply N.pow_nonzero; discriminate|].
      assert (2 ^ 14 <= 2 ^ (i + 1)) by (apply N.pow_le_mono_r; unfold i; lia). change (2 ^ 24) with (2 ^ 14 * 2 ^ 10) in AB. lia. }
    assert (KB' : k < 2 ^ 15 - 1) by (eapply N.lt_trans; [exact KB|reflexivity]).
    replace (u16 k) with k by (symmetry; apply N.mod_small; eapply N.lt_trans; [exact KB|reflexivity]).
    rewrite round_bit; [|assumption|assumption|apply N.mod_lt; discriminate|destruct (a mod 2 ^ i =? 0); reflexivity].
    rewrite (round_bits a i k); reflexivity. }
  rewrite N.land_0_l, !N.add_0_r. apply N.mod_small. lia.
Qed.

(** ** Rounding *)
Open Scope Z_scope.
Lemma rounds_up_Z : forall a n, let d := 2 ^ Z.of_N n in let r := Z.of_N a mod (2 * d) in
  rounds_up a n = (d <? r) || ((r =? d) && Z.odd (Z.of_N a / (2 * d))).
Proof.
  intros a n d r. unfold rounds_up.
  assert (D : Z.of_N (2 ^ n) = d) by (rewrite N2Z.inj_pow; reflexivity).
  assert (D2 : Z.of_N (2 ^ (n + 1)) = 2 * d) by (rewrite N.pow_add_r, N2Z.inj_mul, D; change (Z.of_N (2 ^ 1)) with 2; lia).
  assert (R : Z.of_N (a mod 2 ^ (n + 1)) = r) by (rewrite N2Z.inj_mod, D2; reflexivity).
  assert (O : N.odd (a / 2 ^ (n + 1)) = Z.odd (Z.of_N a / (2 * d))) by (rewrite <- D2, <- N2Z.inj_div; destruct (a / 2 ^ (n + 1))%N as [|[]]; reflexivity).
  rewrite O. f_equal; [|f_equal].
  - destruct (N.ltb_spec (2 ^ n) (a mod 2 ^ (n + 1))); symmetry; [apply Z.ltb_lt|apply Z.ltb_ge]; lia.
  - destruct (N.eqb_spec (a mod 2 ^ (n + 1)) (2 ^ n)); symmetry; [apply Z.eqb_eq|apply Z.eqb_neq]; lia.
Qed.

(** If [v = a * c] and the neighbours are [k * 2 d * c] and [(k + 1) * 2 d * c]. *)
Lemma nearest16_step : forall num a n k c, 0 < c -> 0 <= k < inf16 ->
  let d := 2 ^ Z.of_N n in let q := Z.of_N a / (2 * d) in
  num * 2 ^ 24 = Z.of_N a * c ->
  scaled 11 k * 2 ^ 149 = q * (2 * d) * c -> scaled 11 (k + 1) * 2 ^ 149 = (q + 1) * (2 * d) * c -> Z.odd k = Z.odd q ->
  nearest 11 (-24) inf16 num (2 ^ 149) (if rounds_up a n then k + 1 else k).
Proof.
  intros num a n k c C K d q V L U O.
  assert (DP : 0 < d) by (apply Z.pow_pos_nonneg; lia).
  rewrite rounds_up_Z. fold d. pose proof (Z.div_mod (Z.of_N a) (2 * d) ltac:(lia)) as DM. fold q in DM.
  pose proof (Z.mod_pos_bound (Z.of_N a) (2 * d) ltac:(lia)) as RB. set (r := Z.of_N a mod (2 * d)) in *.
  apply nearest_between; try lia; change (- -24) with 24; rewrite V, L, U.
  - rewrite DM. split; apply Z.mul_le_mono_nonneg_r; lia.
  - rewrite <- Z.negb_odd, O.
    assert (T1 : q * (2 * d) * c + (q + 1) * (2 * d) * c = (2 * (q * (2 * d)) + 2 * d) * c) by ring.
    assert (T2 : 2 * (Z.of_N a * c) = (2 * (q * (2 * d)) + 2 * r) * c) by (rewrite DM; ring). rewrite T1, T2.
    destruct (Z.ltb_spec d r) as [Y|Y]; cbn [orb]; [left; apply Z.mul_lt_mono_pos_r; lia|].
    destruct (Z.eqb_spec r d) as [Y'|Y']; cbn [andb].
    + fold q. destruct (Z.odd q); right; (split; [rewrite Y'; reflexivity|reflexivity]).
    + left. apply Z.mul_lt_mono_pos_r; lia.
Qed.

Lemma half_nearest : forall m, (m <= 255 * 2 ^ 23)%N ->
  nearest 11 (-24) inf16 (scaled 24 (Z.of_N m)) (2 ^ 149) (Z.of_N (half_of_bits m)).
Proof.
  intros m M. unfold half_of_bits. set (e := (m / 2 ^ 23)%N).
  assert (DM : m = (2 ^ 23 * e + m mod 2 ^ 23)%N) by (apply N.div_mod; discriminate).
  assert (ML : (m mod 2 ^ 23 < 2 ^ 23)%N) by (apply N.mod_lt; discriminate). set (f := (m mod 2 ^ 23)%N) in *.
  assert (TOP : forall x q, Z.of_N m = x * 2 ^ 23 + q -> 2 ^ 23 <= q < 2 * 2 ^ 23 -> 142 <= x ->
            nearest 11 (-24) inf16 (scaled 24 (Z.of_N m)) (2 ^ 149) (Z.of_N 0x7C00)).
  { intros x q -> Q X. replace (scaled 24 (x * 2 ^ 23 + q)) with (q * 2 ^ x) by (symmetry; apply (scaled_at 24); change (2 ^ (24 - 1)) with (2 ^ 23); lia).
    apply nearest_top; try reflexivity; try lia.
    change (- -24) with 24. change (scaled 11 inf16) with (2 ^ 40).
    assert (2 ^ 142 <= 2 ^ x) by (apply Z.pow_le_mono_r; lia).
    apply Z.le_trans with (2 ^ 23 * 2 ^ 142 * 2 ^ 24); [apply Z.leb_le; reflexivity|]. apply Z.mul_le_mono_nonneg_r; [lia|].
    apply Z.mul_le_mono_nonneg; lia. }
  destruct (N.eqb_spec e 255) as [E1|E1].
  { assert (F0 : f = 0%N) by lia. rewrite F0. cbn [N.eqb]. apply (TOP 254 (2 ^ 23)); lia. }
  destruct (N.ltb_spec 142 e) as [E2|E2].
  { apply (TOP (Z.of_N e - 1) (2 ^ 23 + Z.of_N f)); lia. }
  destruct (N.ltb_spec 112 e) as [E3|E3].
  { (* normal *)
    set (x := Z.of_N e - 113). assert (X : 0 <= x <= 29) by lia.
    assert (Q : Z.of_N m / 2 ^ 13 = (x + 113) * 2 ^ 10 + Z.of_N f / 2 ^ 13).
    { replace (Z.of_N m) with ((x + 113) * 2 ^ 10 * 2 ^ 13 + Z.of_N f) by lia. apply Z.div_add_l. lia. }
    assert (FB : 0 <= Z.of_N f / 2 ^ 13 < 2 ^ 10) by (split; [apply Z.div_pos; lia|apply Z.div_lt_upper_bound; lia]).
    set (h := Z.of_N f / 2 ^ 13) in *.
    assert (ZM : Z.of_N (m / 2 ^ 13) = Z.of_N m / 2 ^ 13) by (rewrite N2Z.inj_div; reflexivity).
    set (k := (m / 2 ^ 13 - 112 * 2 ^ 10)%N).
    assert (KZ : Z.of_N k = x * 2 ^ 10 + (2 ^ 10 + h)).
    { unfold k. rewrite N2Z.inj_sub by lia. rewrite ZM, Q. change (Z.of_N (112 * 2 ^ 10)) with (112 * 2 ^ 10). lia. }
    replace (Z.of_N (if rounds_up m 12 then (k + 1)%N else k)) with (if rounds_up m 12 then Z.of_N k + 1 else Z.of_N k)
      by (destruct (rounds_up m 12); lia).
    (* a = m: use the significand as a different numerator *)
    assert (RU : rounds_up m 12 = rounds_up (2 ^ 23 + f) 12).
    { unfold rounds_up. change (12 + 1)%N with 13%N.
      assert (A1 : (m mod 2 ^ 13 = (2 ^ 23 + f) mod 2 ^ 13)%N).
      { rewrite DM. replace (2 ^ 23 * e + f)%N with (f + e * 2 ^ 10 * 2 ^ 13)%N by lia. replace (2 ^ 23 + f)%N with (f + 2 ^ 10 * 2 ^ 13)%N by lia.
        rewrite !N.mod_add by discriminate. reflexivity. }
      assert (A2 : N.odd (m / 2 ^ 13) = N.odd ((2 ^ 23 + f) / 2 ^ 13)).
      { rewrite DM. replace (2 ^ 23 * e + f)%N with (f + e * 2 ^ 10 * 2 ^ 13)%N by lia. replace (2 ^ 23 + f)%N with (f + 2 ^ 10 * 2 ^ 13)%N by lia.
        rewrite !N.div_add by discriminate. rewrite !N.odd_add, N.odd_mul. change (N.odd (2 ^ 10)) with false. rewrite andb_false_r. reflexivity. }
      rewrite A1, A2. reflexivity. }
    rewrite RU.
    assert (MG : scaled 24 (Z.of_N m) = (2 ^ 23 + Z.of_N f) * 2 ^ (x + 112)).
    { replace (Z.of_N m) with ((x + 112) * 2 ^ 23 + (2 ^ 23 + Z.of_N f)) by lia. apply (scaled_at 24); change (2 ^ (24 - 1)) with (2 ^ 23); lia. }
    assert (QA : Z.of_N (2 ^ 23 + f) / (2 * 2 ^ Z.of_N 12) = 2 ^ 10 + h).
    { change (2 * 2 ^ Z.of_N 12) with (2 ^ 13). replace (Z.of_N (2 ^ 23 + f)) with (2 ^ 10 * 2 ^ 13 + Z.of_N f) by lia. apply Z.div_add_l. lia. }
    apply (nearest16_step _ _ _ _ (2 ^ (x + 136))).
    - apply Z.pow_pos_nonneg; lia.
    - rewrite KZ. change inf16 with (31 * 2 ^ 10). lia.
    - rewrite MG, N2Z.inj_add. change (Z.of_N (2 ^ 23)) with (2 ^ 23). rewrite <- Z.mul_assoc, <- Z.pow_add_r by lia. f_equal. f_equal. lia.
    - rewrite QA, KZ, (scaled_at 11) by (change (2 ^ (11 - 1)) with (2 ^ 10); lia).
      change (2 * 2 ^ Z.of_N 12) with (2 ^ 13). rewrite <- !Z.mul_assoc, <- !Z.pow_add_r by lia. f_equal. f_equal. lia.
    - rewrite QA, KZ, (scaled_next 11) by (change (2 ^ (11 - 1)) with (2 ^ 10); lia).
      change (2 * 2 ^ Z.of_N 12) with (2 ^ 13). rewrite <- !Z.mul_assoc, <- !Z.pow_add_r by lia. f_equal. f_equal. lia.
    - rewrite QA, KZ, (Z.odd_add (x * 2 ^ 10)), Z.odd_mul. change (Z.odd (2 ^ 10)) with false. rewrite andb_false_r. apply xorb_false_l. }
  destruct (N.ltb_spec 101 e) as [E4|E4].
  { (* subnormal *)
    set (a := (f + 2 ^ 23)%N). set (n := (125 - e)%N). replace (126 - e)%N with (n + 1)%N by lia.
    set (k := (a / 2 ^ (n + 1))%N).
    replace (Z.of_N (if rounds_up a n then (k + 1)%N else k)) with (if rounds_up a n then Z.of_N k + 1 else Z.of_N k)
      by (destruct (rounds_up a n); lia).
    assert (KQ : Z.of_N k = Z.of_N a / (2 * 2 ^ Z.of_N n)).
    { unfold k. rewrite N2Z.inj_div, N2Z.inj_pow, N2Z.inj_add. change (Z.of_N 2) with 2. change (Z.of_N 1) with 1. rewrite Z.pow_add_r by lia.
      f_equal. lia. }
    assert (KB : 0 <= Z.of_N k < 2 ^ 10).
    { split; [lia|]. rewrite KQ. apply Z.div_lt_upper_bound; [assert (0 < 2 ^ Z.of_N n) by (apply Z.pow_pos_nonneg; lia); lia|].
      assert (2 ^ 13 <= 2 ^ Z.of_N n) by (apply Z.pow_le_mono_r; lia). assert (Z.of_N a < 2 ^ 24) by lia. lia. }
    assert (MG : scaled 24 (Z.of_N m) = (2 ^ 23 + Z.of_N f) * 2 ^ (Z.of_N e - 1)).
    { replace (Z.of_N m) with ((Z.of_N e - 1) * 2 ^ 23 + (2 ^ 23 + Z.of_N f)) by lia. apply (scaled_at 24); change (2 ^ (24 - 1)) with (2 ^ 23); lia. }
    assert (PW : 2 * 2 ^ Z.of_N n * 2 ^ (Z.of_N e + 23) = 2 ^ 149).
    { change 2 with (2 ^ 1) at 1. rewrite <- !Z.pow_add_r by lia. f_equal. lia. }
    apply (nearest16_step _ _ _ _ (2 ^ (Z.of_N e + 23))).
    - apply Z.pow_pos_nonneg; lia.
    - change inf16 with (31 * 2 ^ 10). lia.
    - rewrite MG. unfold a. rewrite N2Z.inj_add. change (Z.of_N (2 ^ 23)) with (2 ^ 23). rewrite (Z.add_comm (Z.of_N f)). rewrite <- Z.mul_assoc, <- Z.pow_add_r by lia. f_equal. f_equal. lia.
    - rewrite <- KQ. replace (Z.of_N k) with (0 * 2 ^ (11 - 1) + Z.of_N k) at 1 by lia. rewrite (scaled_at 11) by (change (2 ^ (11 - 1)) with (2 ^ 10); lia).
      replace (Z.of_N k * (2 * 2 ^ Z.of_N n) * 2 ^ (Z.of_N e + 23)) with (Z.of_N k * (2 * 2 ^ Z.of_N n * 2 ^ (Z.of_N e + 23))) by ring. rewrite PW. change (2 ^ 0) with 1. lia.
    - rewrite <- KQ. replace (Z.of_N k + 1) with (0 * 2 ^ (11 - 1) + Z.of_N k + 1) at 1 by lia. rewrite (scaled_next 11) by (change (2 ^ (11 - 1)) with (2 ^ 10); lia).
      replace ((Z.of_N k + 1) * (2 * 2 ^ Z.of_N n) * 2 ^ (Z.of_N e + 23)) with ((Z.of_N k + 1) * (2 * 2 ^ Z.of_N n * 2 ^ (Z.of_N e + 23))) by ring. rewrite PW. change (2 ^ 0) with 1. lia.
    - rewrite KQ. reflexivity. }
  (* below half of the least half *)
  assert (B : 0 <= scaled 24 (Z.of_N m) < 2 ^ 124).
  { split.
    - rewrite <- (scaled_0 24 ltac:(lia)) at 1. apply (scaled_le 24); lia.
    - change (2 ^ 124) with (scaled 24 (102 * 2 ^ 23)). apply (scaled_lt 24); lia. }
  set (v := scaled 24 (Z.of_N m)) in *.
  apply (nearest_between 11 (-24) inf16 ltac:(lia) ltac:(lia) v (2 ^ 149) 0 false); try reflexivity; [split; [lia|reflexivity]| |];
    change (scaled 11 0 * 2 ^ 149) with 0; change (scaled 11 (0 + 1) * 2 ^ 149) with (2 ^ 149); change (- -24) with 24; [|left]; lia.
Qed.

(** Every binary32 pattern that is not a NaN. *)
Theorem half_rounding : forall x, (x < 2 ^ 32)%N -> (x mod 2 ^ 31 <= 255 * 2 ^ 23)%N ->
  half_of (N.testbit x 31) (scaled 24 (Z.of_N (x mod 2 ^ 31))) (2 ^ 149) (fp32_to_fp16 x).
Proof.
  intros x X M. assert (DM : x = (2 ^ 31 * (x / 2 ^ 31) + x mod 2 ^ 31)%N) by (apply N.div_mod; discriminate).
  assert (S : (x / 2 ^ 31 < 2)%N) by (apply N.div_lt_upper_bound; [discriminate|exact X]).
  assert (T : N.testbit x 31 = (x / 2 ^ 31 =? 1)%N).
  { rewrite N.testbit_eqb. rewrite N.mod_small by exact S. reflexivity. }
  rewrite T. set (s := (x / 2 ^ 31)%N) in *. set (m := (x mod 2 ^ 31)%N) in *.
  replace x with (s * 2 ^ 31 + m)%N by lia. rewrite fp16_arith by (try apply N.mod_lt; try discriminate; exact S).
  pose proof (half_nearest m M) as HN. assert (HB : (half_of_bits m < 2 ^ 15)%N) by (destruct HN as [[_ HB] _]; change inf16 with 31744 in HB; lia).
  unfold half_of. split.
  - rewrite N.div_add_l by discriminate. rewrite N.div_small by exact HB. assert (C : s = 0%N \/ s = 1%N) by lia. destruct C as [->| ->]; reflexivity.
  - rewrite N.add_comm, N.mod_add by discriminate. rewrite N.mod_small by exact HB. exact HN.
Qed.
(** A NaN gives a NaN of the same sign. *)
Theorem half_nan : forall x, (x < 2 ^ 32)%N -> (255 * 2 ^ 23 < x mod 2 ^ 31)%N ->
  (31 * 2 ^ 10 < fp32_to_fp16 x mod 2 ^ 15)%N /\ (fp32_to_fp16 x / 2 ^ 15 = x / 2 ^ 31)%N.
Proof.
  intros x X M. assert (DM : x = (2 ^ 31 * (x / 2 ^ 31) + x mod 2 ^ 31)%N) by (apply N.div_mod; discriminate).
  assert (S : (x / 2 ^ 31 < 2)%N) by (apply N.div_lt_upper_bound; [discriminate|exact X]).
  assert (ML : (x mod 2 ^ 31 < 2 ^ 31)%N) by (apply N.mod_lt; discriminate).
  set (s := (x / 2 ^ 31)%N) in *. set (m := (x mod 2 ^ 31)%N) in *.
  assert (HB : half_of_bits m = 0x7FFF%N).
  { unfold half_of_bits. assert (E : (m / 2 ^ 23 = 255)%N).
    { apply N.le_antisymm; [apply N.lt_succ_r, N.div_lt_upper_bound; [discriminate|]; exact ML|].
      apply N.div_le_lower_bound; [discriminate|]. apply N.lt_le_incl. rewrite N.mul_comm. exact M. }
    rewrite E. change (255 =? 255)%N with true. cbv iota. destruct (N.eqb_spec (m mod 2 ^ 23) 0) as [Z0|]; [|reflexivity].
    pose proof (N.div_mod m (2 ^ 23) ltac:(discriminate)) as Q. rewrite E, Z0 in Q. lia. }
  replace x with (s * 2 ^ 31 + m)%N by lia. rewrite fp16_arith, HB by assumption. split.
  - rewrite N.add_comm, N.mod_add by discriminate. reflexivity.
  - rewrite N.div_add_l by discriminate. change (0x7FFF / 2 ^ 15)%N with 0%N. lia.
Qed.

(** ** binary32 and binary64 *)
Lemma with_sign_split : forall neg n mag, (mag < 2 ^ n)%N ->
  (with_sign neg (2 ^ n) mag / 2 ^ n = if neg then 1 else 0)%N /\ (with_sign neg (2 ^ n) mag mod 2 ^ n = mag)%N.
Proof.
  intros neg n mag B. assert (P : (2 ^ n <> 0)%N) by (apply N.pow_nonzero; discriminate). unfold with_sign. destruct neg.
  - assert (E : N.lor (2 ^ n) mag = (mag + 1 * 2 ^ n)%N) by (rewrite N.lor_comm, <- (N.shiftl_1_l n), lor_shift_add by exact B; rewrite N.shiftl_1_l; lia).
    rewrite E. split; [rewrite N.div_add, N.div_small by assumption; reflexivity|rewrite N.mod_add by exact P; apply N.mod_small, B].
  - split; [apply N.div_small, B|apply N.mod_small, B].
Qed.
Theorem single_rounding : forall neg num den, 0 <= num -> 0 < den -> single_of neg num den (f32_of_ratio neg num den).
Proof.
  intros neg num den N0 D. unfold f32_of_ratio, single_of.
  pose proof (round_ratio_nearest 24 (-149) inf32 ltac:(lia) ltac:(lia) ltac:(reflexivity) num den N0 D) as R.
  change (Z.of_N f32_inf) with inf32. change f32_sign with (2 ^ 31)%N.
  assert (B : (round_ratio 24 (-149) inf32 num den < 2 ^ 31)%N) by (destruct R as [[_ R] _]; change inf32 with 2139095040 in R at 2; lia).
  destruct (with_sign_split neg 31 _ B) as [-> ->]. split; [reflexivity|exact R].
Qed.
Theorem double_rounding : forall neg num den, 0 <= num -> 0 < den -> double_of neg num den (f64_of_ratio neg num den).
Proof.
  intros neg num den N0 D. unfold f64_of_ratio, double_of.
  pose proof (round_ratio_nearest 53 (-1074) inf64 ltac:(lia) ltac:(lia) ltac:(reflexivity) num den N0 D) as R.
  change (Z.of_N f64_inf) with inf64. change f64_sign with (2 ^ 63)%N.
  assert (B : (round_ratio 53 (-1074) inf64 num den < 2 ^ 63)%N) by (destruct R as [[_ R] _]; change inf64 with 9218868437227405312 in R at 2; lia).
  destruct (with_sign_split neg 63 _ B) as [-> ->]. split; [reflexivity|exact R].
Qed.
