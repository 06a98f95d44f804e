(** * Operands2: registers, predicates, floating point, memory and texture
    operands against [SpecOperand]; all operands together. *)
From Verif Require Import Base Float Lexer Operand Catalogue Table Parse Spec SpecOperand Bits LexFacts
  ParseFacts Decode Footprint Operands.
From Coq Require Import Lia.
Local Open Scope string_scope.
Local Open Scope list_scope.
Open Scope Z_scope.

Lemma dc_bit : forall x, negb (N.eqb (N.land x 4) 0) = N.testbit x 2.
Proof.
  intros x. assert (E : N.land x 4 = if N.testbit x 2 then 4%N else 0%N).
  { apply N.bits_inj. intros k. rewrite N.land_spec. change 4%N with (2 ^ 2)%N.
    rewrite N.pow2_bits_eqb. destruct (N.eqb_spec 2 k) as [<-|H].
    - rewrite andb_true_r. destruct (N.testbit x 2); reflexivity.
    - rewrite andb_false_r. destruct (N.testbit x 2); [|now rewrite N.bits_0].
      change 4%N with (2 ^ 2)%N. rewrite N.pow2_bits_false; auto. }
  rewrite E. destruct (N.testbit x 2); reflexivity.
Qed.
Lemma field_lt : forall w a n, (field w a n < 2 ^ n)%N.
Proof. exact field_bound. Qed.

(** Replacing a field by a value gives the word back iff it is the field. *)
Lemma mirror_iff : forall w a n, (n < 256)%N ->
  (N.lor (N.ldiff w (place 255 a)) (place n a) = w <-> n = field w a 8).
Proof.
  intros w a n L.
  assert (P : forall x k, N.testbit (place x a) k = N.leb a k && N.testbit x (k - a)).
  { intros x k. unfold place. rewrite <- N.shiftl_mul_pow2. destruct (N.leb_spec a k).
    - now rewrite N.shiftl_spec_high'.
    - now rewrite N.shiftl_spec_low. }
  assert (O : forall k, N.testbit 255 k = N.ltb k 8).
  { intros k. change 255%N with (N.ones 8). destruct (N.ltb_spec k 8).
    - now apply N.ones_spec_low.
    - now apply N.ones_spec_high. }
  split.
  - intros E. apply N.bits_inj. intros k. rewrite field_spec. destruct (N.ltb_spec k 8) as [K|K].
    + rewrite <- E at 1. rewrite N.lor_spec, N.ldiff_spec, !P, O.
      replace (k + a - a)%N with k by lia.
      destruct (N.leb_spec a (k + a)); [|lia]. destruct (N.ltb_spec k 8); [|lia].
      cbn. rewrite andb_false_r. reflexivity.
    + rewrite (bits_small n 8) by assumption. reflexivity.
  - intros ->. apply N.bits_inj. intros k. rewrite N.lor_spec, N.ldiff_spec, !P, O, field_spec.
    destruct (N.leb_spec a k); cbn.
    + destruct (N.ltb_spec (k - a) 8); cbn.
      * replace (k - a + a)%N with k by lia. rewrite andb_false_r. reflexivity.
      * rewrite andb_true_r, orb_false_r. reflexivity.
    + rewrite andb_true_r, orb_false_r. reflexivity.
Qed.

(** ** Floating point *)
Lemma f32_ok_cases : forall f, f32_ok f -> exists neg mag,
  (mag <= f32_inf)%N /\ f = (flag_bit neg 31 + mag)%N.
Proof.
  intros f (neg & mag & -> & L). exists neg, mag. split; [exact L|]. unfold with_sign, flag_bit. destruct neg; [|reflexivity].
  rewrite N.lor_comm. change f32_sign with (N.shiftl 1 31). rewrite lor_shift_add.
  - lia.
  - eapply N.le_lt_trans; [exact L|reflexivity].
Qed.
Lemma f32_parts : forall neg mag, (mag <= f32_inf)%N ->
  ((flag_bit neg 31 + mag) mod 2 ^ 31 = mag /\ (flag_bit neg 31 + mag) / 2 ^ 31 = (if neg then 1 else 0) /\
   N.testbit (flag_bit neg 31 + mag) 31 = neg)%N.
Proof.
  intros neg mag L. assert (M : (mag < 2 ^ 31)%N) by (eapply N.le_lt_trans; [exact L|reflexivity]).
  assert (E : (flag_bit neg 31 + mag = mag + (if neg then 1 else 0) * 2 ^ 31)%N)
    by (unfold flag_bit; destruct neg; lia).
  assert (D : ((flag_bit neg 31 + mag) / 2 ^ 31 = if neg then 1 else 0)%N).
  { rewrite E, N.div_add by discriminate. rewrite N.div_small by exact M. apply N.add_0_l. }
  split; [|split; [exact D|]].
  - rewrite E, N.mod_add by discriminate. apply N.mod_small. exact M.
  - rewrite N.testbit_eqb, D. destruct neg; reflexivity.
Qed.
Lemma f32_not_nan : forall f, f32_ok f -> f32_is_nan f = false.
Proof.
  intros f H. apply f32_ok_cases in H as (neg & mag & L & E). unfold f32_is_nan, f32_exp, f32_man.
  destruct (N.eqb_spec (N.land (N.shiftr f 23) 255) 255) as [E1|]; [|reflexivity].
  change 255%N with (N.ones 8) in E1 at 1. rewrite N.land_ones, N.shiftr_div_pow2 in E1.
  change 0x7FFFFF%N with (N.ones 23). rewrite N.land_ones.
  destruct (N.eqb_spec (f mod 2 ^ 23) 0) as [|E2]; [reflexivity|]. exfalso.
  assert (F : (f = flag_bit neg 31 + mag)%N) by exact E. unfold flag_bit in F.
  pose proof (N.div_mod f (2 ^ 23) ltac:(discriminate)) as D1.
  pose proof (N.div_mod (f / 2 ^ 23) (2 ^ 8) ltac:(discriminate)) as D2. rewrite E1 in D2.
  pose proof (N.mod_lt f (2 ^ 23) ltac:(discriminate)) as B. clear E E1.
  unfold f32_inf in L. change (2 ^ 31)%N with 2147483648%N in F. change (2 ^ 8)%N with 256%N in *.
  change (2 ^ 23)%N with 8388608%N in *.
  remember (f / 8388608 / 256)%N as q2. remember (f / 8388608)%N as q. remember (f mod 8388608)%N as m.
  clear Heqq2 Heqq Heqm. destruct neg; lia.
Qed.
Lemma f32_ne_refl : forall f, f32_ok f -> f32_ne f f = false.
Proof. intros f H. unfold f32_ne. rewrite f32_not_nan, N.eqb_refl by exact H. reflexivity. Qed.
Lemma f32_lt0_spec : forall f, f32_ok f -> f32_lt0 f = N.testbit f 31 && negb (N.eqb (f mod 2 ^ 31) 0).
Proof.
  intros f H. unfold f32_lt0, f32_neg. rewrite f32_not_nan by exact H.
  change 0x7FFFFFFF%N with (N.ones 31). rewrite N.land_ones. apply andb_true_r.
Qed.
Lemma fimm20_bits : forall f, (f < 2 ^ 32)%N ->
  shl64 (N.shiftr (N.modulo (N.shiftl f 1) two32) 13) 20 = place (f mod 2 ^ 31 / 2 ^ 12) 20.
Proof.
  intros f L. replace (N.shiftr (N.modulo (N.shiftl f 1) two32) 13) with (f mod 2 ^ 31 / 2 ^ 12)%N.
  - apply (shl_place _ _ 19); [|lia]. apply N.div_lt_upper_bound; [discriminate|].
    rewrite <- N.pow_add_r. apply N.mod_lt. discriminate.
  - rewrite N.shiftr_div_pow2, N.shiftl_mul_pow2. change two32 with (2 ^ 31 * 2 ^ 1)%N.
    rewrite N.mul_mod_distr_r by discriminate. change (2 ^ 13)%N with (2 ^ 12 * 2 ^ 1)%N.
    rewrite N.div_mul_cancel_r by discriminate. reflexivity.
Qed.
Lemma top_bit : forall f, (f < 2 ^ 32)%N -> (f / 2 ^ 31 = 0 \/ f / 2 ^ 31 = 1)%N.
Proof.
  intros f L. assert (H : (f / 2 ^ 31 < 2)%N) by (apply N.div_lt_upper_bound; [discriminate|exact L]).
  revert H. generalize (f / 2 ^ 31)%N. intros n H. lia.
Qed.
Lemma single_lt : forall ks f, Forall kind_ok ks -> single ks f -> (f < 2 ^ 32)%N.
Proof.
  intros ks f F [->|[(z & -> & ->)|[(neg & _ & ->)|(neg & _ & ->)]]].
  - inversion F; subst. now apply f32_ok_lt.
  - apply f32_ok_lt, f32_of_Z_ok.
  - destruct neg; reflexivity.
  - destruct neg; reflexivity.
Qed.

Definition f64_ok (x : N) (neg : bool) (mag : N) : Prop := x = with_sign neg f64_sign mag /\ (mag <= f64_inf)%N.
Lemma f64_parts : forall x neg mag, f64_ok x neg mag ->
  (x < 2 ^ 64 /\ x mod 2 ^ 63 = mag)%N /\ N.testbit x 63 = neg /\ f64_lt0 x = neg && negb (N.eqb mag 0).
Proof.
  intros x neg mag (-> & L).
  assert (M : (mag < 2 ^ 63)%N) by (eapply N.le_lt_trans; [exact L|reflexivity]).
  assert (E : (with_sign neg f64_sign mag = mag + (if neg then 1 else 0) * 2 ^ 63)%N).
  { unfold with_sign. destruct neg; [|lia]. rewrite N.lor_comm. change f64_sign with (N.shiftl 1 63).
    now rewrite lor_shift_add. }
  set (x := with_sign neg f64_sign mag) in *. clearbody x.
  assert (A : (x mod 2 ^ 63 = mag)%N) by (rewrite E, N.mod_add by discriminate; now apply N.mod_small).
  assert (B : N.testbit x 63 = neg).
  { rewrite N.testbit_eqb, E, N.div_add by discriminate. rewrite N.div_small by exact M. destruct neg; reflexivity. }
  repeat split; [|exact A|exact B|].
  - rewrite E. change (2 ^ 64)%N with 18446744073709551616%N. change (2 ^ 63)%N with 9223372036854775808%N in *.
    destruct neg; lia.
  - unfold f64_lt0. change 0x7FFFFFFFFFFFFFFF%N with (N.ones 63). rewrite N.land_ones, A, B.
    destruct (N.ltb_spec f64_inf mag); [lia|]. apply andb_true_r.
Qed.
Lemma f64_of_f32_ok : forall f, f32_ok f -> exists neg mag, f64_ok (f64_of_f32 f) neg mag.
Proof.
  intros f H. pose proof (f32_not_nan f H) as NN. unfold f32_is_nan in NN. unfold f64_of_f32.
  destruct (N.eqb (f32_exp f) 255).
  - destruct (N.eqb (f32_man f) 0); [|discriminate NN]. eexists _, _. split; [reflexivity|apply N.le_refl].
  - cbv zeta. unfold f64_of_ratio. eexists _, _. split; [reflexivity|].
    match goal with |- (round_ratio ?p ?e ?i ?n ?d <= _)%N => pose proof (round_ratio_le p e i n d) as L end.
    rewrite N2Z.id in L. exact L.
Qed.
Lemma f64_of_Z_ok : forall z, exists mag, f64_ok (f64_of_Z z) (z <? 0) mag /\ (z <> 0 -> mag <> 0%N).
Proof.
  intros z. unfold f64_of_Z, f64_of_ratio. eexists. split; [split; [reflexivity|]|].
  - match goal with |- (round_ratio ?p ?e ?i ?n ?d <= _)%N => pose proof (round_ratio_le p e i n d) as L end.
    rewrite N2Z.id in L. exact L.
  - intros NZ. unfold round_ratio. destruct (Z.eqb_spec (Z.abs z) 0); [lia|]. cbv zeta.
    pose proof (Z.log2_nonneg (Z.abs z)). change (Z.log2 1) with 0.
    match goal with |- context [Z.max ?a ?b] => set (e := Z.max a b) end.
    assert (Le : -1073 <= e).
    { subst e. match goal with |- context [if ?b then _ else _] => destruct b end; lia. }
    clearbody e.
    match goal with |- context [if ?b then ?x + 1 else ?x] =>
      assert (Q : 0 <= (if b then x + 1 else x)) end.
    { match goal with |- 0 <= (if ?b then ?x + 1 else ?x) => assert (0 <= x); [|destruct b; lia] end.
      destruct (Z.leb_spec 0 e).
      - apply Z.div_pos; [lia|]. apply Z.mul_pos_pos; [lia|]. apply Z.pow_pos_nonneg; lia.
      - apply Z.div_pos; [|lia]. apply Z.mul_nonneg_nonneg; [lia|]. apply Z.pow_nonneg. lia. }
    match type of Q with 0 <= ?x => set (q := x) in *; clearbody q end.
    change (Z.of_N f64_inf) with 9218868437227405312. change (2 ^ (53 - 1)) with 4503599627370496.
    match goal with |- (if ?b then _ else _) <> _ => destruct b end; lia.
Qed.
Lemma dimm_bits : forall x, shl64 (N.shiftr (shl64 x 1) 45) 20 = place (x mod 2 ^ 63 / 2 ^ 44) 20.
Proof.
  intros x. replace (N.shiftr (shl64 x 1) 45) with (x mod 2 ^ 63 / 2 ^ 44)%N.
  - apply (shl_place _ _ 19); [|lia]. apply N.div_lt_upper_bound; [discriminate|].
    rewrite <- N.pow_add_r. apply N.mod_lt. discriminate.
  - unfold shl64. rewrite N.shiftr_div_pow2, N.shiftl_mul_pow2. change two64 with (2 ^ 63 * 2 ^ 1)%N.
    rewrite N.mul_mod_distr_r by discriminate. change (2 ^ 45)%N with (2 ^ 44 * 2 ^ 1)%N.
    rewrite N.div_mul_cancel_r by discriminate. reflexivity.
Qed.
Lemma half9_bits : forall h a, (a + 9 <= 64)%N ->
  shl64 (N.shiftr (u16 (N.shiftl h 1)) 7) a = place (h mod 2 ^ 15 / 2 ^ 6) a.
Proof.
  intros h a A. replace (N.shiftr (u16 (N.shiftl h 1)) 7) with (h mod 2 ^ 15 / 2 ^ 6)%N.
  - apply (shl_place _ _ 9); [|exact A]. apply N.div_lt_upper_bound; [discriminate|].
    rewrite <- N.pow_add_r. apply N.mod_lt. discriminate.
  - unfold u16. rewrite N.shiftr_div_pow2, N.shiftl_mul_pow2. change 65536%N with (2 ^ 15 * 2 ^ 1)%N.
    rewrite N.mul_mod_distr_r by discriminate. change (2 ^ 7)%N with (2 ^ 6 * 2 ^ 1)%N.
    rewrite N.div_mul_cancel_r by discriminate. reflexivity.
Qed.
Lemma last_split : forall (ks : list tkind) k l, ks ++ [k] = l -> l = removelast l ++ [last l TNone] ->
  ks = removelast l /\ k = last l TNone.
Proof. intros ks k l <- _. rewrite removelast_last, last_last. auto. Qed.

Lemma offset_bits : forall z shr size addr, (shr + size <= 64)%N -> (addr + size <= 64)%N ->
  shl64 (N.land (N.shiftr (u64_of_Z z) shr) (max_bits size)) addr =
  place (Z.to_N ((z / 2 ^ Z.of_N shr) mod 2 ^ Z.of_N size)) addr.
Proof.
  intros z shr size addr L A.
  replace (N.land (N.shiftr (u64_of_Z z) shr) (max_bits size)) with (Z.to_N ((z / 2 ^ Z.of_N shr) mod 2 ^ Z.of_N size)).
  - apply (shl_place _ _ size); [apply to_N_mod_lt|exact A].
  - rewrite max_bits_ones, N.land_ones, N.shiftr_div_pow2. unfold u64_of_Z. change (Z.of_N two64) with (2 ^ 64).
    assert (P : 0 < 2 ^ Z.of_N shr) by (apply Z.pow_pos_nonneg; lia).
    assert (P2 : 0 < 2 ^ Z.of_N size) by (apply Z.pow_pos_nonneg; lia).
    pose proof (Z.mod_pos_bound z (2 ^ 64) ltac:(reflexivity)) as B.
    apply N2Z.inj. rewrite N2Z.inj_mod, N2Z.inj_div, !N2Z.inj_pow. change (Z.of_N 2) with 2.
    rewrite !Z2N.id; [|lia|apply Z.mod_pos_bound; exact P2].
    rewrite (Z.div_mod z (2 ^ 64)) at 1 by discriminate.
    replace (2 ^ 64) with (2 ^ (64 - Z.of_N shr - Z.of_N size) * 2 ^ Z.of_N size * 2 ^ Z.of_N shr) at 1
      by (rewrite <- !Z.pow_add_r by lia; f_equal; lia).
    remember (z / 2 ^ 64) as q. remember (z mod 2 ^ 64) as m. remember (2 ^ (64 - Z.of_N shr - Z.of_N size)) as u.
    replace (u * 2 ^ Z.of_N size * 2 ^ Z.of_N shr * q + m) with (m + u * q * 2 ^ Z.of_N size * 2 ^ Z.of_N shr) by ring.
    rewrite Z.div_add, Z.mod_add by lia. reflexivity.
Qed.

Section Run.
  Variable ls : labels.
  Variable pc : Z.
  Local Notation env0 := (Env ls pc false).
  Local Notation sp := (spells (find_label ls) pc).

  (** Registers. *)
  Lemma gpr_run : forall a c t w ru sc c' t' op', kind_ok (kind t) -> (a + 8 <= 64)%N ->
    (assemble_gpr env0 a (St c t (Opcode w ru sc)) = Ok (St c' t' op') <->
     exists ks n r, reads t c ks t' c' /\ register a ks (kind t') n r /\ (n < 256)%N /\
       op' = Opcode (N.lor w (place n a)) (N.lor ru r) sc).
  Proof.
    intros a c t w ru sc c' t' op' KO A. unfold assemble_gpr, try_reuse, register, reuse_bit. split.
    - intros H. repeat xs H; cbn in KO; (assert (L : (r < 256)%N) by lia); rewrite (shl_place _ _ 8) in * by auto.
      + destruct (N.eqb a 8); [|destruct (N.eqb a 20); [|destruct (N.eqb a 39)]]; repeat xs H.
        * exists [TReg r; id ".reuse"], r, 1%N. split; [mk|]. split; [auto|]. split; [auto|]. opeq.
        * exists [TReg r; id ".reuse"], r, 2%N. split; [mk|]. split; [auto|]. split; [auto|]. opeq.
        * exists [TReg r; id ".reuse"], r, 4%N. split; [mk|]. split; [auto|]. split; [auto|]. opeq.
      + exists [TReg r], r, 0%N. split; [mk|]. split; [auto|]. split; [auto|]. opeq.
    - intros (ks & n & r & R & [(-> & NE & ->)|(-> & B)] & L & ->); rd R.
      + gg. rewrite (shl_place _ _ 8) in * by auto. opeq.
      + gg. rewrite (shl_place _ _ 8) in * by auto.
        destruct (N.eqb a 8); [|destruct (N.eqb a 20); [|destruct (N.eqb a 39); [|discriminate]]];
          injection B as <-; gg; opeq.
  Qed.
  Lemma register_lt : forall a t c ks t' c' n r, kind_ok (kind t) -> reads t c ks t' c' ->
    register a ks (kind t') n r -> (n < 256)%N.
  Proof.
    intros a t c ks t' c' n r KO R S. apply reads_ok in R as (F & _); [|exact KO].
    destruct S as [(-> & _)|(-> & _)]; inversion F; subst; cbn in *; lia.
  Qed.
  Lemma m_gpr : forall a, (a + 8 <= 64)%N -> meets ls pc (OGpr a).
  Proof.
    intros a A. start.
    - apply gpr_run in H as (ks & n & r & R & S & L & ->); [|auto|auto].
      exists ks, (place n a), r. split; [exact R|]. split; [cbn; eauto|opeq].
    - destruct S as (n & S & ->). apply gpr_run; [auto|auto|].
      exists ks, n, r. split; [exact R|]. split; [exact S|]. split; [eapply register_lt; eauto|opeq].
  Qed.
  Lemma m_mirror : forall a, (a + 8 <= 64)%N -> meets ls pc (OMirrorGpr a).
  Proof.
    intros a A. assert (P : shl64 255 a = place 255 a) by (apply (shl_place _ _ 8); auto; reflexivity).
    start; unfold run_mirror_dgpr in *; cbv zeta in *; unfold set_value, andnot in *;
      cbn [s_cur s_tok s_op value reuse sched] in *; rewrite P in *.
    - inv_bind H. destruct x as [c1 t1 op1]. cbn [s_op] in H.
      apply gpr_run in Hx as (ks & n & r & R & S & L & ->); [|auto|auto]. cbn [value] in H.
      destruct (N.eqb_spec (N.lor (N.ldiff w (place 255 a)) (place n a)) w) as [E|E]; cbn [negb] in H; [|discriminate H].
      xs H. rewrite E. apply mirror_iff in E; [|exact L].
      exists ks, 0%N, r. split; [exact R|]. split; [cbn; eauto|opeq].
    - destruct S as (n & S & E & ->).
      assert (L : (n < 256)%N) by (eapply register_lt; eauto).
      rewrite (proj2 (gpr_run a c t _ ru sc c' t' (Opcode w (N.lor ru r) sc) KO A)).
      + cbn [bind s_op value]. rewrite N.eqb_refl. opeq.
      + exists ks, n, r. split; [exact R|]. split; [exact S|]. split; [exact L|].
        apply mirror_iff in E; [|exact L]. rewrite E. reflexivity.
  Qed.
  Lemma m_pred : forall a (negable : bool), (a + (if negable then 4 else 3) <= 64)%N -> meets ls pc (OPred a negable).
  Proof.
    intros a negable A. start; unfold run_pred in *.
    - repeat xs H. cbn in KO.
      assert (L : (index < 2 ^ 3)%N) by (change (2 ^ 3)%N with 8%N; lia).
      rewrite (shl_place _ _ 3) in * by (auto; destruct negable; lia).
      destruct negable.
      + rewrite shl_flag in * by lia. repeat xs H.
        give [TPred index negated] (N.lor (place index a) (flag_bit negated (a + 3))) 0%N; [|opeq].
        cbn [spells]. eauto 8.
      + destruct negated; repeat xs H.
        give [TPred index false] (place index a) 0%N; [|opeq]. cbn [spells]. eauto 8.
    - destruct S as (i & neg & -> & -> & S). rd R. rewrite K in KO. cbn in KO.
      assert (L : (i < 2 ^ 3)%N) by (change (2 ^ 3)%N with 8%N; lia).
      gg. rewrite (shl_place _ _ 3) in * by (auto; destruct negable; lia).
      destruct negable.
      + subst b. rewrite shl_flag in * by lia. opeq.
      + destruct S as (-> & ->). opeq.
  Qed.
  Lemma m_invpred : forall a, (a + 3 <= 64)%N -> meets ls pc (OInvPred a).
  Proof.
    intros a A.
    assert (P : forall i, (i <= 7)%N -> shl64 (u64_of_Z (7 - Z.of_N i)) a = place (7 - i) a).
    { intros i L. rewrite u64_nonneg by (unfold INT64_MAX; lia).
      replace (Z.to_N (7 - Z.of_N i)) with (7 - i)%N by lia.
      apply (shl_place _ _ 3); [|exact A]. change (2 ^ 3)%N with 8%N. lia. }
    start; unfold run_inverted_pred in *.
    - repeat xs H. cbn in KO. rewrite P in * by exact KO.
      destruct negated; repeat xs H.
      give [TPred index false] (place (7 - index) a) 0%N; [|opeq]. cbn [spells]. eauto 8.
    - destruct S as (i & -> & -> & ->). rd R. rewrite K in KO. cbn in KO. gg. rewrite P in * by exact KO. opeq.
  Qed.
  Lemma m_abs : forall a inner, (a < 64)%N -> clears inner = 0%N -> meets ls pc inner -> meets ls pc (OAbs a inner).
  Proof.
    intros a inner A C M. start; unfold run_abs in *; cbv zeta in *; unfold s_kind in *; cbn [s_tok] in *;
      rewrite shl_one in * by exact A.
    - destruct (ttype_eqb _ _) eqn:E.
      + destruct (kind t) eqn:K; try discriminate E. rel_in H. repeat xs H. rel_in H. inv_bind H. destruct x as [c2 t2 op2].
        apply M in Hx as (ks & b & r & R & S & ->); [|eapply token_ok; eassumption].
        repeat xs H. exists (TVbar :: ks ++ [TVbar]), (N.lor (2 ^ a) b), r. split; [|split].
        * econstructor; [exact K|eassumption|]. eapply reads_app; [exact R|]. mk.
        * cbn [spells]. left. eauto 8.
        * rewrite C. opeq.
      + rel_in H. inv_bind H. destruct x as [c2 t2 op2].
        apply M in Hx as (ks & b & r & R & S & ->); [|auto]. xs H.
        exists ks, b, r. split; [exact R|]. split; [|rewrite C; opeq]. cbn [spells]. right. split; [|exact S].
        rewrite <- (reads_hd _ _ _ _ _ R). intros Q. rewrite Q in E. discriminate E.
    - destruct S as [(ks' & b' & -> & S & ->)|(NE & S)].
      + inversion R as [|? ? ? t1 c1 ? ? ? K E R']; subst; clear R. rewrite K.
        apply reads_split in R' as (t2 & c2 & R1 & R2). rd R2. cbn [ttype_eqb type_of]. gg.
        rewrite (proj2 (M c1 t1 _ ru sc c2 t2 (Opcode (N.lor (N.ldiff (N.lor w (2 ^ a)) (clears inner)) b') (N.lor ru r) sc)
          (token_ok _ _ _ E))).
        * gg. rewrite C. opeq.
        * exists ks', b', r. rewrite K0. auto.
      + rewrite <- (reads_hd _ _ _ _ _ R) in NE.
        replace (ttype_eqb (type_of (kind t)) ty_vbar) with false by (destruct (kind t); try reflexivity; congruence).
        cbn [bind]. rewrite (proj2 (M c t w ru sc c' t' (Opcode (N.lor (N.ldiff w (clears inner)) b) (N.lor ru r) sc) KO)).
        * cbn [bind]. rewrite C. opeq.
        * eauto 8.
  Qed.

  Lemma sign_name : forall neg, with_sign neg f32_sign f32_qnan = (flag_bit neg 31 + 0x7FC00000)%N /\
    with_sign neg f32_sign f32_inf = (flag_bit neg 31 + 0x7F800000)%N.
  Proof. intros []; split; reflexivity. Qed.
  (** The value part of a single precision operand. *)
  Definition fimm_value (s : st) : res (N * st) :=
    match s_kind s with
    | TFloat f => Ok (f, s)
    | TImm z =>
        let value := f32_of_Z z in
        if f32_ne (f32_of_Z z) value then
          fail (s_tok s) (integer_message z)
        else Ok (value, s)
    | TPlus | TMinus | TIdent _ =>
        let negate := match s_kind s with TMinus => true | _ => false end in
        let* s := match s_kind s with TIdent _ => Ok s | _ => advance_tok s end in
        if equal (s_tok s) "QNAN" then Ok (with_sign negate f32_sign f32_qnan, s)
        else if equal (s_tok s) "INF" then Ok (with_sign negate f32_sign f32_inf, s)
        else fail (s_tok s) FLOAT_MESSAGE
    | _ => fail (s_tok s) FLOAT_MESSAGE
    end.
  (** It leaves the last token of the value current. *)
  Lemma fimm_value_iff : forall c t op f c1 t1 op1, kind_ok (kind t) ->
    (fimm_value (St c t op) = Ok (f, St c1 t1 op1) <->
     op1 = op /\ exists ks, reads t c ks t1 c1 /\ single (ks ++ [kind t1]) f).
  Proof.
    intros c t op f c1 t1 op1 KO. unfold fimm_value. split.
    - assert (G : forall neg c2 t2 ks, reads t c ks t2 c2 ->
        (forall s, signed_name s (ks ++ [id s]) neg) ->
        (if equal t2 "QNAN" then Ok (with_sign neg f32_sign f32_qnan, St c2 t2 op)
         else if equal t2 "INF" then Ok (with_sign neg f32_sign f32_inf, St c2 t2 op)
         else fail t2 FLOAT_MESSAGE) = Ok (f, St c1 t1 op1) ->
        op1 = op /\ exists ks, reads t c ks t1 c1 /\ single (ks ++ [kind t1]) f).
      { intros neg c2 t2 ks R S H. destruct (sign_name neg) as (E1 & E2). rewrite E1, E2 in H.
        eqcase t2 "QNAN"; [|eqcase t2 "INF"; [|discriminate H]].
        - assert (f = (flag_bit neg 31 + 0x7FC00000)%N /\ c1 = c2 /\ t1 = t2 /\ op1 = op) as (-> & -> & -> & ->) by (inversion H; auto).
          split; [reflexivity|]. exists ks. split; [exact R|]. rewrite E. right. right. left. eauto.
        - assert (f = (flag_bit neg 31 + 0x7F800000)%N /\ c1 = c2 /\ t1 = t2 /\ op1 = op) as (-> & -> & -> & ->) by (inversion H; auto).
          split; [reflexivity|]. exists ks. split; [exact R|]. rewrite E0. right. right. right. eauto. }
      intros H. unfold s_kind in H. cbn [s_tok] in H. cbv zeta in H. destruct (kind t) eqn:K; try discriminate H.
      + cbn [bind] in H. apply (G false c t []) in H; [exact H|constructor|]. intros s'. left. auto.
      + rewrite f32_ne_refl in H by apply f32_of_Z_ok.
        assert (f = f32_of_Z z /\ c1 = c /\ t1 = t /\ op1 = op) as (-> & -> & -> & ->) by (inversion H; auto).
        split; [reflexivity|]. exists []. split; [constructor|]. cbn. rewrite K. right. left. eauto.
      + assert (f = f32 /\ c1 = c /\ t1 = t /\ op1 = op) as (-> & -> & -> & ->) by (inversion H; auto).
        split; [reflexivity|]. exists []. split; [constructor|]. cbn. rewrite K. left. reflexivity.
      + rel_in H. destruct (tokenize c) as [(t2, c2)| | | | |] eqn:E; try discriminate H. rel_in H.
        apply (G false c2 t2 [TPlus]) in H; [exact H|mk|]. intros s'. right. left. auto.
      + rel_in H. destruct (tokenize c) as [(t2, c2)| | | | |] eqn:E; try discriminate H. rel_in H.
        apply (G true c2 t2 [TMinus]) in H; [exact H|mk|]. intros s'. right. right. auto.
    - intros (-> & ks & R & S). unfold single, signed_name in S.
      assert (U : forall l, ks ++ [kind t1] = l -> l = removelast l ++ [last l TNone] -> ks = removelast l /\ kind t1 = last l TNone).
      { intros l E1 E2. rewrite <- E1 in E2 at 1. rewrite <- E1. split; [now rewrite removelast_last|now rewrite last_last]. }
      unfold s_kind. cbn [s_tok]. cbv zeta.
      destruct (sign_name false) as (Q1 & Q2), (sign_name true) as (Q3 & Q4).
      destruct S as [S|[(z & S & ->)|[(neg & S & ->)|(neg & S & ->)]]].
      + apply U in S as (-> & K); [|reflexivity]. cbn [removelast last] in *. rd R. rewrite K. reflexivity.
      + apply U in S as (-> & K); [|reflexivity]. cbn [removelast last] in *. rd R. rewrite K.
        rewrite f32_ne_refl by apply f32_of_Z_ok. reflexivity.
      + destruct S as [(S & ->)|[(S & ->)|(S & ->)]]; (apply U in S as (-> & K); [|reflexivity]); cbn [removelast last] in *;
          rd R; [unfold id in K|..]; gg; rewrite ?Q1, ?Q3; reflexivity.
      + destruct S as [(S & ->)|[(S & ->)|(S & ->)]]; (apply U in S as (-> & K); [|reflexivity]); cbn [removelast last] in *;
          rd R; [unfold id in K|..]; gg; rewrite ?Q2, ?Q4; reflexivity.
  Qed.
  Lemma m_fimm : forall n, n = 20%N \/ n = 32%N -> meets ls pc (OFimm n).
  Proof.
    intros n N. start; unfold assemble_float_immediate in *; fold (fimm_value (St c t (Opcode w ru sc))) in *.
    - inv_bind H. destruct x as (f, [c1 t1 op1]). apply fimm_value_iff in Hx as (-> & ks & R & S); [|exact KO].
      assert (R' : forall c2 t2, tokenize c1 = Ok (t2, c2) -> reads t c (ks ++ [kind t1]) t2 c2).
      { intros c2 t2 E. eapply reads_app; [exact R|]. mk. }
      assert (L : (f < 2 ^ 32)%N).
      { apply single_lt in S; [exact S|]. apply reads_ok in R as (F & K); [|exact KO]. apply Forall_app. auto. }
      exists (ks ++ [kind t1]). destruct N as [->| ->]; cbn [N.eqb Pos.eqb] in H.
      + rewrite fimm20_bits, N.shiftr_div_pow2 in H by exact L.
        exists (N.lor (place (f mod 2 ^ 31 / 2 ^ 12) 20) (place (f / 2 ^ 31) 56)), 0%N. rel_in H.
        destruct (top_bit f L) as [T|T]; rewrite T in *; cbn [N.eqb negb] in H; rewrite ?shl_one in H by reflexivity; repeat xs H;
          (split; [apply R'; auto|]); (split; [|opeq]); exists f; rewrite T; cbn [N.eqb Pos.eqb]; auto.
      + rewrite (shl_place _ _ 32) in H by (auto; lia). repeat xs H.
        exists (place f 20), 0%N. split; [apply R'; auto|]. split; [|opeq]. exists f. cbn [N.eqb Pos.eqb]. auto.
    - destruct S as (f & S & -> & B).
      assert (exists ks0 k, ks = ks0 ++ [k]) as (ks0 & k & ->).
      { destruct (exists_last (l := ks)) as (a & b0 & Q); [|eauto]. intros ->. unfold single, signed_name in S.
        repeat match goal with H : _ \/ _ |- _ => destruct H | H : exists _, _ |- _ => destruct H | H : _ /\ _ |- _ => destruct H end; discriminate. }
      apply reads_split in R as (t1 & c1 & R1 & R2). rd R2.
      assert (L : (f < 2 ^ 32)%N).
      { apply single_lt in S; [exact S|]. apply reads_ok in R1 as (F & K); [|exact KO]. apply Forall_app. auto. }
      rewrite (proj2 (fimm_value_iff c t (Opcode w ru sc) f c1 t1 (Opcode w ru sc) KO)) by (split; [reflexivity|eauto]).
      cbn [bind]. destruct N as [->| ->]; cbn [N.eqb Pos.eqb] in *; subst b.
      + rewrite fimm20_bits, N.shiftr_div_pow2 by exact L. rel.
        destruct (top_bit f L) as [T|T]; rewrite T in *; cbn [N.eqb negb]; gg; rewrite ?shl_one by reflexivity; opeq.
      + rewrite (shl_place _ _ 32) by (auto; lia). gg. opeq.
  Qed.

  (** Double precision: the value part, with the sign already written. *)
  Definition dimm_value (s : st) : res (N * st) :=
    match s_kind s with
    | TFloat f =>
        let value := f64_of_f32 f in
        let* s := if f64_lt0 value then put env0 (shl64 1 56) s else Ok s in
        Ok (value, s)
    | TImm z =>
        let value := f64_of_Z z in
        let* s := if f64_lt0 value then put env0 (shl64 1 56) s else Ok s in
        Ok (value, s)
    | TPlus | TMinus | TIdent _ =>
        let* s := match s_kind s with TMinus => put env0 (shl64 1 56) s | _ => Ok s end in
        let* s := match s_kind s with TIdent _ => Ok s | _ => advance_tok s end in
        if equal (s_tok s) "QNAN" then Ok (f64_qnan, s)
        else if equal (s_tok s) "INF" then Ok (f64_inf, s)
        else fail (s_tok s) FLOAT_MESSAGE
    | _ => fail (s_tok s) FLOAT_MESSAGE
    end.
  Lemma dimm_put : forall c t w ru sc x neg mag, f64_ok x neg mag ->
    (if f64_lt0 x then put env0 (shl64 1 56) (St c t (Opcode w ru sc)) else Ok (St c t (Opcode w ru sc))) =
    Ok (St c t (Opcode (N.lor w (flag_bit (neg && negb (N.eqb mag 0)) 56)) ru sc)).
  Proof.
    intros c t w ru sc x neg mag X. apply f64_parts in X as (_ & _ & ->). destruct (_ && _).
    - rel. rewrite shl_one by reflexivity. reflexivity.
    - cbn [flag_bit]. rewrite N.lor_0_r. reflexivity.
  Qed.
  Lemma f64_Z_sign : forall z mag, f64_ok (f64_of_Z z) (z <? 0) mag -> (z <> 0 -> mag <> 0%N) ->
    (z <? 0) && negb (N.eqb mag 0) = (z <? 0).
  Proof.
    intros z mag _ H. destruct (Z.ltb_spec z 0); [|reflexivity]. destruct (N.eqb_spec mag 0); [|reflexivity].
    exfalso. apply H; [lia|assumption].
  Qed.
  Lemma ok_pair : forall (x y : N) c t op c' t' op', Ok (x, St c t op) = Ok (y, St c' t' op') ->
    x = y /\ c = c' /\ t = t' /\ op = op'.
  Proof. intros x y c t op c' t' op' H. inversion H. auto. Qed.
  Lemma dimm_value_fwd : forall c t w ru sc x c1 t1 op1, kind_ok (kind t) ->
    dimm_value (St c t (Opcode w ru sc)) = Ok (x, St c1 t1 op1) ->
    exists ks neg, reads t c ks t1 c1 /\ double (ks ++ [kind t1]) (x mod 2 ^ 63)%N neg /\
      op1 = Opcode (N.lor w (flag_bit neg 56)) ru sc.
  Proof.
    intros c t w ru sc x c1 t1 op1 KO H. unfold dimm_value in H. unfold s_kind in H. cbn [s_tok] in H. cbv zeta in H.
    assert (G : forall neg c2 t2 ks, reads t c ks t2 c2 -> (forall s, signed_name s (ks ++ [id s]) neg) ->
        (if equal t2 "QNAN" then Ok (f64_qnan, St c2 t2 (Opcode (N.lor w (flag_bit neg 56)) ru sc))
         else if equal t2 "INF" then Ok (f64_inf, St c2 t2 (Opcode (N.lor w (flag_bit neg 56)) ru sc))
         else fail t2 FLOAT_MESSAGE) = Ok (x, St c1 t1 op1) ->
        exists ks neg, reads t c ks t1 c1 /\ double (ks ++ [kind t1]) (x mod 2 ^ 63)%N neg /\
          op1 = Opcode (N.lor w (flag_bit neg 56)) ru sc).
    { intros neg c2 t2 ks R S Q. eqcase t2 "QNAN"; [|eqcase t2 "INF"; [|discriminate Q]];
        apply ok_pair in Q as (<- & <- & <- & <-); exists ks, neg; rewrite ?E, ?E0; (split; [exact R|]); (split; [|reflexivity]).
      - right. right. left. auto.
      - right. right. right. auto. }
    destruct (kind t) eqn:K; try discriminate H.
    - rel_in H. rewrite K in H. rel_in H. apply (G false c t []); [constructor|left; auto|]. cbn [flag_bit]. rewrite N.lor_0_r. exact H.
    - destruct (f64_of_Z_ok z) as (mag & X & NZ). rewrite (dimm_put _ _ _ _ _ _ _ _ X), (f64_Z_sign _ _ X NZ) in H.
      cbn [bind] in H. apply ok_pair in H as (<- & <- & <- & <-).
      exists [], (z <? 0). split; [constructor|]. split; [|reflexivity]. cbn. rewrite K. right. left. eauto.
    - cbn in KO. destruct (f64_of_f32_ok _ KO) as (neg & mag & X). rewrite (dimm_put _ _ _ _ _ _ _ _ X) in H.
      cbn [bind] in H. apply ok_pair in H as (<- & <- & <- & <-).
      destruct (f64_parts _ _ _ X) as ((_ & M) & T & _).
      exists [], (neg && negb (N.eqb mag 0)). split; [constructor|]. split; [|reflexivity]. cbn [List.app]. rewrite K. left.
      exists f32. rewrite M, T. auto.
    - rel_in H. rewrite K in H. rel_in H. destruct (tokenize c) as [(t2, c2)| | | | |] eqn:E; try discriminate H. rel_in H.
      apply (G false c2 t2 [TPlus]); [mk|right; left; auto|]. cbn [flag_bit]. rewrite N.lor_0_r. exact H.
    - rel_in H. rewrite K in H. rel_in H. destruct (tokenize c) as [(t2, c2)| | | | |] eqn:E; try discriminate H. rel_in H.
      apply (G true c2 t2 [TMinus]); [mk|right; right; auto|]. rewrite shl_one in H by reflexivity. exact H.
  Qed.
  Lemma dimm_value_bwd : forall c t w ru sc mag neg c1 t1 ks, kind_ok (kind t) ->
    reads t c ks t1 c1 -> double (ks ++ [kind t1]) mag neg ->
    exists x, (x mod 2 ^ 63)%N = mag /\
      dimm_value (St c t (Opcode w ru sc)) = Ok (x, St c1 t1 (Opcode (N.lor w (flag_bit neg 56)) ru sc)).
  Proof.
    intros c t w ru sc mag neg c1 t1 ks KO R S. unfold double, signed_name in S. unfold dimm_value, s_kind. cbn [s_tok]. cbv zeta.
    destruct S as [(f & S & -> & ->)|[(z & S & -> & ->)|[(S & ->)|(S & ->)]]].
    - apply last_split in S as (-> & K); [|reflexivity]. cbn [removelast last] in *. rd R. rewrite K in *. cbn in KO.
      exists (f64_of_f32 f). split; [reflexivity|]. destruct (f64_of_f32_ok _ KO) as (neg & mag & X).
      rewrite (dimm_put _ _ _ _ _ _ _ _ X). destruct (f64_parts _ _ _ X) as ((_ & M) & T & _). rewrite M, T. reflexivity.
    - apply last_split in S as (-> & K); [|reflexivity]. cbn [removelast last] in *. rd R. rewrite K in *.
      exists (f64_of_Z z). split; [reflexivity|]. destruct (f64_of_Z_ok z) as (mag & X & NZ).
      rewrite (dimm_put _ _ _ _ _ _ _ _ X), (f64_Z_sign _ _ X NZ). reflexivity.
    - exists f64_qnan. split; [reflexivity|]. rewrite shl_one by reflexivity.
      destruct S as [(S & ->)|[(S & ->)|(S & ->)]]; (apply last_split in S as (-> & K); [|reflexivity]); cbn [removelast last] in *;
        rd R; [unfold id in K|..]; gg; opeq.
    - exists f64_inf. split; [reflexivity|]. rewrite shl_one by reflexivity.
      destruct S as [(S & ->)|[(S & ->)|(S & ->)]]; (apply last_split in S as (-> & K); [|reflexivity]); cbn [removelast last] in *;
        rd R; [unfold id in K|..]; gg; opeq.
  Qed.
  Ltac nonempty S := destruct (exists_last (l := S)) .
  Lemma m_dimm : meets ls pc ODimm.
  Proof.
    start; unfold assemble_double_immediate in *; fold (dimm_value (St c t (Opcode w ru sc))) in *.
    - inv_bind H. destruct x as (x, [c1 t1 op1]). apply dimm_value_fwd in Hx as (ks & neg & R & S & ->); [|exact KO].
      rewrite dimm_bits in H. repeat xs H.
      exists (ks ++ [kind t1]), (N.lor (place (x mod 2 ^ 63 / 2 ^ 44) 20) (flag_bit neg 56)), 0%N.
      split; [eapply reads_app; [exact R|mk]|]. split; [cbn [spells]; eauto 8|].
      rewrite (N.lor_comm (place _ _)). opeq.
    - destruct S as (mag & neg & S & -> & ->).
      assert (exists ks0 k, ks = ks0 ++ [k]) as (ks0 & k & ->).
      { destruct (exists_last (l := ks)) as (a & b0 & Q); [|eauto]. intros ->. unfold double, signed_name in S.
        repeat match goal with H : _ \/ _ |- _ => destruct H | H : exists _, _ |- _ => destruct H | H : _ /\ _ |- _ => destruct H end; discriminate. }
      apply reads_split in R as (t1 & c1 & R1 & R2). rd R2.
      destruct (dimm_value_bwd c t w ru sc mag neg c1 t1 ks0 KO R1 S) as (x & <- & ->).
      cbn [bind]. rewrite dimm_bits. gg. rewrite (N.lor_comm (place _ _)). opeq.
  Qed.

  (** Half precision. *)
  Definition neg_bits (nb : option N) (neg : bool) : N := match nb with Some a => flag_bit neg a | None => 0%N end.
  Definition half_value (nb : option N) (s : st) : res (N * st) :=
    let put_neg (b : bool) (s : st) : res st :=
      match nb with
      | Some a => if b then put env0 (shl64 1 a) s else Ok s
      | None => Ok s
      end in
    match s_kind s with
    | TFloat f => let* s := put_neg (f32_lt0 f) s in Ok (fp32_to_fp16 f, s)
    | TImm z => let* s := put_neg (z <? 0) s in Ok (fp32_to_fp16 (f32_of_Z z), s)
    | TPlus | TMinus | TIdent _ =>
        let negate := match s_kind s with TMinus => true | _ => false end in
        let* s := match s_kind s with TIdent _ => Ok s | _ => advance_tok s end in
        let* value :=
          (if equal (s_tok s) "QNAN" then Ok 0x7FFF%N
           else if equal (s_tok s) "INF" then Ok 0x7C00%N
           else fail (s_tok s) FLOAT_MESSAGE) in
        let* s := put_neg negate s in
        Ok (match nb with
            | None => if negate then N.lor value 0x8000 else value
            | Some _ => value
            end, s)
    | _ => fail (s_tok s) FLOAT_MESSAGE
    end.
  Definition half_pattern (nb : option N) (h : N) (neg special : bool) : N :=
    match nb with
    | Some _ => h
    | None => if special && neg then (h + 0x8000)%N else h
    end.
  Lemma half_put : forall nb, match nb with Some a => (a < 64)%N | None => True end -> forall neg c t w ru sc,
    match nb with
    | Some a => if neg : bool then put env0 (shl64 1 a) (St c t (Opcode w ru sc)) else Ok (St c t (Opcode w ru sc))
    | None => Ok (St c t (Opcode w ru sc))
    end = Ok (St c t (Opcode (N.lor w (neg_bits nb neg)) ru sc)).
  Proof.
    intros [a|] A neg c t w ru sc; cbn [neg_bits]; [|rewrite N.lor_0_r; reflexivity].
    destruct neg; cbn [flag_bit]; [rel; rewrite shl_one by exact A; reflexivity|rewrite N.lor_0_r; reflexivity].
  Qed.
  Lemma half_value_iff : forall nb, match nb with Some a => (a < 64)%N | None => True end ->
    forall c t w ru sc x c1 t1 op1, kind_ok (kind t) ->
    (half_value nb (St c t (Opcode w ru sc)) = Ok (x, St c1 t1 op1) <->
    exists ks h neg special, reads t c ks t1 c1 /\ half (ks ++ [kind t1]) h neg special /\
      x = half_pattern nb h neg special /\
      op1 = Opcode (N.lor w (neg_bits nb neg)) ru sc).
  Proof.
    intros nb A c t w ru sc x c1 t1 op1 KO. pose proof (half_put nb A) as HP. unfold half_value.
    unfold s_kind. cbn [s_tok]. cbv zeta. 
    assert (NM : forall neg,
       match nb with None => if neg : bool then N.lor 0x7FFF 0x8000 else 0x7FFF%N | Some _ => 0x7FFF%N end = half_pattern nb 0x7FFF neg true /\
       match nb with None => if neg then N.lor 0x7C00 0x8000 else 0x7C00%N | Some _ => 0x7C00%N end = half_pattern nb 0x7C00 neg true)
      by (intros neg; destruct nb, neg; split; reflexivity).
    split.
    - intros H.
      assert (G : forall neg c2 t2 ks, reads t c ks t2 c2 -> (forall s, signed_name s (ks ++ [id s]) neg) ->
        (let* value :=
          (if equal t2 "QNAN" then Ok 0x7FFF%N
           else if equal t2 "INF" then Ok 0x7C00%N
           else fail t2 FLOAT_MESSAGE) in
         let* s := match nb with Some a => if neg : bool then put env0 (shl64 1 a) (St c2 t2 (Opcode w ru sc)) else Ok (St c2 t2 (Opcode w ru sc)) | None => Ok (St c2 t2 (Opcode w ru sc)) end in
         Ok (match nb with
            | None => if neg then N.lor value 0x8000 else value
            | Some _ => value
            end, s)) = Ok (x, St c1 t1 op1) ->
        exists ks h neg special, reads t c ks t1 c1 /\ half (ks ++ [kind t1]) h neg special /\
          x = half_pattern nb h neg special /\ op1 = Opcode (N.lor w (neg_bits nb neg)) ru sc).
      { intros neg c2 t2 ks R S Q. destruct (NM neg) as (N1 & N2).
        eqcase t2 "QNAN"; [|eqcase t2 "INF"; [|discriminate Q]]; cbn [bind] in Q; rewrite HP in Q; cbn [bind] in Q;
          rewrite ?N1, ?N2 in Q; apply ok_pair in Q as (<- & <- & <- & <-).
        - exists ks, 0x7FFF%N, neg, true. rewrite E. split; [exact R|]. split; [|auto]. right. right. left. auto.
        - exists ks, 0x7C00%N, neg, true. rewrite E0. split; [exact R|]. split; [|auto]. right. right. right. auto. }
      destruct (kind t) eqn:K; try discriminate H.
      + apply (G false c t []); [constructor|left; auto|exact H].
      + rewrite HP in H. cbn [bind] in H. apply ok_pair in H as (<- & <- & <- & <-).
        exists [], (fp32_to_fp16 (f32_of_Z z)), (z <? 0), false. split; [constructor|]. split; [|destruct nb; auto].
        cbn [List.app]. rewrite K. right. left. eauto 8.
      + rewrite HP in H. cbn [bind] in H. apply ok_pair in H as (<- & <- & <- & <-).
        exists [], (fp32_to_fp16 f32), (f32_lt0 f32), false. split; [constructor|]. split; [|destruct nb; auto].
        cbn [List.app]. rewrite K. left. exists f32. rewrite f32_lt0_spec by exact KO. auto 8.
      + rel_in H. destruct (tokenize c) as [(t2, c2)| | | | |] eqn:E; try discriminate H. cbn [bind s_tok] in H.
        apply (G false c2 t2 [TPlus]); [mk|right; left; auto|exact H].
      + rel_in H. destruct (tokenize c) as [(t2, c2)| | | | |] eqn:E; try discriminate H. cbn [bind s_tok] in H.
        apply (G true c2 t2 [TMinus]); [mk|right; right; auto|exact H].
    - intros (ks & h & neg & special & R & S & -> & ->). unfold half, signed_name in S.
      destruct S as [(f & S & -> & -> & ->)|[(z & S & -> & -> & ->)|[(S & -> & ->)|(S & -> & ->)]]].
      + apply last_split in S as (-> & K); [|reflexivity]. cbn [removelast last] in *. rd R. rewrite K in *. cbn in KO.
        rewrite HP, f32_lt0_spec by exact KO. destruct nb; reflexivity.
      + apply last_split in S as (-> & K); [|reflexivity]. cbn [removelast last] in *. rd R. rewrite K in *.
        rewrite HP. destruct nb; reflexivity.
      + destruct (NM neg) as (<- & _). specialize (HP neg).
        destruct S as [(S & ->)|[(S & ->)|(S & ->)]]; (apply last_split in S as (-> & K); [|reflexivity]); cbn [removelast last] in *;
          rd R; [unfold id in K|..]; repeat (rewrite ?K, ?K0; unfold advance_tok; cbn [bind s_cur s_tok s_op]; rewrite ?E); rewrite ?equal_true by known; cbn [bind]; rewrite HP; reflexivity.
      + destruct (NM neg) as (_ & <-). specialize (HP neg).
        destruct S as [(S & ->)|[(S & ->)|(S & ->)]]; (apply last_split in S as (-> & K); [|reflexivity]); cbn [removelast last] in *;
          rd R; [unfold id in K|..]; repeat (rewrite ?K, ?K0; unfold advance_tok; cbn [bind s_cur s_tok s_op]; rewrite ?E);
          rewrite (equal_false _ "QNAN") by known; rewrite equal_true by known; cbn [bind]; rewrite HP; reflexivity.
  Qed.
  Lemma half_lt : forall nb ks h neg special, half ks h neg special -> (half_pattern nb h neg special < 2 ^ 16)%N.
  Proof.
    intros nb ks h neg special [(f & _ & -> & -> & _)|[(z & _ & -> & -> & _)|[(_ & -> & ->)|(_ & -> & ->)]]];
      unfold half_pattern; cbn [andb]; try (destruct nb; apply fp16_lt); destruct nb, neg; reflexivity.
  Qed.
  Lemma m_half : forall n a nb, (n = 9 /\ a + 9 <= 64 \/ n = 16 /\ a + 16 <= 64)%N ->
    match nb with Some s => (s < 64)%N | None => True end -> meets ls pc (OHalf n a nb).
  Proof.
    intros n a nb N A.
    assert (B : forall x, (x < 2 ^ 16)%N -> (if N.eqb n 9 then shl64 (N.shiftr (u16 (N.shiftl x 1)) 7) a else shl64 x a) =
                     if N.eqb n 9 then place (x mod 2 ^ 15 / 2 ^ 6) a else place x a).
    { intros x L. destruct N as [(-> & N)|(-> & N)]; cbn [N.eqb Pos.eqb].
      - now apply half9_bits.
      - now apply (shl_place _ _ 16). }
    assert (SP : forall ks k h neg special,
       half ks h neg special -> spells (find_label ls) pc (OHalf n a nb) 0 ks k (N.lor (neg_bits nb neg)
         (let x := half_pattern nb h neg special in if N.eqb n 9 then place (x mod 2 ^ 15 / 2 ^ 6) a else place x a)) 0).
    { intros ks k h neg special H. exists h, neg, special. split; [exact H|]. split; [reflexivity|].
      unfold half_pattern. destruct nb; reflexivity. }
    start; unfold assemble_half_float_immediate in *; fold (half_value nb (St c t (Opcode w ru sc))) in *.
    - cbv zeta in H. fold (half_value nb (St c t (Opcode w ru sc))) in H.
      inv_bind H. destruct x as (x, [c1 t1 op1]). apply half_value_iff in Hx as (ks & h & neg & special & R & S & -> & ->); [|exact A|exact KO].
      pose proof (half_lt nb _ _ _ _ S) as L. specialize (B _ L).
      exists (ks ++ [kind t1]). eexists _, 0%N. split; [|split; [apply (SP _ TNone _ _ _ S)|]].
      + eapply reads_app; [exact R|]. destruct N as [(-> & N)|(-> & N)]; cbn [N.eqb Pos.eqb] in *; repeat xs H; mk.
      + cbv zeta. rewrite <- B. destruct N as [(-> & N)|(-> & N)]; cbn [N.eqb Pos.eqb] in *; repeat xs H; opeq.
    - destruct S as (h & neg & special & S & -> & Q).
      assert (b = N.lor (neg_bits nb neg) (let x := half_pattern nb h neg special in if N.eqb n 9 then place (x mod 2 ^ 15 / 2 ^ 6) a else place x a)) as ->.
      { unfold half_pattern, neg_bits. destruct nb; exact Q. }
      pose proof (half_lt nb _ _ _ _ S) as L. specialize (B _ L). clear Q.
      assert (exists ks0 k, ks = ks0 ++ [k]) as (ks0 & k & ->).
      { destruct (exists_last (l := ks)) as (a0 & b0 & Q); [|eauto]. intros ->. unfold half, signed_name in S.
        repeat match goal with H : _ \/ _ |- _ => destruct H | H : exists _, _ |- _ => destruct H | H : _ /\ _ |- _ => destruct H end; discriminate. }
      apply reads_split in R as (t1 & c1 & R1 & R2). rd R2. cbv zeta. fold (half_value nb (St c t (Opcode w ru sc))).
      rewrite (proj2 (half_value_iff nb A c t w ru sc (half_pattern nb h neg special) c1 t1 (Opcode (N.lor w (neg_bits nb neg)) ru sc) KO)) by eauto 12.
      cbn [bind]. rewrite <- B. destruct N as [(-> & N)|(-> & N)]; cbn [N.eqb Pos.eqb] in *; gg; opeq.
  Qed.

  (** Memory operands. *)
  Definition mem_tail (imm_offset : bool) (addr size shr regster : N) (s : st) : res st :=
    let* s := put env0 (shl64 regster 8) s in
    let* s :=
      match imm_offset, s_kind s with
      | true, TImm _ =>
          let is_zero_reg := N.eqb regster ZERO_REGISTER in
          let min := if is_zero_reg then 0 else - 2 ^ (Z.of_N size - 1) in
          let max := Z.of_N (max_bits (if is_zero_reg then size else size - 1)) in
          let* v := convert_integer s min max in
          let v := N.shiftr v shr in
          let* s := put env0 (shl64 (N.land v (max_bits size)) addr) s in
          advance_tok s
      | _, _ => Ok s
      end in
    let* s := confirm_type ty_rbrack s in
    advance_tok s.
  Definition offset_ok (size n : N) (o : Z) : Prop :=
    if N.eqb n 255 then 0 <= o < 2 ^ Z.of_N size
    else - 2 ^ (Z.of_N size - 1) <= o < 2 ^ (Z.of_N size - 1).
  Lemma offset_range : forall size n o, (1 <= size)%N ->
    ((if N.eqb n ZERO_REGISTER then 0 else - 2 ^ (Z.of_N size - 1)) <= o <=
     Z.of_N (max_bits (if N.eqb n ZERO_REGISTER then size else size - 1)) <-> offset_ok size n o).
  Proof.
    intros size n o L. unfold offset_ok. change ZERO_REGISTER with 255%N.
    destruct (N.eqb n 255); rewrite Z_max_bits; [lia|]. rewrite N2Z.inj_sub by exact L. change (Z.of_N 1) with 1. lia.
  Qed.
  Lemma mem_tail_iff : forall imm addr size shr n c t w ru sc c' t' op',
    (shr + size <= 64)%N -> (addr + size <= 64)%N -> (1 <= size)%N -> (n < 256)%N ->
    (mem_tail imm addr size shr n (St c t (Opcode w ru sc)) = Ok (St c' t' op') <->
     exists ki o, ((ki = [] /\ o = 0) \/ (imm = true /\ ki = [TImm o] /\ offset_ok size n o)) /\
       reads t c (ki ++ [TRbrack]) t' c' /\
       op' = Opcode (N.lor w (N.lor (place n 8) (place (Z.to_N ((o / 2 ^ Z.of_N shr) mod 2 ^ Z.of_N size)) addr))) ru sc).
  Proof.
    intros imm addr size shr n c t w ru sc c' t' op' L A S N. unfold mem_tail.
    rewrite (shl_place n 8 8) by (exact N || lia). rel.
    assert (Z0 : 0 / 2 ^ Z.of_N shr mod 2 ^ Z.of_N size = 0).
    { rewrite Z.div_0_l by (apply Z.pow_nonzero; lia). apply Z.mod_0_l. apply Z.pow_nonzero; lia. }
    split.
    - intros H. inv_bind H. destruct x as [c1 t1 op1]. repeat xs H.
      assert (G : c1 = c -> t1 = t -> op' = Opcode (N.lor w (place n 8)) ru sc ->
        exists ki o, ((ki = [] /\ o = 0) \/ (imm = true /\ ki = [TImm o] /\ offset_ok size n o)) /\
         reads t c (ki ++ [TRbrack]) t' c' /\
         op' = Opcode (N.lor w (N.lor (place n 8) (place (Z.to_N ((o / 2 ^ Z.of_N shr) mod 2 ^ Z.of_N size)) addr))) ru sc).
      { intros -> -> ->. exists [], 0. split; [auto|]. split; [cbn [List.app]; mk|]. rewrite Z0. opeq. }
      destruct imm; [|apply ok_st in Hx as (<- & <- & <-); apply G; reflexivity].
      destruct (kind t) eqn:K0; try (apply ok_st in Hx as (<- & <- & <-); apply G; reflexivity).
      repeat xs Hx. rewrite K1 in K0. injection K0 as ->. apply offset_range in T; [|exact S].
      exists [TImm z], z. split; [auto|]. split; [cbn [List.app]; mk|]. rewrite offset_bits by assumption. opeq.
    - intros (ki & o & [(-> & ->)|(-> & -> & O)] & R & ->); cbn [List.app] in R; rd R.
      + rewrite Z0. rewrite K. destruct imm; cbn [bind]; gg; opeq.
      + apply offset_range in O; [|exact S]. gg. rewrite offset_bits by assumption. gg. opeq.
  Qed.
  Lemma mem_run : forall imm addr size shr c t w ru sc c' t' op',
    (shr + size <= 64)%N -> (addr + size <= 64)%N -> (1 <= size)%N ->
    (run_memory_address env0 imm addr size shr (St c t (Opcode w ru sc)) = Ok (St c' t' op') <->
     exists ks b r, reads t c ks t' c' /\ memory imm addr size shr ks b r /\ op' = Opcode (N.lor w b) (N.lor ru r) sc).
  Proof.
    intros imm addr size shr c t w ru sc c' t' op' L A S. unfold run_memory_address.
    split.
    - intros H. do 3 xs H. rel_in H. pose proof (token_ok _ _ _ E) as KO0.
      assert (G : forall n kr r t1 c1, (n < 256)%N -> reads t0 c0 kr t1 c1 ->
         ((kr = [] /\ n = 255%N /\ r = 0%N) \/ (kr = [TReg n] /\ r = 0%N) \/ (kr = [TReg n; id ".reuse"] /\ r = 1%N)) ->
         mem_tail imm addr size shr n (St c1 t1 (Opcode w (N.lor ru r) sc)) = Ok (St c' t' op') ->
         exists ks b r, reads t c ks t' c' /\ memory imm addr size shr ks b r /\ op' = Opcode (N.lor w b) (N.lor ru r) sc).
      { intros n kr r t1 c1 N R1 KR Q. apply mem_tail_iff in Q as (ki & o & O & R2 & ->); try assumption.
        eexists (TLbrack :: kr ++ ki ++ [TRbrack]), _, r. split; [|split; [|reflexivity]].
        - eapply reads_cons; [known|eassumption|]. eapply reads_app; eassumption.
        - exists kr, ki, n, o. auto. }
      destruct (kind t0) eqn:K0; cbn [bind] in H;
        try (apply (G 255%N [] 0%N t0 c0); [reflexivity|constructor|auto|]; rewrite N.lor_0_r; exact H).
      cbn in KO0. unfold try_reuse in H. change (N.eqb 8 8) with true in H. repeat xs H; cbn [bind] in H.
      + apply (G r [TReg r; id ".reuse"] 1%N t2 c2); [lia|mk|auto|exact H].
      + apply (G r [TReg r] 0%N t1 c1); [lia|mk|auto|]. rewrite N.lor_0_r. exact H.
    - intros (ks & b & r & R & (kr & ki & n & o & -> & KR & KI & ->) & ->).
      inversion R as [|? ? ? t0 c0 ? ? ? K E R']; subst. clear R. apply reads_split in R' as (t1 & c1 & R1 & R2).
      pose proof (token_ok _ _ _ E) as KO0. gg.
      assert (N : (n < 256)%N).
      { destruct KR as [(_ & -> & _)|[(-> & _)|(-> & _)]]; [reflexivity|..]; rd R1; rewrite K0 in KO0; cbn in KO0; lia. }
      pose proof (proj2 (mem_tail_iff imm addr size shr n c1 t1 w (N.lor ru r) sc c' t' _ L A S N)
        (ex_intro _ ki (ex_intro _ o (conj KI (conj R2 eq_refl))))) as Q.
      destruct KR as [(-> & -> & ->)|[(-> & ->)|(-> & ->)]]; rd R1; cbn [hd List.app] in *.
      + rewrite N.lor_0_r in *.
        assert (K0 : forall n, kind t1 <> TReg n).
        { intros n Q'. destruct KI as [(-> & _)|(_ & -> & _)]; cbn [List.app] in R2; rd R2; congruence. }
        destruct (kind t1); try exact Q. exfalso. eapply K0. reflexivity.
      + rewrite K0. rewrite N.lor_0_r in *. unfold try_reuse. change (N.eqb 8 8) with true. rel. rewrite E0. rel.
        rewrite equal_false; [exact Q|].
        destruct KI as [(-> & _)|(_ & -> & _)]; cbn [List.app] in R2; rd R2; rewrite K1; discriminate.
      + rewrite K0. unfold try_reuse. change (N.eqb 8 8) with true. rel. rewrite E0. rel.
        rewrite equal_true by known. rewrite E1. exact Q.
  Qed.
  Lemma m_mem : forall imm addr size shr, (shr + size <= 64)%N -> (addr + size <= 64)%N -> (1 <= size)%N ->
    meets ls pc (OMemAddress imm addr size shr).
  Proof.
    intros imm addr size shr L A S c t w ru sc c' t' op' KO. cbn [run_operand clears spells]. rewrite N.ldiff_0_r.
    now apply mem_run.
  Qed.
  Lemma m_ldc : meets ls pc OLdcAddress.
  Proof.
    start; unfold run_ldc_address in *; change (Z.of_N (max_bits 5)) with 31 in *.
    - repeat xs H. cbn [negb] in H. apply mem_run in H as (ks & b & r & R & M & ->); try lia.
      rewrite u64_nonneg by (unfold INT64_MAX; lia).
      rewrite (shl_place _ _ 5) by (try apply to_N_lt; lia).
      eexists (id "c" :: TLbrack :: TImm z :: TRbrack :: ks), _, r. split; [|split].
      + repeat (eapply reads_cons; [known|eassumption|]). exact R.
      + cbn [spells]. exists z, ks, b. split; [reflexivity|]. split; [lia|]. split; [exact M|reflexivity].
      + opeq.
    - destruct S as (bank & km & b' & -> & B & M & ->). rd R. gg. rewrite u64_nonneg by (unfold INT64_MAX; lia).
      rewrite (shl_place _ _ 5) by (try apply to_N_lt; lia). gg.
      apply mem_run; try lia. exists km, b', r. split; [assumption|]. split; [exact M|]. opeq.
  Qed.
  Lemma rem_mod4 : forall z, (Z.rem z 4 =? 0) = (z mod 4 =? 0).
  Proof.
    intros z. destruct (Z.eqb_spec (Z.rem z 4) 0) as [E|E], (Z.eqb_spec (z mod 4) 0) as [F|F]; try reflexivity; exfalso.
    - apply F. apply Z.rem_divide in E; [|discriminate]. now apply Z.mod_divide.
    - apply E. apply Z.mod_divide in F; [|discriminate]. now apply Z.rem_divide.
  Qed.
  Lemma m_cbuf : meets ls pc OCbuf.
  Proof.
    assert (OB : forall off, shl64 (N.shiftr (Z.to_N (off mod 65536)) 2) 20 = place (Z.to_N (off mod 2 ^ 16 / 4)) 20).
    { intros off. pose proof (Z.mod_pos_bound off 65536 ltac:(reflexivity)). change (2 ^ 16) with 65536.
      rewrite N.shiftr_div_pow2. change (2 ^ 2)%N with (Z.to_N 4). rewrite <- Z2N.inj_div by lia.
      apply (shl_place _ _ 14); [|lia]. apply to_N_lt. change (2 ^ Z.of_N 14) with 16384.
      split; [apply Z.div_pos; lia|]. apply Z.div_lt_upper_bound; lia. }
    assert (BB : forall z, 0 <= z < 32 -> shl64 (u64_of_Z z) 34 = place (Z.to_N z) 34).
    { intros z L. rewrite u64_nonneg by (unfold INT64_MAX; lia). apply (shl_place _ _ 5); [|lia]. apply to_N_lt. exact L. }
    start; unfold assemble_constant_buffer in *.
    - cbv zeta in H. change (Z.of_N (max_bits 5)) with 31 in H. repeat xs H.
      rewrite s64_u64 in H by (unfold INT64_MIN, INT64_MAX; lia). rewrite rem_mod4 in H.
      destruct (Z.eqb_spec (z0 mod 4) 0) as [M|M]; cbn [negb] in H; [|discriminate H].
      rewrite OB in H. rewrite BB in H by lia. repeat xs H.
      eexists [id "c"; TLbrack; TImm z; TRbrack; TLbrack; TImm z0; TRbrack], _, 0%N. split; [mk|]. split.
      + cbn [spells]. exists z, z0. repeat split; lia.
      + opeq.
    - destruct S as (bank & off & -> & B & O & M & -> & ->). rd R. cbv zeta. change (Z.of_N (max_bits 5)) with 31.
      repeat gs. rewrite s64_u64 by (unfold INT64_MIN, INT64_MAX; lia). rewrite rem_mod4, M. cbn [Z.eqb negb].
      rewrite OB, BB by lia. gg. opeq.
  Qed.

  (** Attributes. *)
  Lemma m_immattr : meets ls pc OImmAttr.
  Proof.
    assert (BB : forall z, 0 <= z < 2 ^ 10 -> shl64 (u64_of_Z z) 20 = place (Z.to_N z) 20).
    { intros z L. change (2 ^ 10) with 1024 in L. rewrite u64_nonneg by (unfold INT64_MAX; lia). apply (shl_place _ _ 10); [|lia]. apply to_N_lt. exact L. }
    start; unfold run_imm_attr, assemble_uint in *; change (Z.of_N (max_bits 10)) with 1023 in *.
    - repeat xs H. eexists [id "a"; TLbrack; TImm z; TRbrack], _, 0%N. split; [mk|]. split.
      + cbn [spells]. exists z. repeat split; lia.
      + rewrite BB by lia. opeq.
    - destruct S as (z & -> & L & -> & ->). rd R. gg. rewrite BB by lia. opeq.
  Qed.
  Lemma reads_tail : forall t c ks t' c', reads t c ks t' c' -> kind_ok (kind t) -> kind_ok (kind t').
  Proof. intros t c ks t' c' R K. eapply reads_ok; eassumption. Qed.
  Lemma m_phys : meets ls pc OPhysAttr.
  Proof.
    start; unfold run_phys_attr in *.
    - xs H; [|repeat xs H]. cbn [negb] in H. repeat xs H. rel_in H. inv_bind H. destruct x as [c3 t3 op3]. 
      apply gpr_run in Hx as (ks & n & r & R & G & N & ->); [|eapply token_ok; eassumption|lia].
      repeat xs H. eexists (id "a" :: TLbrack :: ks ++ [TRbrack]), (place n 8), r. split; [|split].
      + repeat (eapply reads_cons; [known|eassumption|]). eapply reads_app; [exact R|mk].
      + cbn [spells]. exists ks, n. split; [reflexivity|]. split; [|reflexivity]. exact G.
      + opeq.
    - destruct S as (kr & n & -> & G & ->). rd R. gg.
      assert (KO1 : kind_ok (kind t1)) by (eapply token_ok; eassumption).
      assert (N : (n < 256)%N) by (eapply (register_lt 8); [exact KO1|exact R0|rewrite K1; exact G]).
      rewrite (proj2 (gpr_run 8 c1 t1 w ru sc c2 t2 (Opcode (N.lor w (place n 8)) (N.lor ru r) sc) KO1 ltac:(lia)))
        by (exists kr, n, r; rewrite K1; auto).
      gg. opeq.
  Qed.
  Lemma m_patch : meets ls pc OPatchAttr.
  Proof.
    start; unfold run_patch_attr in *.
    - xs H; [|repeat xs H]. cbn [negb] in H. repeat xs H. rel_in H. inv_bind H. destruct x as [c3 t3 op3].
      apply gpr_run in Hx as (ks & n & r & R & G & N & ->); [|eapply token_ok; eassumption|lia].
      assert (Q : exists kp t4 c4, (kp = [] \/ kp = [TPlus]) /\ reads t3 c3 kp t4 c4 /\
        (let* s := assemble_int env0 11 20 (St c4 t4 (Opcode (N.lor w (place n 8)) (N.lor ru r) sc)) in
         let* s := confirm_type ty_rbrack s in advance_tok s) = Ok (St c' t' op')).
      { rel_in H. destruct (ttype_eqb (type_of (kind t3)) ty_plus) eqn:P.
        - destruct (kind t3) eqn:K3; try discriminate P. repeat xs H.
          eexists [TPlus], _, _. split; [auto|]. split; [mk|exact H].
        - exists [], t3, c3. split; [auto|]. split; [constructor|exact H]. }
      clear H. destruct Q as (kp & t4 & c4 & KP & R4 & H). unfold assemble_int in H.
      change (- 2 ^ (Z.of_N 11 - 1)) with (-1024) in H. change (2 ^ (Z.of_N 11 - 1) - 1) with 1023 in H. repeat xs H.
      rewrite int_bits in * by lia.
      eexists (id "a" :: TLbrack :: ks ++ kp ++ [TImm z; TRbrack]), _, r. split; [|split].
      + repeat (eapply reads_cons; [known|eassumption|]). eapply reads_app; [exact R|].
        eapply reads_app; [exact R4|mk].
      + cbn [spells]. exists ks, kp, z, n. split; [reflexivity|]. split; [|split; [exact KP|split; [lia|reflexivity]]].
        destruct G as [(-> & _ & ->)|G]; [left; repeat split; discriminate|right; exact G].
      + opeq.
    - destruct S as (kr & kp & z & n & -> & G & KP & Z & ->). change (- 2 ^ 10) with (-1024) in Z. change (2 ^ 10) with 1024 in Z.
      inversion R as [|? ? ? t1 c1 ? ? ? K1 E1 R1]; subst; clear R.
      inversion R1 as [|? ? ? t2 c2 ? ? ? K2 E2 R2]; subst; clear R1.
      apply reads_split in R2 as (t3 & c3 & R2 & R3). apply reads_split in R3 as (t4 & c4 & R3 & R4). gg.
      assert (KO1 : kind_ok (kind t2)) by (eapply token_ok; eassumption).
      assert (G' : register 8 kr (kind t3) n r).
      { destruct G as [(-> & _ & ->)|G]; [left|right; exact G]. repeat split. intros Q.
        destruct KP as [-> | ->]; rd R3; rd R4; unfold id in *; congruence. }
      assert (N : (n < 256)%N) by (eapply (register_lt 8); [exact KO1|exact R2|exact G']).
      rewrite (proj2 (gpr_run 8 c2 t2 w ru sc c3 t3 (Opcode (N.lor w (place n 8)) (N.lor ru r) sc) KO1 ltac:(lia)))
          by (exists kr, n, r; auto).
      assert (Q : (let* s := assemble_int env0 11 20 (St c4 t4 (Opcode (N.lor w (place n 8)) (N.lor ru r) sc)) in
         let* s := confirm_type ty_rbrack s in advance_tok s) =
         Ok (St c' t' (Opcode (N.lor (N.lor w (place n 8)) (place (Z.to_N (z mod 2 ^ 11)) 20)) (N.lor ru r) sc))).
      { rd R4. unfold assemble_int. change (- 2 ^ (Z.of_N 11 - 1)) with (-1024). change (2 ^ (Z.of_N 11 - 1) - 1) with 1023.
        gg. rewrite int_bits by lia. reflexivity. }
      destruct KP as [-> | ->]; rd R3; gg.
      + assert (P : ttype_eqb (type_of (kind t4)) ty_plus = false) by (rd R4; match goal with K : kind t4 = _ |- _ => rewrite K end; reflexivity).
        rewrite P. rel. rel_in Q. rewrite Q. opeq.
      + match goal with K : kind t3 = _ |- _ => rewrite K end. cbn [type_of ttype_eqb]. gg. rel_in Q. rewrite Q. opeq.
  Qed.

  (** Textures. *)
  Lemma m_texsmode : forall a, (a + 3 <= 64)%N -> meets ls pc (OTexsMode a).
  Proof.
    intros a A.
    assert (P : forall v, (v < 8)%N -> shl64 v a = place v a) by (intros v L; now apply (shl_place _ _ 3)).
    start; unfold run_texs_mode, LOD_LZ, LOD_LL, LOD_NONE in *.
    - xs H; [|xs H]; repeat xs H; rewrite P by reflexivity.
      + exists [id ".LZ"; id ".DC"], (place 6 a), 0%N. split; [mk|]. split; [|opeq]. cbn [spells].
        exists [id ".LZ"], [id ".DC"], 2%N, 4%N. auto 8.
      + exists [id ".LZ"], (place 2 a), 0%N. split; [mk|]. split; [|opeq]. cbn [spells].
        exists [id ".LZ"], [], 2%N, 0%N. auto 8.
      + exists [id ".LL"; id ".DC"], (place 5 a), 0%N. split; [mk|]. split; [|opeq]. cbn [spells].
        exists [id ".LL"], [id ".DC"], 1%N, 4%N. auto 8.
      + exists [id ".LL"], (place 1 a), 0%N. split; [mk|]. split; [|opeq]. cbn [spells].
        exists [id ".LL"], [], 1%N, 0%N. auto 8.
      + exists [id ".DC"], (place 4 a), 0%N. split; [mk|]. split; [|opeq]. cbn [spells].
        exists [], [id ".DC"], 0%N, 4%N. repeat split; [|auto]. right. right. repeat split; discriminate.
      + exists [], (place 0 a), 0%N. split; [mk|]. split; [|opeq]. cbn [spells].
        exists [], [], 0%N, 0%N. repeat split; [|auto]. right. right. auto.
    - destruct S as (kl & kd & lod & dc & -> & -> & -> & [(-> & ->)|[(-> & ->)|(-> & -> & Z1 & Z2)]] & [(-> & ->)|(-> & -> & D)]);
        cbn [List.app hd] in *; rd R; gg; rewrite P by reflexivity; opeq.
  Qed.

  Lemma texture_entry : forall tbl k i, entry tbl "" k i -> kind_ok k ->
    exists s, k = id s /\ In (s, i) (named "" tbl) /\ s <> "".
  Proof.
    intros tbl k i (s & H & -> & _) KO. exists s. split; [reflexivity|]. split.
    - apply named_in. exists s. rewrite Nat.sub_0_r. repeat split; [lia|exact H].
    - intros ->. cbn in KO. apply KO. reflexivity.
  Qed.
  Lemma m_tlds : forall a, (a + 4 <= 64)%N -> meets ls pc (OTldsType a).
  Proof.
    intros a A.
    assert (P : forall v, (v < 16)%N -> shl64 v a = place v a) by (intros v L; now apply (shl_place _ _ 4)).
    assert (C : forall w, andnot w (shl64 7 a) = N.ldiff w (place 7 a)).
    { intros w. unfold andnot. rewrite P by reflexivity. reflexivity. }
    start; unfold run_tlds_type in *; cbv zeta in *; cbn [s_tok s_op value set_value reuse sched] in *; rewrite ?C in *.
    - unfold set_value in H. cbn [s_tok s_op s_cur value reuse sched] in H.
      xfind H; [|discriminate H]. destruct (texture_entry _ _ _ F KO) as (s & K & I & _). clear F.
      destruct (N.testbit w a) eqn:B0, (N.testbit w (a + 1)) eqn:B1, (N.testbit w (a + 2)) eqn:B2; inl I;
        cbn [bind andb] in H; try discriminate H; repeat xs H; rewrite P by reflexivity;
        (match goal with |- context [place ?m a] =>
          match goal with K : kind ?t = id ?s |- _ => exists [id s], (place m a), 0%N; split; [mk|]; split; [|opeq];
            cbn [spells]; rewrite B0, B1, B2; exists s, m; split; [cbn [In tlds_codes]; tauto|auto] end end).
    - destruct S as (s & code & I & -> & -> & ->). rd R.
      unfold set_value. cbn [s_tok s_op s_cur value reuse sched].
      assert (D : forall i s', In (s', i) (named "" ["1D"; "2D"; "3D"; "ARRAY_2D"]) -> s' = s ->
         find_in_table true ["1D"; "2D"; "3D"; "ARRAY_2D"] "" t = Ok (Some i)).
      { intros i s' I' ->. apply find_some. apply entry_named; [apply distinct_NoDup; reflexivity|]. eauto. }
      destruct (N.testbit w a) eqn:B0, (N.testbit w (a + 1)) eqn:B1, (N.testbit w (a + 2)) eqn:B2;
      cbn [In tlds_codes] in I; repeat (destruct I as [I|I]; [try discriminate I; injection I as <- <-|]); try destruct I;
      (match goal with K : kind t = id ?s |- _ =>
        let ok := (solve [cbn; auto 6 | reflexivity]) in
        first [rewrite (D 0%N s) by ok|rewrite (D 1%N s) by ok|rewrite (D 2%N s) by ok|rewrite (D 3%N s) by ok] end); cbn [bind andb];
      rewrite P by reflexivity; gg; opeq.
  Qed.

  Lemma m_swizzle : meets ls pc OTexsSwizzle.
  Proof.
    assert (AS : forall t l bits, assoc_text l t = Some bits -> exists s, kind t = id s /\ In (s, bits) l).
    { intros t l bits. induction l as [|(s, v) l IH]; cbn; [discriminate|].
      eqcase t s; [intros [= <-]; eauto|]. intros H. destruct (IH H) as (s' & K & I). eauto. }
    assert (AN : forall t l s bits, kind t = id s -> In (s, bits) l -> NoDup (map fst l) -> assoc_text l t = Some bits).
    { intros t l s bits K. induction l as [|(s', v) l IH]; cbn; [intros []|]. intros [[= -> ->]|I] D.
      - rewrite equal_true by exact K. reflexivity.
      - inversion D; subst. rewrite equal_false; [auto|]. rewrite K. intros Q. apply id_inj in Q as <-.
        apply H1. apply (in_map fst) in I. exact I. }
    assert (P1 : texs_swizzle_one = map (fun p => (fst p, place (snd p) 50)) swizzles_one) by reflexivity.
    assert (P2 : texs_swizzle_two = map (fun p => (fst p, place (snd p) 50)) swizzles_two) by reflexivity.
    assert (P : forall b : bool, (if b then texs_swizzle_one else texs_swizzle_two) =
                map (fun p => (fst p, place (snd p) 50)) (if b then swizzles_one else swizzles_two)) by (intros []; assumption).
    assert (D : forall b : bool, NoDup (map fst (if b then texs_swizzle_one else texs_swizzle_two))).
    { intros []; apply distinct_NoDup; reflexivity. }
    start; unfold run_texs_swizzle in *; cbv zeta in *; cbn [s_op s_tok value] in *;
      change (N.land (N.shiftr w 28) 255) with (field w 28 8) in *.
    - destruct (assoc_text _ _) as [bits|] eqn:Q in H; [|discriminate H]. apply AS in Q as (s & K & I).
      rewrite P in I. apply in_map_iff in I as ((s', v) & [= -> <-] & I). cbn [fst snd] in *. repeat xs H.
      exists [id s], (place v 50), 0%N. split; [mk|]. split; [cbn [spells]; exists s, v; split; [exact I|split; [reflexivity|split; reflexivity]]|cbn [clears]; rewrite N.ldiff_0_r, (N.lor_0_r ru); reflexivity].
    - destruct S as (s & v & I & -> & -> & ->). rd R.
      rewrite (AN t _ s (place v 50) K); [gg; cbn [clears]; rewrite N.ldiff_0_r, (N.lor_0_r ru); reflexivity| |apply D].
      rewrite P. apply in_map_iff. exists (s, v). split; [reflexivity|exact I].
  Qed.
End Run.
