(** * Floats: floating-point literals and the immediates they become. *)
From Verif Require Import Base Float Lexer Operand Catalogue Table Parse Assemble Spec SpecOperand SpecInsn Bits LexFacts
  SchedFuel Param Reach ParseFacts Outcomes Decode Program Footprint Encode Operands Operands2 Operands3 Quiet Notes Insn Words Clash Recover Fields Fields3
  Position Literals SpecLex Lexemes Stream Cut Where Text SpecFloat Round Half.
From Coq Require Import Lia.
Local Open Scope string_scope.
Local Open Scope list_scope.
Open Scope Z_scope.

(** ** Exact values *)
Lemma representable : forall p x q, 2 <= p -> 0 <= x -> 0 <= q < 2 * 2 ^ (p - 1) -> exists k, 0 <= k /\ scaled p k = q * 2 ^ x.
Proof.
  intros p x q P X. revert q. replace x with (Z.of_nat (Z.to_nat x)) by lia. induction (Z.to_nat x) as [|n IH]; intros q Q.
  - exists (0 * 2 ^ (p - 1) + q). split; [lia|]. apply (scaled_at p); lia.
  - destruct (Z.lt_ge_cases q (2 ^ (p - 1))) as [L|L].
    + destruct (IH (2 * q) ltac:(lia)) as (k & K & E). exists k. split; [exact K|]. rewrite E, Nat2Z.inj_succ, Z.pow_succ_r by lia. ring.
    + exists (Z.of_nat (S n) * 2 ^ (p - 1) + q). split; [|apply (scaled_at p); lia].
      assert (0 < 2 ^ (p - 1)) by (apply Z.pow_pos_nonneg; lia). nia.
Qed.
(** If some pattern is exact, the nearest is. *)
Lemma nearest_exact : forall p emin inf num den k k0, 0 < den -> 2 <= p -> nearest p emin inf num den k -> 0 <= k0 -> 0 < inf ->
  num * 2 ^ (- emin) = scaled p k0 * den -> scaled p k0 < scaled p inf -> k = k0.
Proof.
  intros p emin inf num den k k0 D P [K N] K0 I E L.
  assert (k0 < inf). { destruct (Z.lt_ge_cases k0 inf) as [|G]; [assumption|]. pose proof (scaled_le p P inf k0 ltac:(lia)). lia. }
  destruct (Z.eq_dec k k0) as [|NE]; [assumption|]. exfalso. specialize (N k0 ltac:(lia) ltac:(auto)).
  unfold apart in N. rewrite E in N. rewrite Z.sub_diag in N.
  destruct (Z.lt_ge_cases k k0) as [C|C].
  - pose proof (scaled_lt p P k k0 ltac:(lia)). nia.
  - pose proof (scaled_lt p P k0 k ltac:(lia)). nia.
Qed.

(** The fields of a binary32 pattern. *)
Lemma f32_parts : forall f, f32_neg f = N.testbit f 31 /\ f32_exp f = (f mod 2 ^ 31 / 2 ^ 23)%N /\ f32_man f = (f mod 2 ^ 31 mod 2 ^ 23)%N.
Proof.
  intros f. split; [reflexivity|]. split.
  - unfold f32_exp. change 255%N with (N.ones 8). rewrite N.land_ones, N.shiftr_div_pow2.
    change (2 ^ 31)%N with (2 ^ 23 * 2 ^ 8)%N. rewrite N.mod_mul_r by discriminate.
    rewrite (N.mul_comm (2 ^ 23)), N.div_add by discriminate.
    rewrite (N.div_small (f mod 2 ^ 23)) by (apply N.mod_lt; discriminate). reflexivity.
  - unfold f32_man. change 0x7FFFFF%N with (N.ones 23). rewrite N.land_ones.
    change (2 ^ 31)%N with (2 ^ 23 * 2 ^ 8)%N. rewrite N.mod_mul_r by discriminate.
    rewrite (N.mul_comm (2 ^ 23)), N.mod_add by discriminate. rewrite N.mod_mod by discriminate. reflexivity.
Qed.
Lemma scaled_single : forall m, (m < 2 ^ 31)%N -> let e := Z.of_N (m / 2 ^ 23) in let f := Z.of_N (m mod 2 ^ 23) in
  scaled 24 (Z.of_N m) = if e =? 0 then f else (f + 2 ^ 23) * 2 ^ (e - 1).
Proof.
  intros m M e f. unfold scaled. change (24 - 1) with 23.
  assert (E : Z.of_N m / 2 ^ 23 = e) by (unfold e; rewrite N2Z.inj_div; reflexivity).
  assert (F : Z.of_N m mod 2 ^ 23 = f) by (unfold f; rewrite N2Z.inj_mod; reflexivity).
  rewrite E, F. pose proof (Z.div_mod (Z.of_N m) (2 ^ 23) ltac:(lia)) as DM. rewrite E, F in DM.
  pose proof (Z.mod_pos_bound (Z.of_N m) (2 ^ 23) ltac:(lia)) as B. rewrite F in B. assert (0 <= e) by lia.
  destruct (Z.eqb_spec e 0) as [Z0|Z0]; destruct (Z.ltb_spec (Z.of_N m) (2 ^ 23)); lia.
Qed.
Theorem widened_ok : forall f, (f < 2 ^ 32)%N -> (f mod 2 ^ 31 <= 255 * 2 ^ 23)%N -> widened f (f64_of_f32 f).
Proof.
  intros f F M. assert (ML : (f mod 2 ^ 31 < 2 ^ 31)%N) by (apply N.mod_lt; discriminate).
  destruct (f32_parts f) as (E1 & E2 & E3). unfold f64_of_f32. rewrite E1, E2, E3. set (m := (f mod 2 ^ 31)%N) in *.
  assert (S : (f / 2 ^ 31 < 2)%N) by (apply N.div_lt_upper_bound; [discriminate|exact F]).
  assert (T : (if N.testbit f 31 then 1 else 0)%N = (f / 2 ^ 31)%N).
  { rewrite N.testbit_eqb, N.mod_small by exact S. destruct (N.eqb_spec (f / 2 ^ 31) 1); lia. }
  pose proof (N.div_mod m (2 ^ 23) ltac:(discriminate)) as DM. assert (FL : (m mod 2 ^ 23 < 2 ^ 23)%N) by (apply N.mod_lt; discriminate).
  unfold widened. fold m. destruct (N.eqb_spec (m / 2 ^ 23) 255) as [X|X].
  - assert (Z0 : (m mod 2 ^ 23 = 0)%N) by lia. rewrite Z0. change (0 =? 0)%N with true. cbv iota.
    assert (MI : m = (255 * 2 ^ 23)%N) by lia. rewrite MI, N.eqb_refl.
    destruct (with_sign_split (N.testbit f 31) 63 f64_inf eq_refl) as [A B]. change (2 ^ 63)%N with f64_sign in A at 1, B at 1.
    rewrite A, B, T. split; reflexivity.
  - assert (MI : (m <> 255 * 2 ^ 23)%N) by (intros MI; apply X; rewrite MI; reflexivity).
    destruct (N.eqb_spec m (255 * 2 ^ 23)) as [|_]; [contradiction|].
    pose proof (scaled_single m ML) as SS. cbv zeta in SS.
    set (e := Z.of_N (m / 2 ^ 23)) in *. set (h := Z.of_N (m mod 2 ^ 23)) in *. rewrite <- SS.
    assert (V0 : 0 <= scaled 24 (Z.of_N m)) by (rewrite <- (scaled_0 24 ltac:(lia)); apply (scaled_le 24); lia).
    destruct (double_rounding (N.testbit f 31) (scaled 24 (Z.of_N m)) (2 ^ 149) V0 eq_refl) as [A B].
    rewrite A, T. split; [reflexivity|].
    assert (H0 : 0 <= h < 2 ^ 23) by (unfold h; lia). assert (E0 : 0 <= e <= 254) by (unfold e; lia).
    assert (R : exists k, 0 <= k /\ scaled 53 k = scaled 24 (Z.of_N m) * 2 ^ (1074 - 149)).
    { rewrite SS. clear - H0 E0. destruct (Z.eqb_spec e 0) as [Z0|Z0].
      - destruct (representable 53 (1074 - 149) h) as (k & K & E); [lia|lia|change (2 * 2 ^ (53 - 1)) with (2 ^ 53); lia|]. exists k. auto.
      - destruct (representable 53 (1074 - 149 + (e - 1)) (h + 2 ^ 23)) as (k & K & E); [lia|lia|change (2 * 2 ^ (53 - 1)) with (2 ^ 53); lia|].
        exists k. split; [exact K|]. rewrite E, Z.pow_add_r by lia. ring. }
    destruct R as (k & K & E).
    assert (L : scaled 53 k < scaled 53 inf64).
    { rewrite E. apply Z.lt_le_trans with (scaled 24 (Z.of_N (255 * 2 ^ 23)) * 2 ^ (1074 - 149)).
      - apply Z.mul_lt_mono_pos_r; [reflexivity|]. apply (scaled_lt 24); lia.
      - apply Z.leb_le. vm_compute. reflexivity. }
    assert (EQ : Z.of_N (f64_of_ratio (N.testbit f 31) (scaled 24 (Z.of_N m)) (2 ^ 149) mod 2 ^ 63) = k).
    { eapply (nearest_exact 53 (-1074) inf64); try exact B; try reflexivity; try lia; try exact L. }
    rewrite EQ. split; [|exact E]. destruct (Z.lt_ge_cases k inf64) as [|G]; [assumption|]. pose proof (scaled_le 53 ltac:(lia) inf64 k ltac:(split; [discriminate|exact G])). lia.
Qed.

(** ** Literals *)
Theorem float_value : forall g s neg v k q, gap g (s ++ q) -> fraction s neg v k -> ends q ->
  exists f, reads (g ++ s ++ q) (TFloat f) q /\ single_of neg v (10 ^ k) f.
Proof.
  intros g s neg v k q GP F E. exists (f32_of_ratio neg v (10 ^ k)). split; [apply literal_fraction; assumption|].
  destruct F as (sg & ip & fp & _ & _ & _ & D & ->). apply single_rounding; [|apply Z.pow_pos_nonneg; lia]. exact (denotes_nonneg 10 _ _ ltac:(lia) D).
Qed.

Lemma single_lt32 : forall neg num den f, single_of neg num den f -> (f < 2 ^ 32)%N /\ (f mod 2 ^ 31 <= 255 * 2 ^ 23)%N /\ neg = N.testbit f 31.
Proof.
  intros neg num den f [S [[_ K] _]]. pose proof (N.div_mod f (2 ^ 31) ltac:(discriminate)) as DM.
  assert (M : (f mod 2 ^ 31 < 2 ^ 31)%N) by (apply N.mod_lt; discriminate).
  split; [destruct neg; lia|]. split; [change inf32 with 2139095040 in K; lia|].
  rewrite N.testbit_eqb, S. destruct neg; reflexivity.
Qed.
Lemma single_unique : forall neg num den f f', 0 < den -> single_of neg num den f -> single_of neg num den f' -> f = f'.
Proof.
  intros neg num den f f' D [S N] [S' N'].
  assert (E : Z.of_N (f mod 2 ^ 31) = Z.of_N (f' mod 2 ^ 31)) by (exact (nearest_unique 24 (-149) inf32 ltac:(discriminate) ltac:(discriminate) eq_refl num den _ _ D N N')).
  rewrite (N.div_mod f (2 ^ 31)), (N.div_mod f' (2 ^ 31)) by discriminate. rewrite S, S'. f_equal. lia.
Qed.
(** Overflow: from half a unit above the largest finite number on. *)
Theorem single_overflow : forall neg num den f, 0 < den -> single_of neg num den f ->
  ((f mod 2 ^ 31 = 255 * 2 ^ 23)%N <-> (2 ^ 128 - 2 ^ 103) * den <= num).
Proof.
  intros neg num den f D [_ [[K0 K] N]]. set (k := Z.of_N (f mod 2 ^ 31)) in *.
  assert (EQ : (f mod 2 ^ 31 = 255 * 2 ^ 23)%N <-> k = inf32) by (unfold k; change inf32 with 2139095040; change (255 * 2 ^ 23)%N with 2139095040%N; lia).
  rewrite EQ. set (V := num * 2 ^ (- -149)) in *.
  assert (A : scaled 24 inf32 * den = 2 ^ 277 * den) by reflexivity.
  assert (B : scaled 24 (inf32 - 1) * den = (2 ^ 277 - 2 ^ 253) * den) by reflexivity.
  assert (W : (2 ^ 128 - 2 ^ 103) * den <= num <-> (2 ^ 277 - 2 ^ 252) * den <= V).
  { unfold V. change (- -149) with 149. replace ((2 ^ 277 - 2 ^ 252) * den) with ((2 ^ 128 - 2 ^ 103) * den * 2 ^ 149).
    - apply Z.mul_le_mono_pos_r. reflexivity.
    - replace ((2 ^ 128 - 2 ^ 103) * den * 2 ^ 149) with (((2 ^ 128 - 2 ^ 103) * 2 ^ 149) * den) by ring. reflexivity. }
  rewrite W. split.
  - intros E. specialize (N (inf32 - 1) ltac:(split; [discriminate|lia]) ltac:(lia)). unfold apart in N. fold V in N. rewrite E, A, B in N.
    destruct (Z.le_gt_cases ((2 ^ 277 - 2 ^ 252) * den) V) as [|G]; [assumption|exfalso]. nia.
  - intros G. destruct (Z.eq_dec k inf32) as [|NE]; [assumption|exfalso]. specialize (N inf32 ltac:(split; [discriminate|lia]) ltac:(auto)).
    unfold apart in N. fold V in N. rewrite A in N.
    pose proof (scaled_le 24 ltac:(lia) k (inf32 - 1) ltac:(lia)) as L.
    assert (L' : scaled 24 k * den <= (2 ^ 277 - 2 ^ 253) * den) by (rewrite <- B; apply Z.mul_le_mono_nonneg_r; lia).
    destruct (Z.eq_dec k (inf32 - 1)) as [E|NE'].
    + destruct N as [N|[N EV]]; [rewrite E, B in N; nia|]. rewrite E in EV. discriminate.
    + pose proof (scaled_lt 24 ltac:(lia) k (inf32 - 1) ltac:(lia)) as L2. assert (L3 : scaled 24 k * den < (2 ^ 277 - 2 ^ 253) * den) by (rewrite <- B; apply Z.mul_lt_mono_pos_r; lia). nia.
Qed.

(** The literals of a program. *)
Lemma scanned_text : forall c0 ka k kb c, scan c0 (ka ++ k :: kb) c ->
  exists p s q, rest c0 = p ++ s ++ q /\ token_text s k q.
Proof.
  intros c0 ka k kb c SC. apply scan_split in SC as (c1 & S1 & S2). inversion S2; subst.
  destruct (boundary_moves c0 c1 (ex_intro _ ka S1)) as (p & (M & _)).
  match goal with T : tokenize c1 = Ok (_, _) |- _ => apply tokenize_iff in T as (g & s & cs & (M1 & _) & _ & (M2 & _) & TT & _) end.
  exists (p ++ g), s. eexists. split; [|exact TT]. rewrite M, M1, M2, app_assoc. reflexivity.
Qed.
Lemma fraction_pos : forall s neg v k, fraction s neg v k -> 0 <= v /\ 0 < 10 ^ k.
Proof.
  intros s neg v k (sg & ip & fp & _ & _ & _ & D & ->). split; [exact (denotes_nonneg 10 _ _ ltac:(lia) D)|]. apply Z.pow_pos_nonneg; lia.
Qed.
Lemma single_number : forall a code ls k i gi gn kf op ka k1 kb f, assembled a code ls k i gi gn kf op -> kf = ka ++ k1 ++ kb -> single k1 f ->
  (exists neg num den, number code k1 neg num den /\ 0 <= num /\ 0 < den /\ single_of neg num den f) \/
  (exists neg, signed_name "QNAN" k1 neg /\ f = (flag_bit neg 31 + 0x7FC00000)%N) \/
  (exists neg, signed_name "INF" k1 neg /\ f = (flag_bit neg 31 + 0x7F800000)%N).
Proof.
  intros a code ls k i gi gn kf op ka k1 kb f H E SI. destruct SI as [-> |[(z & -> & ->)|[Q|I]]]; [| |right; left; exact Q|right; right; exact I]; left.
  - destruct H as (l & y & x & c0 & kg & _ & _ & _ & RE & _ & SC & _).
    rewrite E in SC. replace (kg ++ id (i_mnemonic i) :: ka ++ [TFloat f] ++ kb) with ((kg ++ id (i_mnemonic i) :: ka) ++ TFloat f :: kb) in SC
      by (rewrite <- app_assoc; reflexivity).
    destruct (scanned_text _ _ _ _ _ SC) as (p & s & q & R & [L|(_ & X & _)]); [|discriminate].
    destruct RE as (p0 & M & _). cbn [rest] in M. assert (EC : code = (p0 ++ p) ++ s ++ q) by (rewrite M, R, <- app_assoc; reflexivity). clear M R SC.
    inversion L; subst; try discriminate;
      try (match goal with H : In (_, TFloat _) operators |- _ => cbn in H; repeat (destruct H as [H|H]; [discriminate H|]); contradiction end).
    match goal with F : fraction _ _ _ _ |- _ => pose proof (fraction_pos _ _ _ _ F) as [V0 D0]; pose proof (single_rounding neg v _ V0 D0) as SR end.
    exists neg, v, (10 ^ k0). split; [|split; [exact V0|split; [exact D0|exact SR]]].
    eapply number_fraction with (p := p0 ++ p); try eassumption. reflexivity.
  - exists (z <? 0), (Z.abs z), 1. split; [constructor|]. split; [lia|]. split; [reflexivity|]. apply single_rounding; lia.
Qed.

(** ** Single precision *)
Theorem single_exact_field : forall a code ls k i gi gn kf op pre, assembled a code ls k i gi gn kf op ->
  has i pre (OFimm 32) ->
  exists ka k1 kb, found ls k i gi gn kf pre ka k1 kb /\
    let f := field (value op) 20 32 in
    ((exists neg num den, number code k1 neg num den /\ single_of neg num den f) \/
     (exists neg, signed_name "QNAN" k1 neg /\ f = (flag_bit neg 31 + 0x7FC00000)%N) \/
     (exists neg, signed_name "INF" k1 neg /\ f = (flag_bit neg 31 + 0x7F800000)%N)).
Proof.
  intros a code ls k i gi gn kf op pre H E. destruct (single32_field _ _ _ _ _ _ _ _ _ _ H E) as (ka & k1 & kb & f & F & SI & FE).
  exists ka, k1, kb. split; [exact F|]. cbv zeta. rewrite FE.
  destruct (single_number _ _ _ _ _ _ _ _ _ _ _ _ _ H (proj1 F) SI) as [(neg & num & den & N & _ & _ & S)|X]; [left; eauto 6|right; exact X].
Qed.
Theorem single_top_field : forall a code ls k i gi gn kf op pre, assembled a code ls k i gi gn kf op ->
  has i pre (OFimm 20) ->
  exists ka k1 kb f, found ls k i gi gn kf pre ka k1 kb /\
    ((exists neg num den, number code k1 neg num den /\ single_of neg num den f) \/
     (exists neg, signed_name "QNAN" k1 neg /\ f = (flag_bit neg 31 + 0x7FC00000)%N) \/
     (exists neg, signed_name "INF" k1 neg /\ f = (flag_bit neg 31 + 0x7F800000)%N)) /\
    (field (value op) 56 1 * 2 ^ 31 + field (value op) 20 19 * 2 ^ 12 = f - f mod 2 ^ 12)%N.
Proof.
  intros a code ls k i gi gn kf op pre H E. destruct (single20_field _ _ _ _ _ _ _ _ _ _ H E) as (ka & k1 & kb & f & F & SI & _ & FE).
  exists ka, k1, kb, f. split; [exact F|]. split; [|exact FE].
  destruct (single_number _ _ _ _ _ _ _ _ _ _ _ _ _ H (proj1 F) SI) as [(neg & num & den & N & _ & _ & S)|X]; [left; eauto 6|right; exact X].
Qed.

(** ** Double precision *)
Lemma Z_sign : forall z, (if f64_of_Z z / 2 ^ 63 =? 1 then true else false)%N = (z <? 0).
Proof.
  intros z. destruct (double_rounding (z <? 0) (Z.abs z) 1 ltac:(lia) ltac:(lia)) as [A _]. unfold f64_of_Z. rewrite A. destruct (z <? 0); reflexivity.
Qed.
(** Fractions are converted from their binary32 value, integers directly. *)
Theorem double_exact_field : forall a code ls k i gi gn kf op pre, assembled a code ls k i gi gn kf op ->
  has i pre ODimm ->
  exists ka k1 kb d neg, found ls k i gi gn kf pre ka k1 kb /\
    ((exists f num den, k1 = [TFloat f] /\ number code k1 (N.testbit f 31) num den /\ single_of (N.testbit f 31) num den f /\ widened f d /\
        neg = N.testbit f 31 && negb (N.eqb (f mod 2 ^ 31) 0)) \/
     (exists z, k1 = [TImm z] /\ double_of (z <? 0) (Z.abs z) 1 d /\ neg = (z <? 0)) \/
     (signed_name "QNAN" k1 neg /\ d = 0x7FF8000000000000%N) \/
     (signed_name "INF" k1 neg /\ d = 0x7FF0000000000000%N)) /\
    field (value op) 56 1 = (if neg then 1 else 0)%N /\ field (value op) 20 19 = (d mod 2 ^ 63 / 2 ^ 44)%N.
Proof.
  intros a code ls k i gi gn kf op pre H E. destruct (double_field _ _ _ _ _ _ _ _ _ _ H E) as (ka & k1 & kb & mag & neg & F & D & L & S & M).
  destruct D as [(f & -> & MG & NE)|[(z & -> & MG & NE)|[(Q & MG)|(Q & MG)]]].
  - destruct (single_number _ _ _ _ _ _ _ _ _ _ _ _ f H (proj1 F) (or_introl eq_refl)) as [(ng & num & den & N & N0 & D0 & SO)|[(ng & [(X & _)|[(X & _)|(X & _)]] & _)|(ng & [(X & _)|[(X & _)|(X & _)]] & _)]]; try discriminate X.
    destruct (single_lt32 _ _ _ _ SO) as (L1 & L2 & T). subst ng.
    pose proof (widened_ok f L1 L2) as W. exists ka, [TFloat f], kb, (f64_of_f32 f), neg. split; [exact F|]. split; [|split; [exact S|rewrite M, MG; reflexivity]].
    left. exists f, num, den. split; [reflexivity|]. split; [exact N|]. split; [exact SO|]. split; [exact W|]. rewrite NE.
    destruct W as [W1 W2].
    assert (TB : N.testbit (f64_of_f32 f) 63 = N.testbit f 31).
    { rewrite !N.testbit_eqb, W1. reflexivity. }
    rewrite TB. f_equal. f_equal. rewrite MG.
    destruct (N.eqb_spec (f mod 2 ^ 31) (255 * 2 ^ 23)) as [X|X]; [rewrite X, W2; reflexivity|]. destruct W2 as [_ W2].
    destruct (N.eqb_spec (f64_of_f32 f mod 2 ^ 63) 0) as [Z0|Z0]; destruct (N.eqb_spec (f mod 2 ^ 31) 0) as [Y0|Y0]; try reflexivity; exfalso.
    + rewrite Z0 in W2. change (scaled 53 (Z.of_N 0)) with 0 in W2. pose proof (scaled_lt 24 ltac:(lia) 0 (Z.of_N (f mod 2 ^ 31)) ltac:(lia)) as P.
      change (scaled 24 0) with 0 in P. apply Z.lt_irrefl with 0. rewrite W2 at 2. apply Z.mul_pos_pos; [exact P|reflexivity].
    + rewrite Y0 in W2. change (scaled 24 (Z.of_N 0)) with 0 in W2. rewrite Z.mul_0_l in W2.
      pose proof (scaled_lt 53 ltac:(lia) 0 (Z.of_N (f64_of_f32 f mod 2 ^ 63)) ltac:(lia)) as P. change (scaled 53 0) with 0 in P. lia.
  - exists ka, [TImm z], kb, (f64_of_Z z), neg. split; [exact F|]. split; [|split; [exact S|rewrite M, MG; reflexivity]].
    right; left. exists z. split; [reflexivity|]. split; [|exact NE]. apply double_rounding; lia.
  - exists ka, k1, kb, mag, neg. split; [exact F|]. split; [right; right; left; auto|]. split; [exact S|]. rewrite M, MG. reflexivity.
  - exists ka, k1, kb, mag, neg. split; [exact F|]. split; [right; right; right; auto|]. split; [exact S|]. rewrite M, MG. reflexivity.
Qed.

(** ** Half precision *)
Theorem half_exact_field : forall a code ls k i gi gn kf op pre n ad nb, assembled a code ls k i gi gn kf op ->
  has i pre (OHalf n ad nb) ->
  exists ka k1 kb h neg, found ls k i gi gn kf pre ka k1 kb /\
    ((exists f ng num den, number code k1 ng num den /\ single_of ng num den f /\ half_of ng (scaled 24 (Z.of_N (f mod 2 ^ 31))) (2 ^ 149) h /\
        neg = ng && negb (N.eqb (f mod 2 ^ 31) 0)) \/
     (signed_name "QNAN" k1 neg /\ h = (flag_bit neg 15 + 0x7FFF)%N) \/
     (signed_name "INF" k1 neg /\ h = (flag_bit neg 15 + 0x7C00)%N)) /\
    match nb with
    | None => n = 16%N /\ (ad = 20%N \/ ad = 36%N) /\ field (value op) ad 16 = h
    | Some s => n = 9%N /\ (ad = 20%N /\ s = 29%N \/ ad = 30%N /\ s = 56%N) /\
        field (value op) ad 9 = (h mod 2 ^ 15 / 2 ^ 6)%N /\ field (value op) s 1 = (if neg then 1 else 0)%N
    end.
Proof.
  intros a code ls k i gi gn kf op pre n ad nb H E.
  destruct (half_field _ _ _ _ _ _ _ _ _ _ _ _ _ H E) as (ka & k1 & kb & h & neg & special & F & HS & L & FE).
  assert (Z0 : forall z, 0 < Z.abs z -> (f32_of_Z z mod 2 ^ 31 =? 0)%N = false).
  { intros z Z0. apply N.eqb_neq. intros X. destruct (single_rounding (z <? 0) (Z.abs z) 1 ltac:(lia) ltac:(lia)) as [_ [_ N]].
    fold (f32_of_Z z) in N. rewrite X in N. specialize (N 1 ltac:(split; discriminate) ltac:(discriminate)). unfold apart in N.
    change (scaled 24 (Z.of_N 0)) with 0 in N. change (scaled 24 1) with 1 in N. change (- -149) with 149 in N.
    assert (2 ^ 149 <= Z.abs z * 2 ^ 149) by (rewrite <- (Z.mul_1_l (2 ^ 149)) at 1; apply Z.mul_le_mono_nonneg_r; lia). lia. }
  assert (G : forall f, single k1 f -> h = fp32_to_fp16 f -> special = false ->
    (neg = N.testbit f 31 && negb (N.eqb (f mod 2 ^ 31) 0)) -> (exists neg num den, number code k1 neg num den /\ 0 <= num /\ 0 < den /\ single_of neg num den f) ->
    exists f ng num den, number code k1 ng num den /\ single_of ng num den f /\ half_of ng (scaled 24 (Z.of_N (f mod 2 ^ 31))) (2 ^ 149) h /\
        neg = ng && negb (N.eqb (f mod 2 ^ 31) 0)).
  { intros f SI HH SP NE (ng & num & den & N & N0 & D0 & SO). exists f, ng, num, den. destruct (single_lt32 _ _ _ _ SO) as (L1 & L2 & T).
    split; [exact N|]. split; [exact SO|]. rewrite T, HH. split; [apply half_rounding; assumption|exact NE]. }
  assert (NN : forall z, neg = (z <? 0) -> neg = N.testbit (f32_of_Z z) 31 && negb (f32_of_Z z mod 2 ^ 31 =? 0)%N).
  { intros z ->. destruct (single_lt32 (z <? 0) (Z.abs z) 1 (f32_of_Z z)) as (_ & _ & <-); [apply single_rounding; lia|].
    destruct (Z.ltb_spec z 0); [|reflexivity]. rewrite Z0 by lia. reflexivity. }
  assert (H0 : (exists f, single k1 f /\ h = fp32_to_fp16 f /\ special = false /\ neg = N.testbit f 31 && negb (N.eqb (f mod 2 ^ 31) 0) /\ (k1 = [TFloat f] \/ exists z, k1 = [TImm z])) \/
     (signed_name "QNAN" k1 neg /\ h = 0x7FFF%N /\ special = true) \/ (signed_name "INF" k1 neg /\ h = 0x7C00%N /\ special = true)).
  { destruct HS as [(f & K1 & HH & SP & NE)|[(z & K1 & HH & SP & NE)|[X|X]]]; [left|left|right; left; exact X|right; right; exact X].
    - exists f. split; [left; exact K1|]. auto 8.
    - exists (f32_of_Z z). split; [right; left; exists z; auto|]. split; [exact HH|]. split; [exact SP|]. split; [apply NN, NE|]. right. eauto. }
  destruct H0 as [(f & SI & HH & SP & NE & K1)|[(Q & HH & SP)|(Q & HH & SP)]].
  - exists ka, k1, kb, h, neg. split; [exact F|]. split; [|rewrite SP in FE; exact FE]. left. eapply G; eauto.
    destruct (single_number _ _ _ _ _ _ _ _ _ _ _ _ f H (proj1 F) SI) as [N|[(ng & X & _)|(ng & X & _)]]; [exact N| |];
      exfalso; destruct K1 as [K1|(z & K1)]; rewrite K1 in X; destruct X as [(X & _)|[(X & _)|(X & _)]]; discriminate X.
  - exists ka, k1, kb, (flag_bit neg 15 + 0x7FFF)%N, neg. split; [exact F|]. split; [right; left; auto|]. rewrite SP, HH in FE.
    destruct nb; [|destruct neg; exact FE]. destruct FE as (A & B & C & D). split; [exact A|]. split; [exact B|]. split; [|exact D]. rewrite C. destruct neg; reflexivity.
  - exists ka, k1, kb, (flag_bit neg 15 + 0x7C00)%N, neg. split; [exact F|]. split; [right; right; auto|]. rewrite SP, HH in FE.
    destruct nb; [|destruct neg; exact FE]. destruct FE as (A & B & C & D). split; [exact A|]. split; [exact B|]. split; [|exact D]. rewrite C. destruct neg; reflexivity.
Qed.

(** A number that is exactly a binary32 is rounded only once. *)
Theorem half_once : forall neg num den f h, 0 < den -> single_of neg num den f -> half_of neg (scaled 24 (Z.of_N (f mod 2 ^ 31))) (2 ^ 149) h ->
  num * 2 ^ 149 = scaled 24 (Z.of_N (f mod 2 ^ 31)) * den -> half_of neg num den h.
Proof.
  intros neg num den f h D _ [S [K N]] E. split; [exact S|]. split; [exact K|]. intros k' K' NE. specialize (N k' K' NE).
  set (v := scaled 24 (Z.of_N (f mod 2 ^ 31))) in *.
  assert (A : forall k, apart 11 (-24) num den k * 2 ^ 149 = apart 11 (-24) v (2 ^ 149) k * den).
  { intros j. unfold apart. change (- -24) with 24. rewrite <- (Z.abs_eq (2 ^ 149)) at 1 by lia. rewrite <- (Z.abs_eq den) at 2 by lia.
    rewrite <- !Z.abs_mul. f_equal. replace ((num * 2 ^ 24 - scaled 11 j * den) * 2 ^ 149) with (num * 2 ^ 149 * 2 ^ 24 - scaled 11 j * den * 2 ^ 149) by ring.
    rewrite E. ring. }
  pose proof (A (Z.of_N (h mod 2 ^ 15))) as A1. pose proof (A k') as A2.
  destruct N as [N|[N EV]]; [left|right; split; [|exact EV]].
  - apply Z.mul_lt_mono_pos_r with (2 ^ 149); [reflexivity|]. rewrite A1, A2. apply Z.mul_lt_mono_pos_r; assumption.
  - apply Z.mul_reg_r with (2 ^ 149); [discriminate|]. rewrite A1, A2, N. reflexivity.
Qed.
Theorem small_integer_exact : forall z neg f, Z.abs z <= 2 ^ 24 -> single_of neg (Z.abs z) 1 f ->
  Z.abs z * 2 ^ 149 = scaled 24 (Z.of_N (f mod 2 ^ 31)) * 1.
Proof.
  intros z neg f B [_ N].
  assert (R : exists k, 0 <= k /\ scaled 24 k = Z.abs z * 2 ^ 149).
  { destruct (Z.eq_dec (Z.abs z) (2 ^ 24)) as [->|NE].
    - destruct (representable 24 150 (2 ^ 23)) as (k & K & E); try lia. exists k. split; [exact K|]. rewrite E. reflexivity.
    - destruct (representable 24 149 (Z.abs z)) as (k & K & E); [lia|lia|change (2 * 2 ^ (24 - 1)) with (2 ^ 24); lia|]. exists k. auto. }
  destruct R as (k & K & E). rewrite (nearest_exact 24 (-149) inf32 (Z.abs z) 1 (Z.of_N (f mod 2 ^ 31)) k); try lia; try assumption; try reflexivity.
  rewrite E. apply Z.le_lt_trans with (2 ^ 24 * 2 ^ 149); [apply Z.mul_le_mono_nonneg_r; lia|reflexivity].
Qed.

(** ** Rounding twice *)
Lemma nearest_below : forall p emin inf num den k, 2 <= p -> 0 < den -> nearest p emin inf num den k -> k < inf ->
  2 * (num * 2 ^ (- emin)) <= (scaled p k + scaled p (k + 1)) * den.
Proof.
  intros p emin inf num den k P D [[K0 _] N] K. specialize (N (k + 1) ltac:(lia) ltac:(lia)). unfold apart in N.
  pose proof (scaled_lt p P k (k + 1) ltac:(lia)) as L. assert (L' : scaled p k * den < scaled p (k + 1) * den) by (apply Z.mul_lt_mono_pos_r; assumption).
  rewrite Z.mul_add_distr_r. revert N L'. generalize (num * 2 ^ (- emin)) (scaled p k * den) (scaled p (k + 1) * den). clear. lia.
Qed.
Lemma nearest_above : forall p emin inf num den k, 2 <= p -> 0 < den -> nearest p emin inf num den k -> 0 < k ->
  (scaled p (k - 1) + scaled p k) * den <= 2 * (num * 2 ^ (- emin)).
Proof.
  intros p emin inf num den k P D [[_ K1] N] K. specialize (N (k - 1) ltac:(lia) ltac:(lia)). unfold apart in N.
  pose proof (scaled_lt p P (k - 1) k ltac:(lia)) as L. assert (L' : scaled p (k - 1) * den < scaled p k * den) by (apply Z.mul_lt_mono_pos_r; assumption).
  rewrite Z.mul_add_distr_r. revert N L'. generalize (num * 2 ^ (- emin)) (scaled p k * den) (scaled p (k - 1) * den). clear. lia.
Qed.
(** The middle between two binary16 neighbours is a binary32. *)
Lemma middle_single : forall k, 0 <= k < inf16 -> exists j, 0 <= j <= inf32 /\ 2 * scaled 24 j = (scaled 11 k + scaled 11 (k + 1)) * 2 ^ 125.
Proof.
  intros k K.
  assert (S : exists x q, 0 <= x <= 30 /\ 0 <= q < 2 ^ 11 /\ scaled 11 k = q * 2 ^ x /\ scaled 11 (k + 1) = (q + 1) * 2 ^ x).
  { destruct (Z.lt_ge_cases k (2 ^ 10)) as [L|L].
    - exists 0, k. split; [lia|]. split; [lia|]. split.
      + exact (scaled_at 11 ltac:(lia) 0 k ltac:(lia) ltac:(lia) ltac:(lia)).
      + exact (scaled_next 11 ltac:(lia) 0 k ltac:(lia) ltac:(lia) ltac:(lia)).
    - change inf16 with 31744 in K. pose proof (Z.div_mod k (2 ^ 10) ltac:(lia)) as DM. pose proof (Z.mod_pos_bound k (2 ^ 10) ltac:(lia)) as B.
      exists (k / 2 ^ 10 - 1), (2 ^ 10 + k mod 2 ^ 10). split; [lia|]. split; [lia|].
      assert (E : k = (k / 2 ^ 10 - 1) * 2 ^ 10 + (2 ^ 10 + k mod 2 ^ 10)) by lia. split.
      + rewrite E at 1. apply (scaled_at 11); [lia| |change (2 * 2 ^ (11 - 1)) with (2 ^ 11)|change (2 ^ (11 - 1)) with (2 ^ 10)]; lia.
      + rewrite E at 1. apply (scaled_next 11); [lia| |change (2 * 2 ^ (11 - 1)) with (2 ^ 11)|change (2 ^ (11 - 1)) with (2 ^ 10)]; lia. }
  destruct S as (x & q & X & Q & -> & ->).
  destruct (representable 24 (x + 124) (2 * q + 1)) as (j & J & E); [lia|lia|change (2 * 2 ^ (24 - 1)) with (2 ^ 24); lia|].
  exists j. split.
  - split; [exact J|]. destruct (Z.le_gt_cases j inf32) as [|G]; [assumption|exfalso]. pose proof (scaled_lt 24 ltac:(lia) inf32 j ltac:(split; [discriminate|exact G])) as L.
    rewrite E in L. change (scaled 24 inf32) with (2 ^ 277) in L.
    assert ((2 * q + 1) * 2 ^ (x + 124) <= 2 ^ 12 * 2 ^ 154) by (apply Z.mul_le_mono_nonneg; [lia|lia|lia|apply Z.pow_le_mono_r; lia]).
    change (2 ^ 12 * 2 ^ 154) with (2 ^ 166) in *. assert (2 ^ 166 < 2 ^ 277) by reflexivity. lia.
  - rewrite E, Z.pow_add_r by lia. change (2 ^ 125) with (2 * 2 ^ 124). ring.
Qed.
(** Unless the binary32 is such a middle, rounding twice is rounding once. *)
Theorem half_twice : forall neg num den f h, 0 <= num -> 0 < den -> single_of neg num den f ->
  half_of neg (scaled 24 (Z.of_N (f mod 2 ^ 31))) (2 ^ 149) h ->
  (forall k, 0 <= k < inf16 -> 2 * scaled 24 (Z.of_N (f mod 2 ^ 31)) <> (scaled 11 k + scaled 11 (k + 1)) * 2 ^ 125) ->
  half_of neg num den h.
Proof.
  intros neg num den f h N0 D [_ NF] [S NH] NT. split; [exact S|].
  pose proof (round_ratio_nearest 11 (-24) inf16 ltac:(lia) ltac:(lia) eq_refl num den N0 D) as NX.
  set (h' := Z.of_N (round_ratio 11 (-24) inf16 num den)) in *. set (k := Z.of_N (h mod 2 ^ 15)) in *.
  set (F := scaled 24 (Z.of_N (f mod 2 ^ 31))) in *.
  enough (E : k = h') by (rewrite E; exact NX).
  assert (MID : forall j, 0 <= j < inf16 ->
     (num * 2 ^ 149 * 2 < (scaled 11 j + scaled 11 (j + 1)) * 2 ^ 125 * den -> 2 * F <= (scaled 11 j + scaled 11 (j + 1)) * 2 ^ 125) /\
     ((scaled 11 j + scaled 11 (j + 1)) * 2 ^ 125 * den < num * 2 ^ 149 * 2 -> (scaled 11 j + scaled 11 (j + 1)) * 2 ^ 125 <= 2 * F) /\
     (num * 2 ^ 149 * 2 = (scaled 11 j + scaled 11 (j + 1)) * 2 ^ 125 * den -> 2 * F = (scaled 11 j + scaled 11 (j + 1)) * 2 ^ 125)).
  { intros j J. destruct (middle_single j J) as (m & M & <-). destruct NF as [_ NF]. fold F in NF.
    destruct (Z.eq_dec m (Z.of_N (f mod 2 ^ 31))) as [->|NE].
    - fold F. split; [|split]; lia.
    - specialize (NF m M NE). unfold apart in NF. change (- -149) with 149 in NF. fold F in NF. revert NF. generalize (num * 2 ^ 149) (scaled 24 m).
      clear - D. intros V G NF. split; [|split]; intros L.
      + destruct (Z.le_gt_cases F G) as [|C]; [lia|]. exfalso. assert (G * den < F * den) by (apply Z.mul_lt_mono_pos_r; assumption). lia.
      + destruct (Z.le_gt_cases G F) as [|C]; [lia|]. exfalso. assert (F * den < G * den) by (apply Z.mul_lt_mono_pos_r; assumption). lia.
      + assert (V = G * den) by lia. subst V. rewrite Z.sub_diag in NF. assert (G * den = F * den) as E by lia. apply Z.mul_reg_r in E; lia. }
  pose proof NH as [[K0 K1] _]. pose proof NX as [[H0 H1] _].
  destruct (Z.lt_trichotomy k h') as [L|[E|L]]; [exfalso|exact E|exfalso].
  - pose proof (nearest_below 11 (-24) inf16 F (2 ^ 149) k ltac:(lia) eq_refl NH ltac:(lia)) as A.
    pose proof (nearest_above 11 (-24) inf16 _ _ h' ltac:(lia) D NX ltac:(lia)) as B. change (- -24) with 24 in *.
    pose proof (scaled_le 11 ltac:(lia) k (h' - 1) ltac:(lia)) as C1. pose proof (scaled_le 11 ltac:(lia) (k + 1) h' ltac:(lia)) as C2.
    assert (C : (scaled 11 k + scaled 11 (k + 1)) * den <= 2 * (num * 2 ^ 24)) by (eapply Z.le_trans; [|exact B]; apply Z.mul_le_mono_nonneg_r; lia).
    destruct (MID k ltac:(lia)) as (_ & M2 & M3). pose proof (NT k ltac:(lia)) as T.
    revert A C M2 M3 T. generalize (scaled 11 k + scaled 11 (k + 1)). clear. intros s A C M2 M3 T.
    assert (A' : 2 * F <= s * 2 ^ 125) by lia.
    assert (C' : s * 2 ^ 125 * den <= num * 2 ^ 149 * 2) by lia.
    apply T. destruct (Z.eq_dec (s * 2 ^ 125 * den) (num * 2 ^ 149 * 2)) as [E|NE]; [apply M3; auto|]. specialize (M2 ltac:(lia)). lia.
  - pose proof (nearest_above 11 (-24) inf16 F (2 ^ 149) k ltac:(lia) eq_refl NH ltac:(lia)) as A.
    pose proof (nearest_below 11 (-24) inf16 _ _ h' ltac:(lia) D NX ltac:(lia)) as B. change (- -24) with 24 in *.
    pose proof (scaled_le 11 ltac:(lia) h' (k - 1) ltac:(lia)) as C1. pose proof (scaled_le 11 ltac:(lia) (h' + 1) k ltac:(lia)) as C2.
    assert (C : 2 * (num * 2 ^ 24) <= (scaled 11 (k - 1) + scaled 11 k) * den) by (eapply Z.le_trans; [exact B|]; apply Z.mul_le_mono_nonneg_r; lia).
    destruct (MID (k - 1) ltac:(lia)) as (M1 & _ & M3). pose proof (NT (k - 1) ltac:(lia)) as T. replace (k - 1 + 1) with k in * by lia.
    revert A C M1 M3 T. generalize (scaled 11 (k - 1) + scaled 11 k). clear. intros s A C M1 M3 T.
    assert (A' : s * 2 ^ 125 <= 2 * F) by lia.
    assert (C' : num * 2 ^ 149 * 2 <= s * 2 ^ 125 * den) by lia.
    apply T. destruct (Z.eq_dec (s * 2 ^ 125 * den) (num * 2 ^ 149 * 2)) as [E|NE]; [apply M3; auto|]. specialize (M1 ltac:(lia)). lia.
Qed.
Theorem half_literal : forall a code ls k i gi gn kf op pre n ad nb, assembled a code ls k i gi gn kf op ->
  has i pre (OHalf n ad nb) ->
  exists ka k1 kb h neg, found ls k i gi gn kf pre ka k1 kb /\
    ((exists f ng num den, number code k1 ng num den /\ single_of ng num den f /\ neg = ng && negb (N.eqb (f mod 2 ^ 31) 0) /\
        (num * 2 ^ 149 = scaled 24 (Z.of_N (f mod 2 ^ 31)) * den \/
         (forall m, 0 <= m < inf16 -> 2 * scaled 24 (Z.of_N (f mod 2 ^ 31)) <> (scaled 11 m + scaled 11 (m + 1)) * 2 ^ 125) ->
         half_of ng num den h)) \/
     (signed_name "QNAN" k1 neg /\ h = (flag_bit neg 15 + 0x7FFF)%N) \/
     (signed_name "INF" k1 neg /\ h = (flag_bit neg 15 + 0x7C00)%N)) /\
    match nb with
    | None => n = 16%N /\ (ad = 20%N \/ ad = 36%N) /\ field (value op) ad 16 = h
    | Some s => n = 9%N /\ (ad = 20%N /\ s = 29%N \/ ad = 30%N /\ s = 56%N) /\
        field (value op) ad 9 = (h mod 2 ^ 15 / 2 ^ 6)%N /\ field (value op) s 1 = (if neg then 1 else 0)%N
    end.
Proof.
  intros a code ls k i gi gn kf op pre n ad nb H E.
  destruct (half_exact_field _ _ _ _ _ _ _ _ _ _ _ _ _ H E) as (ka & k1 & kb & h & neg & F & V & P).
  exists ka, k1, kb, h, neg. split; [exact F|]. split; [|exact P]. destruct V as [(f & ng & num & den & N & SO & HO & NE)|V]; [left|right; exact V].
  assert (ND : 0 <= num /\ 0 < den).
  { destruct N as [p s q f' ng v j _ FR _ _|z]; [exact (fraction_pos _ _ _ _ FR)|lia]. }
  exists f, ng, num, den. split; [exact N|]. split; [exact SO|]. split; [exact NE|]. intros [X|X].
  - eapply half_once; eauto. apply ND.
  - eapply half_twice; eauto; apply ND.
Qed.
(** Overflow of binary16: from 65520 on. *)
Theorem half_overflow : forall neg num den h, 0 < den -> half_of neg num den h ->
  ((h mod 2 ^ 15 = 31 * 2 ^ 10)%N <-> 65520 * den <= num).
Proof.
  intros neg num den h D [_ N]. set (k := Z.of_N (h mod 2 ^ 15)) in *. pose proof N as [[K0 K] _].
  assert (EQ : (h mod 2 ^ 15 = 31 * 2 ^ 10)%N <-> k = inf16) by (unfold k; change inf16 with 31744; change (31 * 2 ^ 10)%N with 31744%N; lia).
  rewrite EQ. split.
  - intros E. rewrite E in N. pose proof (nearest_above 11 (-24) inf16 num den inf16 ltac:(lia) D N eq_refl) as A.
    change (- -24) with 24 in A. change (scaled 11 (inf16 - 1) + scaled 11 inf16) with (2 * (65520 * 2 ^ 24)) in A. lia.
  - intros G. destruct (Z.eq_dec k inf16) as [|NE]; [assumption|exfalso].
    pose proof (nearest_below 11 (-24) inf16 num den k ltac:(lia) D N ltac:(lia)) as A. change (- -24) with 24 in A.
    destruct (Z.eq_dec k (inf16 - 1)) as [E|NE'].
    + destruct N as [_ N]. specialize (N inf16 ltac:(split; [discriminate|lia]) ltac:(auto)). rewrite E in N.
      destruct N as [N|[_ N]]; [|discriminate]. unfold apart in N. change (- -24) with 24 in N.
      change (scaled 11 (inf16 - 1)) with (65504 * 2 ^ 24) in N. change (scaled 11 inf16) with (65536 * 2 ^ 24) in N. lia.
    + pose proof (scaled_le 11 ltac:(lia) k (inf16 - 2) ltac:(lia)) as L1. pose proof (scaled_le 11 ltac:(lia) (k + 1) (inf16 - 1) ltac:(lia)) as L2.
      change (scaled 11 (inf16 - 2)) with (65472 * 2 ^ 24) in L1. change (scaled 11 (inf16 - 1)) with (65504 * 2 ^ 24) in L2.
      assert ((scaled 11 k + scaled 11 (k + 1)) * den <= (65472 * 2 ^ 24 + 65504 * 2 ^ 24) * den) by (apply Z.mul_le_mono_nonneg_r; lia). lia.
Qed.
(** Rounding twice shows: the literal lies just above the middle of two
    binary16 numbers, its binary32 is that middle. *)
Theorem half_not_once : exists s v k ws, fraction s false v k /\
  assemble true (lit "HADD2_32I R0, R1, 0, " ++ s ++ lit ";") = Ok ws /\
  ~ half_of false v (10 ^ k) (field (nth 1 ws 0%N) 20 16).
Proof.
  exists (lit "1.000488281250000001"), 1000488281250000001, 18.
  destruct (assemble true (lit "HADD2_32I R0, R1, 0, " ++ lit "1.000488281250000001" ++ lit ";")) as [ws| | | | |] eqn:A;
    vm_compute in A; try discriminate A. exists ws. split; [|split; [reflexivity|]].
  - exists [], (lit "1"), (lit "000488281250000001"). split; [reflexivity|]. split; [constructor|]. split; [discriminate|].
    split; [|reflexivity]. apply denotes_iff; [lia|]. split; vm_compute; reflexivity.
  - assert (W : field (nth 1 ws 0%N) 20 16 = 0x3C00%N) by (injection A as <-; vm_compute; reflexivity).
    rewrite W. intros [_ [_ N]]. specialize (N 15361 ltac:(split; discriminate) ltac:(discriminate)).
    vm_compute in N. destruct N as [N|[N _]]; discriminate.
Qed.
