(** * Round: the conversions of Float.v round to nearest, ties to even. *)
From Coq Require Import ZArith NArith Lia Bool ZifyBool ZifyN.
From Verif Require Import Base Float SpecFloat.
Open Scope Z_scope.

Section Format.
Variables p emin inf : Z.
Hypothesis P2 : 2 <= p.
Hypothesis E0 : emin <= 0.
Hypothesis I0 : 0 < inf.

Let H := 2 ^ (p - 1).
Lemma H_pos : 0 < H.
Proof. unfold H. apply Z.pow_pos_nonneg; lia. Qed.
Lemma H_even : Z.even H = true.
Proof. unfold H. replace (p - 1) with (Z.succ (p - 2)) by lia. rewrite Z.pow_succ_r by lia. rewrite Z.even_mul. reflexivity. Qed.
Lemma H_double : 2 ^ p = 2 * H.
Proof. unfold H. replace p with (Z.succ (p - 1)) at 1 by lia. rewrite Z.pow_succ_r by lia. reflexivity. Qed.

(** The pattern with the significand [q] and the exponent [x] above the least. *)
Lemma scaled_at : forall x q, 0 <= x -> 0 <= q < 2 * H -> (x > 0 -> H <= q) -> scaled p (x * H + q) = q * 2 ^ x.
Proof.
  intros x q X Q N. pose proof H_pos as HP. unfold scaled. fold H.
  destruct (Z.ltb_spec (x * H + q) H) as [L|L].
  - assert (x = 0) by nia. subst x. change (2 ^ 0) with 1. lia.
  - assert (K : (x = 0 /\ H <= q) \/ (0 < x /\ H <= q)) by (destruct (Z.eq_dec x 0); [left|right]; split; try lia; nia).
    assert (Q' : H <= q) by (destruct K as [[]|[]]; assumption).
    replace (x * H + q) with ((x + 1) * H + (q - H)) by lia.
    rewrite (Z.add_comm ((x + 1) * H)), Z.mod_add, Z.div_add by lia. rewrite Z.mod_small, Z.div_small by lia.
    replace (0 + (x + 1) - 1) with x by lia. f_equal. lia.
Qed.
Lemma scaled_next : forall x q, 0 <= x -> 0 <= q < 2 * H -> (x > 0 -> H <= q) ->
  scaled p (x * H + q + 1) = (q + 1) * 2 ^ x.
Proof.
  intros x q X Q N. pose proof H_pos as HP. destruct (Z.eq_dec (q + 1) (2 * H)) as [E|E].
  - replace (x * H + q + 1) with ((x + 1) * H + H) by lia. rewrite scaled_at by lia.
    rewrite Z.pow_add_r by lia. change (2 ^ 1) with 2. nia.
  - replace (x * H + q + 1) with (x * H + (q + 1)) by lia. apply scaled_at; lia.
Qed.
(** Every pattern is of that kind. *)
Lemma pattern_parts : forall k, 0 <= k -> exists x q, k = x * H + q /\ 0 <= x /\ 0 <= q < 2 * H /\ (x > 0 -> H <= q).
Proof.
  intros k K. pose proof H_pos as HP. destruct (Z.ltb_spec k H) as [L|L].
  - exists 0, k. lia.
  - exists (k / H - 1), (H + k mod H). pose proof (Z.mod_pos_bound k H HP). pose proof (Z.div_mod k H ltac:(lia)).
    assert (1 <= k / H) by (apply Z.div_le_lower_bound; lia). lia.
Qed.
Lemma scaled_step : forall k, 0 <= k -> scaled p k < scaled p (k + 1).
Proof.
  intros k K. destruct (pattern_parts k K) as (x & q & -> & X & Q & N). rewrite scaled_at, scaled_next by assumption.
  assert (0 < 2 ^ x) by (apply Z.pow_pos_nonneg; lia). nia.
Qed.
Lemma scaled_lt : forall k k', 0 <= k < k' -> scaled p k < scaled p k'.
Proof.
  intros k k' [K L]. replace k' with (k + 1 + Z.of_nat (Z.to_nat (k' - k - 1))) by lia.
  induction (Z.to_nat (k' - k - 1)) as [|n IH]; [rewrite Z.add_0_r; apply scaled_step; assumption|].
  rewrite Nat2Z.inj_succ. replace (k + 1 + Z.succ (Z.of_nat n)) with (k + 1 + Z.of_nat n + 1) by lia.
  eapply Z.lt_trans; [exact IH|]. apply scaled_step. lia.
Qed.
Lemma scaled_le : forall k k', 0 <= k <= k' -> scaled p k <= scaled p k'.
Proof. intros k k' K. destruct (Z.eq_dec k k') as [->|]; [lia|]. apply Z.lt_le_incl, scaled_lt. lia. Qed.

Lemma scaled_0 : scaled p 0 = 0.
Proof. unfold scaled. pose proof H_pos as HP. unfold H in HP. destruct (Z.ltb_spec 0 (2 ^ (p - 1))); lia. Qed.

Lemma nearest_top : forall num den, 0 < den -> scaled p inf * den <= num * 2 ^ (- emin) -> nearest p emin inf num den inf.
Proof.
  intros num den D V. split; [lia|]. intros k' K NE. left. unfold apart.
  pose proof (scaled_lt k' inf ltac:(lia)). nia.
Qed.
(** The better of two neighbours is the nearest. *)
Lemma nearest_between : forall num den k (up : bool), 0 < den -> 0 <= k < inf ->
  let v := num * 2 ^ (- emin) in let lo := scaled p k * den in let hi := scaled p (k + 1) * den in
  lo <= v <= hi -> (if up then lo + hi < 2 * v \/ lo + hi = 2 * v /\ Z.even k = false else 2 * v < lo + hi \/ lo + hi = 2 * v /\ Z.even k = true) ->
  nearest p emin inf num den (if up then k + 1 else k).
Proof.
  intros num den k up D K v lo hi V U.
  assert (LO : forall k', 0 <= k' < k -> scaled p k' * den < lo) by (intros k' K'; pose proof (scaled_lt k' k K'); unfold lo; nia).
  assert (HI : forall k', k + 1 < k' -> hi < scaled p k' * den) by (intros k' K'; pose proof (scaled_lt (k + 1) k' ltac:(lia)); unfold hi; nia).
  split; [destruct up; lia|]. intros k' K' NE. unfold apart. fold v.
  assert (C : 0 <= k' < k \/ k' = k \/ k' = k + 1 \/ k + 1 < k') by lia.
  destruct up.
  - fold hi. assert (EV : Z.even (k + 1) = negb (Z.even k)) by (rewrite Z.even_add; destruct (Z.even k); reflexivity).
    destruct C as [C|[C|[C|C]]]; try lia.
    + specialize (LO k' C). destruct U as [U|[U UE]]; left; lia.
    + subst k'. fold lo. rewrite EV. destruct U as [U|[U UE]]; [left; lia|right]. rewrite UE. split; [lia|reflexivity].
    + specialize (HI k' C). left; lia.
  - fold lo. destruct C as [C|[C|[C|C]]]; try lia.
    + specialize (LO k' C). left; lia.
    + subst k'. fold hi. destruct U as [U|[U UE]]; [left; lia|right]. split; [lia|assumption].
    + specialize (HI k' C). left; lia.
Qed.
(** There is only one nearest pattern. *)
Lemma nearest_unique : forall num den k k', 0 < den -> nearest p emin inf num den k -> nearest p emin inf num den k' -> k = k'.
Proof.
  intros num den. assert (W : forall k k', 0 < den -> nearest p emin inf num den k -> nearest p emin inf num den k' -> ~ k < k').
  { intros k k' D [K N] [K' N'] L. pose proof (N k' K' ltac:(lia)) as A. pose proof (N' k K ltac:(lia)) as A'.
    assert (B : apart p emin num den k = apart p emin num den k' /\ Z.even k = true /\ Z.even k' = true) by lia. destruct B as (B & EV & EV').
    assert (k + 1 < k').
    { assert (k' <> k + 1); [|lia]. intros ->. rewrite Z.even_add, EV in EV'. discriminate. }
    pose proof (N (k + 1) ltac:(lia) ltac:(lia)) as C. unfold apart in *.
    pose proof (scaled_lt k (k + 1) ltac:(lia)). pose proof (scaled_lt (k + 1) k' ltac:(lia)). nia. }
  intros k k' D N N'. destruct (Z.lt_trichotomy k k') as [L|[L|L]]; [exfalso; exact (W k k' D N N' L)|exact L|exfalso; exact (W k' k D N' N L)].
Qed.

Lemma log2_ratio : forall a, 0 < a -> 2 ^ Z.log2 a <= a < 2 * 2 ^ Z.log2 a.
Proof. intros a A. pose proof (Z.log2_spec a A) as L. rewrite Z.pow_succ_r in L by apply Z.log2_nonneg. lia. Qed.

(** [num * 2^y < den * 2^z * m] depends on [y - z] only. *)
Lemma scale : forall num den m y z y' z', 0 <= y -> 0 <= z -> 0 <= y' -> 0 <= z' -> y - z = y' - z' ->
  num * 2 ^ y < den * 2 ^ z * m -> num * 2 ^ y' < den * 2 ^ z' * m.
Proof.
  intros num den m y z y' z' Y Z0 Y' Z' E L.
  assert (T : num * 2 ^ y * 2 ^ (y' + z) = num * 2 ^ y' * 2 ^ (y + z)) by (rewrite <- !Z.mul_assoc, <- !Z.pow_add_r by lia; f_equal; f_equal; lia).
  assert (T' : den * 2 ^ z * m * 2 ^ (y' + z) = den * 2 ^ z' * m * 2 ^ (y + z)).
  { replace (den * 2 ^ z * m * 2 ^ (y' + z)) with (den * m * (2 ^ z * 2 ^ (y' + z))) by ring.
    replace (den * 2 ^ z' * m * 2 ^ (y + z)) with (den * m * (2 ^ z' * 2 ^ (y + z))) by ring. rewrite <- !Z.pow_add_r by lia. f_equal. f_equal. lia. }
  assert (A : 0 < 2 ^ (y' + z)) by (apply Z.pow_pos_nonneg; lia). assert (B : 0 < 2 ^ (y + z)) by (apply Z.pow_pos_nonneg; lia).
  apply Z.mul_lt_mono_pos_r with (2 ^ (y + z)); [exact B|]. rewrite <- T, <- T'. apply Z.mul_lt_mono_pos_r; assumption.
Qed.
(** [num/den < 2^x * m]. *)
Definition below (num den x m : Z) : Prop := num * 2 ^ Z.max 0 (- x) < den * 2 ^ Z.max 0 x * m.
Lemma below_test : forall num den x m,
  (if 0 <=? x then num <? den * 2 ^ x * m else num * 2 ^ (- x) <? den * m) = true <-> below num den x m.
Proof.
  intros num den x m. unfold below. destruct (Z.leb_spec 0 x) as [X|X]; rewrite Z.ltb_lt.
  - rewrite (Z.max_l 0 (- x)), (Z.max_r 0 x) by lia. change (2 ^ 0) with 1. rewrite Z.mul_1_r. reflexivity.
  - rewrite (Z.max_r 0 (- x)), (Z.max_l 0 x) by lia. change (2 ^ 0) with 1. rewrite Z.mul_1_r. reflexivity.
Qed.
Lemma below_le : forall num den x y m, 0 < den -> 0 <= m -> x <= y -> below num den x m -> below num den y m.
Proof.
  intros num den x y m D M L B. unfold below in *.
  apply (scale num den m (Z.max 0 (- x)) (Z.max 0 x + (y - x))); try lia.
  rewrite Z.pow_add_r by lia. assert (1 <= 2 ^ (y - x)) by (pose proof (Z.pow_pos_nonneg 2 (y - x) ltac:(lia) ltac:(lia)); lia).
  assert (0 < 2 ^ Z.max 0 x) by (apply Z.pow_pos_nonneg; lia).
  set (u := 2 ^ Z.max 0 x) in *. set (w := 2 ^ (y - x)) in *. eapply Z.lt_le_trans; [exact B|].
  replace (den * (u * w) * m) with (den * u * m * w) by ring. assert (0 <= den * u * m) by (repeat apply Z.mul_nonneg_nonneg; lia).
  clear - H0 H2. nia.
Qed.
Lemma below_half : forall num den x, below num den x H <-> below num den (x - 1) (2 * H).
Proof.
  intros num den x. unfold below. split; intros L.
  - apply (scale num den (2 * H) (Z.max 0 (- x) + 1) (Z.max 0 x)); try lia. rewrite Z.pow_add_r by lia. change (2 ^ 1) with 2. lia.
  - apply (scale num den H (Z.max 0 (- (x - 1))) (Z.max 0 (x - 1) + 1)); try lia.
    rewrite (Z.pow_add_r 2 (Z.max 0 (x - 1))) by lia. change (2 ^ 1) with 2. lia.
Qed.
Lemma log2_bounds : forall num den, 0 < num -> 0 < den ->
  let e0 := Z.log2 num - Z.log2 den - p + 1 in below num den e0 (2 * H) /\ ~ below num den (e0 - 1) H.
Proof.
  intros num den NP DD e0. pose proof H_pos as HP.
  pose proof (log2_ratio num NP) as LN. pose proof (log2_ratio den DD) as LD.
  pose proof (Z.log2_nonneg num) as ln0. pose proof (Z.log2_nonneg den) as ld0.
  assert (X : 0 < 2 ^ Z.log2 num) by (apply Z.pow_pos_nonneg; lia). assert (Y : 0 < 2 ^ Z.log2 den) by (apply Z.pow_pos_nonneg; lia).
  unfold below, e0. split.
  - apply (scale num den (2 * H) (Z.log2 den + p) (Z.log2 num + 1)); try lia.
    rewrite Z.pow_add_r, (Z.pow_add_r 2 (Z.log2 num)) by lia. rewrite H_double. change (2 ^ 1) with 2.
    set (x := 2 ^ Z.log2 num) in *. set (y := 2 ^ Z.log2 den) in *. clearbody x y. clear - HP LN LD X Y.
    replace (num * (y * (2 * H))) with ((num * y) * (2 * H)) by ring. apply Z.mul_lt_mono_pos_r; nia.
  - intros L. apply (scale num den H _ _ (Z.log2 den + p) (Z.log2 num)) in L; try lia.
    rewrite Z.pow_add_r, H_double in L by lia.
    set (x := 2 ^ Z.log2 num) in *. set (y := 2 ^ Z.log2 den) in *. clearbody x y. clear - HP LN LD X Y L.
    replace (num * (y * (2 * H))) with ((2 * num * y) * H) in L by ring. apply Z.mul_lt_mono_pos_r in L; nia.
Qed.
(** The exponent that [round_ratio] selects. *)
Lemma exponent_bounds : forall num den, 0 < num -> 0 < den ->
  let e0 := Z.log2 num - Z.log2 den - p + 1 in
  let small := if 0 <=? e0 then num <? den * 2 ^ e0 * H else num * 2 ^ (- e0) <? den * H in
  let e := Z.max emin (if small then e0 - 1 else e0) in
  below num den e (2 * H) /\ (e > emin -> ~ below num den e H).
Proof.
  intros num den NP DD e0 small e. pose proof H_pos as HP. destruct (log2_bounds num den NP DD) as [UB LB]. fold e0 in UB, LB.
  pose proof (below_test num den e0 H) as BT. fold small in BT.
  set (e1 := if small then e0 - 1 else e0) in *.
  assert (U1 : below num den e1 (2 * H)).
  { unfold e1. destruct small; [|exact UB]. apply below_half, BT. reflexivity. }
  assert (L1 : ~ below num den e1 H).
  { unfold e1. destruct small; [exact LB|]. intros L. apply BT in L. discriminate. }
  split.
  - apply (below_le num den e1 e (2 * H)); [exact DD|lia|unfold e; lia|exact U1].
  - intros G. replace e with e1 by (unfold e in *; lia). exact L1.
Qed.

(** Rounding with a given exponent. *)
Lemma round_with : forall num den e, 0 < num -> 0 < den -> emin <= e ->
  below num den e (2 * H) -> (e > emin -> ~ below num den e H) ->
  forall a b, a = num * 2 ^ Z.max 0 (- e) -> b = den * 2 ^ Z.max 0 e ->
  let q := a / b in let r := a mod b in
  let up := (b <? 2 * r) || ((2 * r =? b) && Z.odd q) in
  let pat := (e - emin) * H + (if up then q + 1 else q) in
  nearest p emin inf num den (Z.of_N (if inf <=? pat then Z.to_N inf else Z.to_N pat)).
Proof.
  intros num den e NP DD EM UB LB a b AA BB q r up. pose proof H_pos as HP.
  unfold below in UB, LB. rewrite <- AA, <- BB in UB. rewrite <- AA, <- BB in LB.
  set (c := 2 ^ Z.max 0 e) in *. assert (CP : 0 < c) by (apply Z.pow_pos_nonneg; lia).
  assert (BP : 0 < b) by (rewrite BB; apply Z.mul_pos_pos; lia).
  assert (AP : 0 < a) by (rewrite AA; apply Z.mul_pos_pos; [lia|apply Z.pow_pos_nonneg; lia]).
  assert (DM : a = b * q + r) by (apply Z.div_mod; lia).
  assert (RB : 0 <= r < b) by (apply Z.mod_pos_bound; lia).
  assert (Q0 : 0 <= q) by (apply Z.div_pos; lia). assert (Q1 : q < 2 * H) by (apply Z.div_lt_upper_bound; lia).
  assert (Q2 : e - emin > 0 -> H <= q) by (intros G; apply Z.div_le_lower_bound; [lia|]; specialize (LB ltac:(lia)); lia).
  set (D := 2 ^ (e - emin)). assert (DP : 0 < D) by (apply Z.pow_pos_nonneg; lia).
  set (V := num * 2 ^ (- emin)).
  assert (VC : V * c = a * D).
  { unfold V, c, D. rewrite AA. rewrite <- !Z.mul_assoc, <- !Z.pow_add_r by lia. f_equal. f_equal. lia. }
  set (k := (e - emin) * H + q).
  assert (MK : scaled p k = q * D) by (apply scaled_at; [lia|split; assumption|exact Q2]).
  assert (MK1 : scaled p (k + 1) = (q + 1) * D) by (apply scaled_next; [lia|split; assumption|exact Q2]).
  assert (K0 : 0 <= k) by (unfold k; apply Z.add_nonneg_nonneg; [apply Z.mul_nonneg_nonneg; lia|exact Q0]).
  set (lo := scaled p k * den). set (hi := scaled p (k + 1) * den).
  assert (LC : lo * c = (q * b) * D) by (unfold lo; rewrite MK, BB; ring).
  assert (HC : hi * c = (q * b + b) * D) by (unfold hi; rewrite MK1, BB; ring).
  assert (V1 : lo <= V) by (apply Z.mul_le_mono_pos_r with c; [exact CP|]; rewrite VC, LC; apply Z.mul_le_mono_nonneg_r; lia).
  assert (V2 : V < hi) by (apply Z.mul_lt_mono_pos_r with c; [exact CP|]; rewrite VC, HC; apply Z.mul_lt_mono_pos_r; lia).
  assert (EV : Z.even k = Z.even q) by (unfold k; rewrite Z.even_add, Z.even_mul, H_even, orb_true_r; destruct (Z.even q); reflexivity).
  assert (TW1 : 2 * V * c = (2 * q * b + 2 * r) * D) by (replace (2 * V * c) with (2 * (V * c)) by ring; rewrite VC, DM; ring).
  assert (TW2 : (lo + hi) * c = (2 * q * b + b) * D) by (rewrite Z.mul_add_distr_r, LC, HC; ring).
  intros pat. assert (PA : pat = if up then k + 1 else k) by (unfold pat, k; destruct up; ring). clearbody pat.
  destruct (Z.leb_spec inf k) as [G|G].
  { assert (inf <= pat) by (rewrite PA; destruct up; lia).
    destruct (Z.leb_spec inf pat) as [_|X]; [|lia]. rewrite Z2N.id by lia. apply nearest_top; [exact DD|]. fold V.
    eapply Z.le_trans; [|exact V1]. apply Z.mul_le_mono_nonneg_r; [lia|]. apply scaled_le. lia. }
  assert (NB : nearest p emin inf num den pat).
  { rewrite PA. apply nearest_between; [exact DD|lia|fold V; fold lo; fold hi; lia|]. fold V. fold lo. fold hi.
    rewrite EV. rewrite <- Z.negb_odd. unfold up.
    destruct (Z.ltb_spec b (2 * r)) as [Y|Y]; cbn [orb].
    { left; apply Z.mul_lt_mono_pos_r with c; [exact CP|]; rewrite TW1, TW2; apply Z.mul_lt_mono_pos_r; lia. }
    destruct (Z.eqb_spec (2 * r) b) as [Y'|Y']; cbn [orb andb].
    - assert (lo + hi = 2 * V) by (apply Z.mul_reg_r with c; [lia|]; rewrite TW1, TW2, Y'; reflexivity).
      destruct (Z.odd q); right; split; auto.
    - left. apply Z.mul_lt_mono_pos_r with c; [exact CP|]. rewrite TW1, TW2. apply Z.mul_lt_mono_pos_r; lia. }
  assert (P0 : 0 <= pat <= inf) by apply NB.
  destruct (Z.leb_spec inf pat) as [X|X]; rewrite Z2N.id by lia; [replace inf with pat by lia|]; [|exact NB].
  assert (PE : pat = inf) by lia. rewrite PE in NB. rewrite PE. exact NB.
Qed.

Lemma round_ratio_nearest : forall num den, 0 <= num -> 0 < den ->
  nearest p emin inf num den (Z.of_N (round_ratio p emin inf num den)).
Proof.
  intros num den NN DD. unfold round_ratio. fold H.
  destruct (Z.eqb_spec num 0) as [->|NZ].
  { change (Z.of_N 0) with 0. pose proof (scaled_step 0 ltac:(lia)) as M. rewrite scaled_0 in M. cbn [Z.add] in M.
    assert (0 < scaled p 1 * den) by (apply Z.mul_pos_pos; lia).
    apply (nearest_between 0 den 0 false); try lia; rewrite scaled_0; cbn [Z.add]; [|left]; lia. }
  assert (NP : 0 < num) by lia. destruct (exponent_bounds num den NP DD) as [UB LB].
  set (e0 := Z.log2 num - Z.log2 den - p + 1) in *.
  set (small := if 0 <=? e0 then num <? den * 2 ^ e0 * H else num * 2 ^ (- e0) <? den * H) in *.
  set (e := Z.max emin (if small then e0 - 1 else e0)) in *. cbv zeta.
  apply (round_with num den e NP DD); [unfold e; lia|exact UB|exact LB| |].
  - destruct (Z.leb_spec 0 e); [rewrite Z.max_l by lia; change (2 ^ 0) with 1; lia|rewrite Z.max_r by lia; reflexivity].
  - destruct (Z.leb_spec 0 e); [rewrite Z.max_r by lia; reflexivity|rewrite Z.max_l by lia; change (2 ^ 0) with 1; lia].
Qed.
End Format.
