(** * Fields: what each kind of operand leaves in the word, for every
    instruction of every program. *)
From Verif Require Import Base Float Lexer Operand Catalogue Table Parse Assemble Spec SpecOperand SpecInsn Bits LexFacts
  SchedFuel Param Reach ParseFacts Outcomes Decode Program Footprint Encode Operands Operands3 Quiet Notes Insn Words Clash Recover.
From Coq Require Import Lia.
Local Open Scope string_scope.
Local Open Scope list_scope.
Open Scope Z_scope.

(** An [n]-bit number read as two's complement. *)
Definition sint (n v : N) : Z := if (v <? 2 ^ (n - 1))%N then Z.of_N v else Z.of_N v - 2 ^ Z.of_N n.

Lemma pow_NZ : forall n, Z.of_N (2 ^ n) = 2 ^ Z.of_N n.
Proof. intros n. rewrite N2Z.inj_pow. reflexivity. Qed.
Lemma sint_mod : forall n z, (0 < n)%N -> - 2 ^ (Z.of_N n - 1) <= z < 2 ^ (Z.of_N n - 1) ->
  sint n (Z.to_N (z mod 2 ^ Z.of_N n)) = z.
Proof.
  intros n z H R. unfold sint.
  assert (P : 2 ^ Z.of_N n = 2 * 2 ^ (Z.of_N n - 1)).
  { rewrite <- Z.pow_succ_r by lia. f_equal. lia. }
  assert (Q : Z.of_N (2 ^ (n - 1)) = 2 ^ (Z.of_N n - 1)) by (rewrite pow_NZ; f_equal; lia).
  pose proof (Z.pow_pos_nonneg 2 (Z.of_N n - 1) ltac:(lia) ltac:(lia)) as P0.
  destruct (Z.ltb_spec z 0).
  - replace (z mod 2 ^ Z.of_N n) with (z + 2 ^ Z.of_N n).
    + destruct (N.ltb_spec (Z.to_N (z + 2 ^ Z.of_N n)) (2 ^ (n - 1))) as [L|L].
      * apply N2Z.inj_lt in L. rewrite Q, Z2N.id in L by lia. lia.
      * rewrite Z2N.id by lia. lia.
    + symmetry. rewrite <- (Z_mod_plus_full z 1). rewrite Z.mul_1_l. apply Z.mod_small. lia.
  - rewrite Z.mod_small by lia. destruct (N.ltb_spec (Z.to_N z) (2 ^ (n - 1))) as [L|L].
    + rewrite Z2N.id by lia. reflexivity.
    + apply N2Z.inj_le in L. rewrite Q, Z2N.id in L by lia. lia.
Qed.

Lemma field_of : forall w m b a n, N.land w m = b -> sub (range a n) m -> field w a n = field b a n.
Proof. intros w m b a n <- S. symmetry. apply field_land. exact S. Qed.


(** In instruction [k], of form [i], the tokens [k1] stand where the operand
    after [pre] is written; [ka] stands before them, [kb] after them. *)
Definition found (ls : labels) (k : nat) (i : insn) (gi : N) (gn : bool) (kf : list tkind) (pre : list opnd)
  (ka k1 kb : list tkind) : Prop :=
  kf = ka ++ k1 ++ kb /\ after ls k i gi gn pre ka (hd TSemi (k1 ++ kb)).

Ltac seek H E SH ka k1 kb wa b r :=
  let A := fresh "A" in let F := fresh "F" in let NK := fresh "NK" in
  destruct (recovered _ _ _ _ _ _ _ _ _ _ _ H E SH) as (ka & k1 & kb & wa & b & r & F & NK & K & A & S & V & R);
  cbn [spells] in S; cbn [reuse_mask] in R.
Ltac here := split; [assumption|assumption].

(** ** Integers *)

Lemma size_max : forall n, N.size (Z.to_N (2 ^ Z.of_N n - 1)) = n.
Proof.
  intros n. destruct (N.eq_dec n 0) as [->|NZ]; [reflexivity|].
  rewrite N.size_log2 by (intros Q; assert (2 ^ 1 <= 2 ^ Z.of_N n) by (apply Z.pow_le_mono_r; lia); lia).
  replace (Z.to_N (2 ^ Z.of_N n - 1)) with (N.pred (2 ^ n)) by (rewrite <- pow_NZ; lia).
  rewrite N.log2_pred_pow2 by lia. lia.
Qed.

Theorem uint_field : forall a code ls k i gi gn kf op pre n ad, assembled a code ls k i gi gn kf op ->
  has i pre (OUint (2 ^ Z.of_N n - 1) ad) ->
  exists ka z kb, found ls k i gi gn kf pre ka [TImm z] kb /\
    0 <= z < 2 ^ Z.of_N n /\ field (value op) ad n = Z.to_N z.
Proof.
  intros a code ls k i gi gn kf op pre n ad H E. seek H E (eq_refl false) ka k1 kb wa b r.
  destruct S as (z & -> & Z & -> & _).
  exists ka, z, kb. split; [here|]. split; [lia|].
  assert (L : (Z.to_N z < 2 ^ n)%N) by (apply to_N_lt; lia).
  rewrite <- (field_place (Z.to_N z) ad n L). eapply field_of; [exact V|]. cbn [mask]. rewrite size_max. apply sub_refl.
Qed.
Lemma uint_widths : everywhere (fun i pre o post => match o with
  | OUint mx _ | OAbs _ (OUint mx _) => Z.eqb mx (2 ^ Z.of_N (N.size (Z.to_N mx)) - 1) | _ => true end) = true.
Proof. vm_compute. reflexivity. Qed.
Theorem uint_exact : forall i pre mx ad, In i table -> has i pre (OUint mx ad) -> exists n, mx = 2 ^ Z.of_N n - 1.
Proof.
  intros i pre mx ad I (post & [E|(a & E)]); pose proof (everywhere_in _ _ _ _ _ uint_widths I E) as H; cbn beta iota in H;
    apply Z.eqb_eq in H; eauto.
Qed.

Theorem int_field : forall a code ls k i gi gn kf op pre n ad, assembled a code ls k i gi gn kf op ->
  has i pre (OInt n ad) ->
  exists ka z kb, found ls k i gi gn kf pre ka [TImm z] kb /\
    - 2 ^ (Z.of_N n - 1) <= z < 2 ^ (Z.of_N n - 1) /\ sint n (field (value op) ad n) = z.
Proof.
  intros a code ls k i gi gn kf op pre n ad H E. seek H E (eq_refl false) ka k1 kb wa b r.
  destruct S as (z & -> & Z & -> & _).
  exists ka, z, kb. split; [here|]. split; [exact Z|].
  rewrite (field_of _ _ _ ad n V (sub_refl _)), field_place by apply to_N_mod. apply sint_mod; [|exact Z].
  destruct n; [|lia]. cbn in Z. lia.
Qed.

Theorem imm20_field : forall a code ls k i gi gn kf op pre, assembled a code ls k i gi gn kf op ->
  has i pre OImm20 ->
  exists ka z kb, found ls k i gi gn kf pre ka [TImm z] kb /\ - 2 ^ 19 <= z < 2 ^ 19 /\
    field (value op) 20 19 = Z.to_N (z mod 2 ^ 19) /\ field (value op) 56 1 = (if (z <? 0)%Z then 1 else 0)%N /\
    sint 20 (field (value op) 20 19 + 2 ^ 19 * field (value op) 56 1) = z.
Proof.
  intros a code ls k i gi gn kf op pre H E. seek H E (eq_refl false) ka k1 kb wa b r.
  destruct S as (z & -> & Z & -> & _).
  assert (L : (Z.to_N (z mod 2 ^ 19) < 2 ^ 19)%N) by (apply (to_N_mod z 19)).
  assert (F1 : field (value op) 20 19 = Z.to_N (z mod 2 ^ 19)).
  { rewrite (field_of _ _ _ 20 19 V eq_refl), field_lor, (field_place _ 20 19 L), field_flag_out by (left; discriminate).
    apply N.lor_0_r. }
  assert (F2 : field (value op) 56 1 = (if (z <? 0)%Z then 1 else 0)%N).
  { rewrite (field_of _ _ _ 56 1 V eq_refl), field_lor, (field_place_out _ 20 19 56 1 L) by (right; discriminate).
    rewrite N.lor_0_l. apply field_flag. }
  exists ka, z, kb. split; [here|]. split; [exact Z|]. split; [exact F1|]. split; [exact F2|].
  rewrite F1, F2. transitivity (sint 20 (Z.to_N (z mod 2 ^ Z.of_N 20))); [|apply sint_mod; [lia|exact Z]]. f_equal.
  change (Z.of_N 20) with 20. change (2 ^ 19)%N with 524288%N. change (2 ^ 19) with 524288 in *. change (2 ^ 20) with 1048576.
  clear - Z. destruct (Z.ltb_spec z 0).
  - rewrite <- (Z_mod_plus_full z 1 524288), <- (Z_mod_plus_full z 1 1048576). rewrite !Z.mod_small by lia. lia.
  - rewrite !Z.mod_small by lia. lia.
Qed.

(** ** Branch targets *)

Theorem label_field : forall a code ls k i gi gn kf op pre, assembled a code ls k i gi gn kf op ->
  has i pre OLabel ->
  exists ka t kb target, found ls k i gi gn kf pre ka [t] kb /\
    ((exists name, t = TIdent name /\ find_label ls name = Some target) \/ t = TImm target) /\
    - 2 ^ 23 <= target - (addr k + 8) < 2 ^ 23 /\
    addr k + 8 + sint 24 (field (value op) 20 24) = target.
Proof.
  intros a code ls k i gi gn kf op pre H E. seek H E (eq_refl false) ka k1 kb wa b r.
  cbv zeta in S. destruct S as (target & T & (Z & ->) & _).
  assert (X : addr k + 8 + sint 24 (field (value op) 20 24) = target).
  { rewrite (field_of _ _ _ 20 24 V (sub_refl _)), (field_place _ 20 24) by apply (to_N_mod _ 24).
    change (2 ^ 24) with (2 ^ Z.of_N 24). rewrite sint_mod; [lia|lia|exact Z]. }
  destruct T as [(name & -> & N)| ->].
  - exists ka, (TIdent name), kb, target. split; [here|]. split; [left; eauto|]. split; [exact Z|exact X].
  - exists ka, (TImm target), kb, target. split; [here|]. split; [right; reflexivity|]. split; [exact Z|exact X].
Qed.

(** ** Constant buffers *)

Theorem cbuf_field : forall a code ls k i gi gn kf op pre, assembled a code ls k i gi gn kf op ->
  has i pre OCbuf ->
  exists ka bank off kb,
    found ls k i gi gn kf pre ka [id "c"; TLbrack; TImm bank; TRbrack; TLbrack; TImm off; TRbrack] kb /\
    0 <= bank <= 31 /\ - 2 ^ 15 <= off < 2 ^ 15 /\ off mod 4 = 0 /\
    field (value op) 34 5 = Z.to_N bank /\ sint 16 (4 * field (value op) 20 14) = off.
Proof.
  intros a code ls k i gi gn kf op pre H E. seek H E (eq_refl false) ka k1 kb wa b r.
  destruct S as (bank & off & -> & B & O & M & -> & _).
  assert (LB : (Z.to_N bank < 2 ^ 5)%N) by (apply (to_N_lt _ 5); exact B).
  assert (P16 : off mod 2 ^ 16 = 4 * (off mod 2 ^ 16 / 4)).
  { change (2 ^ 16) with (4 * 16384). rewrite Z.rem_mul_r by lia. rewrite M, Z.add_0_l.
    rewrite (Z.mul_comm 4 (_ mod _)), Z.div_mul by lia. lia. }
  assert (LO : (Z.to_N (off mod 2 ^ 16 / 4) < 2 ^ 14)%N).
  { apply (to_N_lt _ 14). change (2 ^ Z.of_N 14) with 16384. split; [apply Z.div_pos; [apply Z.mod_pos_bound|]; lia|].
    apply Z.div_lt_upper_bound; [lia|]. change (4 * 16384) with (2 ^ 16). apply Z.mod_pos_bound. lia. }
  exists ka, bank, off, kb. split; [here|]. split; [lia|]. split; [exact O|]. split; [exact M|]. split.
  - rewrite (field_of _ _ _ 34 5 V eq_refl), field_lor, (field_place _ 34 5 LB).
    rewrite (field_place_out _ 20 14 34 5 LO) by (right; discriminate). apply N.lor_0_r.
  - rewrite (field_of _ _ _ 20 14 V eq_refl), field_lor, (field_place _ 20 14 LO).
    rewrite (field_place_out _ 34 5 20 14 LB) by (left; discriminate). rewrite N.lor_0_l.
    transitivity (sint 16 (Z.to_N (off mod 2 ^ Z.of_N 16))); [|apply sint_mod; [lia|exact O]]. f_equal.
    change (Z.of_N 16) with 16. rewrite P16 at 2. rewrite Z2N.inj_mul; [reflexivity|lia|].
    apply Z.div_pos; [|lia]. apply Z.mod_pos_bound. lia.
Qed.

(** ** Memory operands *)

(** Base register: none, a register, a register with [.reuse]. *)
Definition base_tokens (kr : list tkind) (n : N) (reused : bool) : Prop :=
  (kr = [] /\ n = 255%N /\ reused = false) \/ (kr = [TReg n] /\ reused = false) \/
  (kr = [TReg n; id ".reuse"] /\ reused = true).
(** Offset: none, or an integer that fits in [size] bits, unsigned when the
    base is RZ and signed otherwise. *)
Definition offset_tokens (imm : bool) (n size : N) (ki : list tkind) (o : Z) : Prop :=
  (ki = [] /\ o = 0) \/
  (imm = true /\ ki = [TImm o] /\
   if N.eqb n 255 then 0 <= o < 2 ^ Z.of_N size else - 2 ^ (Z.of_N size - 1) <= o < 2 ^ (Z.of_N size - 1)).

Lemma memory_bits : forall imm ad size shr ks b r, memory imm ad size shr ks b r -> Forall kind_ok ks ->
  (16 <= ad)%N -> (1 <= size)%N ->
  exists kr ki n reused o, ks = TLbrack :: kr ++ ki ++ [TRbrack] /\ base_tokens kr n reused /\
    offset_tokens imm n size ki o /\ (n <= 255)%N /\ field b 8 8 = n /\
    field b ad size = Z.to_N ((o / 2 ^ Z.of_N shr) mod 2 ^ Z.of_N size) /\ r = (if reused then 1 else 0)%N /\
    (shr = 0%N -> (if N.eqb n 255 then Z.of_N (field b ad size) else sint size (field b ad size)) = o) /\
    b = N.lor (place n 8) (place (Z.to_N ((o / 2 ^ Z.of_N shr) mod 2 ^ Z.of_N size)) ad).
Proof.
  intros imm ad size shr ks b r (kr & ki & n & o & -> & BR & OF & ->) K A S.
  assert (L : (n < 2 ^ 8)%N).
  { change (2 ^ 8)%N with 256%N. inversion K as [|? ? _ K1]; subst. apply Forall_app in K1 as (K1 & _).
    destruct BR as [(_ & -> & _)|[(-> & _)|(-> & _)]]; [reflexivity| |];
      inversion K1 as [|? ? K2]; subst; change (n <= 255)%N in K2; lia. }
  pose proof (to_N_mod (o / 2 ^ Z.of_N shr) size) as LO.
  assert (F1 : field (N.lor (place n 8) (place (Z.to_N ((o / 2 ^ Z.of_N shr) mod 2 ^ Z.of_N size)) ad)) 8 8 = n).
  { rewrite field_lor, (field_place _ 8 8 L), (field_place_out _ ad size 8 8 LO) by (left; lia). apply N.lor_0_r. }
  assert (F2 : field (N.lor (place n 8) (place (Z.to_N ((o / 2 ^ Z.of_N shr) mod 2 ^ Z.of_N size)) ad)) ad size =
    Z.to_N ((o / 2 ^ Z.of_N shr) mod 2 ^ Z.of_N size)).
  { rewrite field_lor, (field_place_out _ 8 8 ad size L) by (right; lia). rewrite N.lor_0_l. apply field_place. exact LO. }
  pose proof (Z.pow_pos_nonneg 2 (Z.of_N size - 1) ltac:(lia) ltac:(lia)) as P1.
  pose proof (Z.pow_pos_nonneg 2 (Z.of_N size) ltac:(lia) ltac:(lia)) as P2.
  assert (X : exists reused, base_tokens kr n reused /\ r = (if reused then 1 else 0)%N).
  { destruct BR as [(-> & -> & ->)|[(-> & ->)|(-> & ->)]]; [exists false|exists false|exists true]; unfold base_tokens; auto 6. }
  destruct X as (reused & BT & RE).
  exists kr, ki, n, reused, o. split; [reflexivity|]. split; [exact BT|]. split; [exact OF|].
  split; [change (2 ^ 8)%N with 256%N in L; lia|]. split; [exact F1|]. split; [exact F2|]. split; [exact RE|].
  split; [|reflexivity]. intros ->. rewrite F2. change (2 ^ Z.of_N 0) with 1. rewrite Z.div_1_r.
  destruct (N.eqb n 255) eqn:RZ.
  - assert (0 <= o < 2 ^ Z.of_N size) by (destruct OF as [(_ & ->)|(_ & _ & OF)]; [lia|exact OF]).
    rewrite Z.mod_small by assumption. apply Z2N.id. lia.
  - apply sint_mod; [lia|]. destruct OF as [(_ & ->)|(_ & _ & OF)]; [lia|exact OF].
Qed.
Lemma memory_places : everywhere (fun i pre o post => match o with
  | OMemAddress _ ad size _ | OAbs _ (OMemAddress _ ad size _) => N.leb 16 ad && N.leb 1 size | _ => true end) = true.
Proof. vm_compute. reflexivity. Qed.
Lemma sub_app : forall a m m', sub a m -> sub a (N.lor m m').
Proof. intros. now apply sub_lor_l. Qed.

Theorem memory_field : forall a code ls k i gi gn kf op pre imm ad size shr, assembled a code ls k i gi gn kf op ->
  has i pre (OMemAddress imm ad size shr) ->
  exists ka kr ki n reused o kb, found ls k i gi gn kf pre ka (TLbrack :: kr ++ ki ++ [TRbrack]) kb /\
    base_tokens kr n reused /\ offset_tokens imm n size ki o /\ (n <= 255)%N /\
    field (value op) 8 8 = n /\
    (imm = true -> field (value op) ad size = Z.to_N ((o / 2 ^ Z.of_N shr) mod 2 ^ Z.of_N size)) /\
    (imm = true -> shr = 0%N ->
       (if N.eqb n 255 then Z.of_N (field (value op) ad size) else sint size (field (value op) ad size)) = o) /\
    (N.testbit (reuse op) 0 = reused).
Proof.
  intros a code ls k i gi gn kf op pre imm ad size shr H E.
  assert (B : (16 <= ad)%N /\ (1 <= size)%N).
  { destruct (assembled_ok _ _ _ _ _ _ _ _ _ H) as (I & _). destruct E as (post & [E|(x & E)]);
      pose proof (everywhere_in _ _ _ _ _ memory_places I E) as Q; cbn beta iota in Q;
      apply andb_true_iff in Q as (Q1 & Q2); apply N.leb_le in Q1, Q2; auto. }
  destruct B as (B1 & B2). seek H E (eq_refl false) ka k1 kb wa b r.
  destruct (memory_bits _ _ _ _ _ _ _ S K B1 B2) as (kr & ki & n & reused & o & -> & BT & OF & L & F1 & F2 & RE & SH & EB).
  exists ka, kr, ki, n, reused, o, kb. split; [here|]. split; [exact BT|]. split; [exact OF|]. split; [exact L|].
  split; [rewrite <- F1; eapply field_of; [exact V|apply sub_app, sub_refl]|].
  assert (X : imm = true -> field (value op) ad size = field b ad size).
  { intros ->. eapply field_of; [exact V|]. cbn [mask]. apply sub_lor_r, sub_refl. }
  split; [intros Q; rewrite (X Q); exact F2|]. split; [intros Q; rewrite (X Q); exact SH|].
  rewrite RE in R. assert (Q : N.testbit (N.land (reuse op) 1) 0 = reused) by (rewrite R; destruct reused; reflexivity).
  rewrite N.land_spec, andb_true_r in Q. exact Q.
Qed.

Theorem ldc_field : forall a code ls k i gi gn kf op pre, assembled a code ls k i gi gn kf op ->
  has i pre OLdcAddress ->
  exists ka bank kr ki n reused o kb,
    found ls k i gi gn kf pre ka (id "c" :: TLbrack :: TImm bank :: TRbrack :: TLbrack :: kr ++ ki ++ [TRbrack]) kb /\
    base_tokens kr n reused /\ offset_tokens true n 16 ki o /\ (n <= 255)%N /\
    0 <= bank <= 31 /\ field (value op) 36 5 = Z.to_N bank /\
    field (value op) 8 8 = n /\
    (if N.eqb n 255 then Z.of_N (field (value op) 20 16) else sint 16 (field (value op) 20 16)) = o /\
    N.testbit (reuse op) 0 = reused.
Proof.
  intros a code ls k i gi gn kf op pre H E. seek H E (eq_refl false) ka k1 kb wa b r.
  destruct S as (bank & km & b' & -> & B & M & ->).
  assert (KM : Forall kind_ok km) by (do 4 (apply Forall_inv_tail in K); exact K).
  destruct (memory_bits _ _ _ _ _ _ _ M KM ltac:(discriminate) ltac:(discriminate))
    as (kr & ki & n & reused & o & -> & BT & OF & L & F1 & F2 & RE & SH & EB).
  assert (LB : (Z.to_N bank < 2 ^ 5)%N) by (apply (to_N_lt _ 5); exact B).
  assert (LN : (n < 2 ^ 8)%N) by (change (2 ^ 8)%N with 256%N; lia).
  exists ka, bank, kr, ki, n, reused, o, kb. split; [here|]. split; [exact BT|]. split; [exact OF|].
  split; [exact L|]. split; [lia|]. split; [|split; [|split]].
  - rewrite (field_of _ _ _ 36 5 V eq_refl), field_lor, (field_place _ 36 5 LB), EB, field_lor.
    rewrite (field_place_out _ 8 8 36 5 LN) by (right; discriminate).
    rewrite (field_place_out _ 20 16 36 5 (to_N_mod _ 16)) by (right; discriminate). apply N.lor_0_r.
  - rewrite (field_of _ _ _ 8 8 V eq_refl), field_lor, F1.
    rewrite (field_place_out _ 36 5 8 8 LB) by (left; discriminate). apply N.lor_0_l.
  - rewrite (field_of _ _ _ 20 16 V eq_refl), field_lor.
    rewrite (field_place_out _ 36 5 20 16 LB) by (left; discriminate). rewrite N.lor_0_l. exact (SH eq_refl).
  - rewrite RE in R. assert (Q : N.testbit (N.land (reuse op) 1) 0 = reused) by (rewrite R; destruct reused; reflexivity).
    rewrite N.land_spec, andb_true_r in Q. exact Q.
Qed.

Theorem imm_attr_field : forall a code ls k i gi gn kf op pre, assembled a code ls k i gi gn kf op ->
  has i pre OImmAttr ->
  exists ka z kb, found ls k i gi gn kf pre ka [id "a"; TLbrack; TImm z; TRbrack] kb /\
    0 <= z < 2 ^ 10 /\ field (value op) 20 10 = Z.to_N z /\ field (value op) 8 8 = 255%N.
Proof.
  intros a code ls k i gi gn kf op pre H E. seek H E (eq_refl false) ka k1 kb wa b r.
  destruct S as (z & -> & Z & -> & _). assert (L : (Z.to_N z < 2 ^ 10)%N) by (apply (to_N_lt _ 10); exact Z).
  exists ka, z, kb. split; [here|]. split; [exact Z|]. split.
  - rewrite (field_of _ _ _ 20 10 V eq_refl), field_lor, (field_place _ 20 10 L).
    rewrite (field_place_out 255 8 8 20 10) by (reflexivity || (right; discriminate)). apply N.lor_0_r.
  - rewrite (field_of _ _ _ 8 8 V eq_refl), field_lor, (field_place_out _ 20 10 8 8 L) by (left; discriminate).
    rewrite N.lor_0_l. apply field_place. reflexivity.
Qed.
Theorem patch_attr_field : forall a code ls k i gi gn kf op pre, assembled a code ls k i gi gn kf op ->
  has i pre OPatchAttr ->
  exists ka n kr kp z kb, found ls k i gi gn kf pre ka (id "a" :: TLbrack :: TReg n :: kr ++ kp ++ [TImm z; TRbrack]) kb /\
    (kp = [] \/ kp = [TPlus]) /\ - 2 ^ 10 <= z < 2 ^ 10 /\
    field (value op) 8 8 = n /\ sint 11 (field (value op) 20 11) = z /\
    ((kr = [] /\ N.testbit (reuse op) 0 = false) \/ (kr = [id ".reuse"] /\ N.testbit (reuse op) 0 = true)).
Proof.
  intros a code ls k i gi gn kf op pre H E. seek H E (eq_refl false) ka k1 kb wa b r.
  destruct S as (kr & kp & z & n & -> & RG & KP & Z & ->).
  assert (KR : Forall kind_ok kr) by (do 2 (apply Forall_inv_tail in K); apply Forall_app in K; apply K).
  pose proof (reg_kind _ _ _ _ _ RG KR) as L.
  assert (F1 : field (value op) 8 8 = n).
  { rewrite (field_of _ _ _ 8 8 V eq_refl), field_lor, (field_place _ 8 8 L).
    rewrite (field_place_out _ 20 11 8 8 (to_N_mod _ 11)) by (left; discriminate). apply N.lor_0_r. }
  assert (F2 : sint 11 (field (value op) 20 11) = z).
  { rewrite (field_of _ _ _ 20 11 V eq_refl), field_lor, (field_place_out _ 8 8 20 11 L) by (right; discriminate).
    rewrite N.lor_0_l, (field_place _ 20 11 (to_N_mod _ 11)). apply sint_mod; [lia|exact Z]. }
  assert (Q : N.testbit (reuse op) 0 = N.testbit r 0) by (rewrite <- R, N.land_spec, andb_true_r; reflexivity).
  destruct RG as [(-> & _ & ->)|(-> & RB)].
  - exists ka, n, [], kp, z, kb. split; [here|]. auto 8.
  - injection RB as <-. exists ka, n, [id ".reuse"], kp, z, kb. split; [here|]. auto 8.
Qed.
Theorem phys_attr_field : forall a code ls k i gi gn kf op pre, assembled a code ls k i gi gn kf op ->
  has i pre OPhysAttr ->
  exists ka n kr kb, found ls k i gi gn kf pre ka (id "a" :: TLbrack :: TReg n :: kr ++ [TRbrack]) kb /\
    field (value op) 8 8 = n /\
    ((kr = [] /\ N.testbit (reuse op) 0 = false) \/ (kr = [id ".reuse"] /\ N.testbit (reuse op) 0 = true)).
Proof.
  intros a code ls k i gi gn kf op pre H E. seek H E (eq_refl false) ka k1 kb wa b r.
  destruct S as (kr & n & -> & RG & ->).
  assert (KR : Forall kind_ok kr) by (do 2 (apply Forall_inv_tail in K); apply Forall_app in K; apply K).
  pose proof (reg_kind _ _ _ _ _ RG KR) as L.
  assert (F1 : field (value op) 8 8 = n).
  { rewrite (field_of _ _ _ 8 8 V eq_refl). apply field_place. exact L. }
  assert (Q : N.testbit (reuse op) 0 = N.testbit r 0) by (rewrite <- R, N.land_spec, andb_true_r; reflexivity).
  destruct RG as [(-> & _ & ->)|(-> & RB)].
  - exists ka, n, [], kb. split; [here|]. auto 8.
  - injection RB as <-. exists ka, n, [id ".reuse"], kb. split; [here|]. auto 8.
Qed.

(** ** Registers *)

(** The reuse bit of the register operand at bit [ad]. *)
Definition reuse_slot (ad : N) : option N :=
  if N.eqb ad 8 then Some 0%N else if N.eqb ad 20 then Some 1%N else if N.eqb ad 39 then Some 2%N else None.

Theorem gpr_field : forall a code ls k i gi gn kf op pre ad, assembled a code ls k i gi gn kf op ->
  has i pre (OGpr ad) -> ~ (In OUimmExtended (i_operands i) /\ ad = 39%N) ->
  exists ka n kr kb, found ls k i gi gn kf pre ka (TReg n :: kr) kb /\ (n <= 255)%N /\ field (value op) ad 8 = n /\
    ((kr = [] /\ hd TSemi kb <> id ".reuse" /\
      forall s, reuse_slot ad = Some s -> N.testbit (reuse op) s = false) \/
     (kr = [id ".reuse"] /\ exists s, reuse_slot ad = Some s /\ N.testbit (reuse op) s = true)).
Proof.
  intros a code ls k i gi gn kf op pre ad H E NI.
  assert (SH : shares i (OGpr ad) = false).
  { cbn [shares]. destruct (existsb _ (i_operands i)) eqn:X; [|reflexivity].
    destruct (N.eqb_spec ad 39); [|reflexivity]. destruct NI. apply existsb_exists in X as (o & IO & X).
    destruct o; try discriminate. auto. }
  seek H E SH ka k1 kb wa b r.
  destruct S as (n & S & ->). pose proof (reg_kind _ _ _ _ _ S K) as L.
  assert (X : field (value op) ad 8 = n).
  { rewrite (field_of _ _ _ ad 8 V (sub_refl _)). apply field_place. exact L. }
  change (2 ^ 8)%N with 256%N in L.
  assert (Q : forall s, reuse_slot ad = Some s -> N.testbit (reuse op) s = N.testbit r s).
  { intros s Q. rewrite <- R, N.land_spec. unfold reuse_slot, reuse_flag in *.
    destruct (N.eqb ad 8); [injection Q as <-; now rewrite andb_true_r|].
    destruct (N.eqb ad 20); [injection Q as <-; now rewrite andb_true_r|].
    destruct (N.eqb ad 39); [injection Q as <-; now rewrite andb_true_r|discriminate]. }
  destruct S as [(-> & NX & ->)|(-> & RB)].
  - exists ka, n, [], kb. split; [here|]. split; [lia|]. split; [exact X|]. left. split; [reflexivity|].
    split; [exact NX|]. intros s SL. rewrite (Q s SL). apply N.bits_0.
  - exists ka, n, [id ".reuse"], kb. split; [here|]. split; [lia|]. split; [exact X|]. right. split; [reflexivity|].
    unfold reuse_bit in RB. unfold reuse_slot in *.
    destruct (N.eqb ad 8); [injection RB as <-; exists 0%N; split; [reflexivity|rewrite (Q _ eq_refl); reflexivity]|].
    destruct (N.eqb ad 20); [injection RB as <-; exists 1%N; split; [reflexivity|rewrite (Q _ eq_refl); reflexivity]|].
    destruct (N.eqb ad 39); [injection RB as <-; exists 2%N; split; [reflexivity|rewrite (Q _ eq_refl); reflexivity]|discriminate].
Qed.

(** ** Predicates *)

Theorem pred_field : forall a code ls k i gi gn kf op pre ad negable, assembled a code ls k i gi gn kf op ->
  has i pre (OPred ad negable) ->
  exists ka n neg kb, found ls k i gi gn kf pre ka [TPred n neg] kb /\ (n <= 7)%N /\ field (value op) ad 3 = n /\
    (if negable then field (value op) (ad + 3) 1 = (if neg then 1 else 0)%N else neg = false).
Proof.
  intros a code ls k i gi gn kf op pre ad negable H E. seek H E (eq_refl false) ka k1 kb wa b r.
  destruct S as (n & neg & -> & _ & S). pose proof (Forall_inv K) as KN. change (n <= 7)%N in KN.
  assert (L : (n < 2 ^ 3)%N) by (change (2 ^ 3)%N with 8%N; lia).
  exists ka, n, neg, kb. split; [here|]. split; [exact KN|]. destruct negable.
  - subst b. split.
    + rewrite (field_of _ _ _ ad 3 V) by (apply sub_range; lia). rewrite field_lor, (field_place _ ad 3 L).
      rewrite field_flag_out by (left; lia). apply N.lor_0_r.
    + rewrite (field_of _ _ _ (ad + 3) 1 V) by (apply sub_range; lia). rewrite field_lor.
      rewrite (field_place_out _ ad 3 (ad + 3) 1 L) by (right; lia). rewrite N.lor_0_l. apply field_flag.
  - destruct S as (-> & ->). split; [|reflexivity]. rewrite (field_of _ _ _ ad 3 V (sub_refl _)). apply field_place. exact L.
Qed.
Theorem inverted_pred_field : forall a code ls k i gi gn kf op pre ad, assembled a code ls k i gi gn kf op ->
  has i pre (OInvPred ad) ->
  exists ka n kb, found ls k i gi gn kf pre ka [TPred n false] kb /\ (n <= 7)%N /\ field (value op) ad 3 = (7 - n)%N.
Proof.
  intros a code ls k i gi gn kf op pre ad H E. seek H E (eq_refl false) ka k1 kb wa b r.
  destruct S as (n & -> & -> & _). pose proof (Forall_inv K) as KN. change (n <= 7)%N in KN.
  exists ka, n, kb. split; [here|]. split; [exact KN|]. rewrite (field_of _ _ _ ad 3 V (sub_refl _)). apply field_place.
  change (2 ^ 3)%N with 8%N. lia.
Qed.
