(** * Footprint: which bits of the word an operand can change. *)
From Verif Require Import Base Float Lexer Operand Catalogue Table Parse Spec Bits LexFacts ParseFacts.
From Coq Require Import Lia.
Local Open Scope string_scope.
Open Scope Z_scope.

(** ** The fields of an operand *)

(** [n] bits from bit [a]. *)
Definition range (a n : N) : N := N.shiftl (N.ones n) a.
(** Bits needed for an index into a table (or the default value). *)
Definition index_bits (d : option N) (tbl : list string) : N :=
  N.size (N.max (N.pred (N.of_nat (List.length tbl))) (value_or d 0)).

(** The bits of the word an operand owns. *)
Fixpoint mask (o : opnd) : N :=
  match o with
  | OComma | OOptText _ | OMirrorGpr _ | OZero => 0
  | OFlag _ a | OOptType _ a => range a 1
  | OUint max a => range a (N.size (Z.to_N max))
  | OInt bits a => range a bits
  | ODotTable d a tbl => range a (index_bits d tbl)
  | OReqTable _ a tbl _ => range a (index_bits None tbl)
  | OReqText _ bits _ => bits
  | OReqTextAfter _ b1 b2 _ => N.lor b1 b2
  | OUimmExtended => N.lor (range 20 20) (range 56 1)
  | OLabel => range 20 24
  | OGpr a | ODefaultRz a => range a 8
  | OCbuf => N.lor (range 34 5) (range 20 14)
  | OImm20 | ODimm => N.lor (range 20 19) (range 56 1)
  | OFimm bits => if N.eqb bits 20 then N.lor (range 20 19) (range 56 1) else range 20 32
  | OHalf bits offset nb =>
      N.lor (range offset (if N.eqb bits 9 then 9 else 16))
            (match nb with Some a => range a 1 | None => 0 end)
  | OPred a negable => range a (if negable then 4 else 3)
  | OInvPred a => range a 3
  | OAbs a inner => N.lor (range a 1) (mask inner)
  | OPo a1 a2 => N.lor (range a1 1) (range a2 1)
  | OMemAddress imm a size _ => N.lor (range 8 8) (if imm then range a size else 0)
  | OCcTests tests a => range a (index_bits (Some 15%N) tests)
  | OImmAttr => N.lor (range 20 10) (range 8 8)
  | OPatchAttr => N.lor (range 20 11) (range 8 8)
  | OPhysAttr => range 8 8
  | OXmadSigns => range 48 2
  | OF2fRounding => N.shiftl 11 39
  | OIntFormat u sg a sa _ => N.lor (range a (N.max (index_bits None u) (index_bits None sg))) (range sa 1)
  | OLdcAddress => N.lor (range 36 5) (N.lor (range 8 8) (range 20 16))
  | OS2r tbl => range 20 (N.max 6 (index_bits None tbl))
  | OLdgSize => range 48 3
  | OSelector _ _ shorts a => range a (N.max 2 (index_bits None shorts))
  | OAtomicSize a => range a 3
  | OSrcFormat a sa => N.lor (range a 2) (range sa 1)
  | OTexType a => range a 3
  | OTexsMode a => range a 3
  | OTldsType a => range a 4
  | OTexsType a => N.lor (range a 3) (range 53 4)
  | OTexsSwizzle => range 50 3
  end%N.

(** The reuse flags an operand can set. *)
Definition reuse_flag (a : N) : N :=
  (if N.eqb a 8 then 1 else if N.eqb a 20 then 2 else if N.eqb a 39 then 4 else 0)%N.
Fixpoint reuse_mask (o : opnd) : N :=
  match o with
  | OGpr a | OMirrorGpr a => reuse_flag a
  | OMemAddress _ _ _ _ | OPatchAttr | OPhysAttr | OLdcAddress => 1%N
  | OAbs _ inner => reuse_mask inner
  | _ => 0%N
  end.

(** ** Sets of bits *)

Definition sub (b m : N) : Prop := N.ldiff b m = 0%N.

Lemma sub_spec : forall b m, sub b m <-> forall k, N.testbit b k = true -> N.testbit m k = true.
Proof.
  intros b m. unfold sub. split.
  - intros H k Hb. assert (E : N.testbit (N.ldiff b m) k = false) by (rewrite H; apply N.bits_0).
    rewrite N.ldiff_spec, Hb in E. destruct (N.testbit m k); [reflexivity|discriminate].
  - intros H. apply N.bits_inj. intros k. rewrite N.ldiff_spec, N.bits_0. specialize (H k).
    destruct (N.testbit b k); [rewrite H; reflexivity|reflexivity].
Qed.
Lemma sub_refl : forall m, sub m m.
Proof. intros m. apply N.ldiff_diag. Qed.
Lemma sub_0 : forall m, sub 0 m.
Proof. intros m. apply N.ldiff_0_l. Qed.
Lemma sub_lor_l : forall b x y, sub b x -> sub b (N.lor x y).
Proof.
  intros b x y H. rewrite sub_spec in *. intros k Hk. rewrite N.lor_spec, (H k Hk). reflexivity.
Qed.
Lemma sub_lor_r : forall b x y, sub b y -> sub b (N.lor x y).
Proof.
  intros b x y H. rewrite sub_spec in *. intros k Hk. rewrite N.lor_spec, (H k Hk). apply orb_true_r.
Qed.
Lemma sub_lor : forall a b m, sub a m -> sub b m -> sub (N.lor a b) m.
Proof.
  intros a b m H K. rewrite sub_spec in *. intros k. rewrite N.lor_spec. intros E.
  apply orb_true_iff in E as [E|E]; auto.
Qed.
Lemma sub_trans : forall a b c, sub a b -> sub b c -> sub a c.
Proof. intros a b c H K. rewrite sub_spec in *. auto. Qed.
Lemma range_spec : forall a n k, N.testbit (range a n) k = N.leb a k && N.ltb k (a + n).
Proof.
  intros a n k. unfold range. destruct (N.leb_spec a k) as [L|L].
  - rewrite N.shiftl_spec_high' by exact L. destruct (N.ltb_spec k (a + n)).
    + rewrite N.ones_spec_low by lia. reflexivity.
    + rewrite N.ones_spec_high by lia. reflexivity.
  - rewrite N.shiftl_spec_low by exact L. reflexivity.
Qed.
Lemma sub_range : forall a n b m, (b <= a)%N -> (a + n <= b + m)%N -> sub (range a n) (range b m).
Proof.
  intros a n b m H K. apply sub_spec. intros k. rewrite !range_spec.
  destruct (N.leb_spec a k), (N.ltb_spec k (a + n)); try discriminate. intros _.
  destruct (N.leb_spec b k), (N.ltb_spec k (b + m)); try reflexivity; lia.
Qed.
Lemma bits_small : forall v n k, (v < 2 ^ n)%N -> (n <= k)%N -> N.testbit v k = false.
Proof.
  intros v n k H K. rewrite <- (N.mod_small v (2 ^ n)) by exact H. apply N.mod_pow2_bits_high. exact K.
Qed.
Lemma sub_shl : forall v a n, (v < 2 ^ n)%N -> sub (shl64 v a) (range a n).
Proof.
  intros v a n H. apply sub_spec. intros k Hk. rewrite range_spec. unfold shl64 in Hk.
  change two64 with (2 ^ 64)%N in Hk. destruct (N.ltb_spec k 64).
  2:{ rewrite N.mod_pow2_bits_high in Hk by assumption. discriminate. }
  rewrite N.mod_pow2_bits_low in Hk by assumption.
  destruct (N.leb_spec a k) as [L|L].
  - rewrite N.shiftl_spec_high' in Hk by exact L. destruct (N.ltb_spec k (a + n)); [reflexivity|].
    rewrite (bits_small v n) in Hk by (auto; lia). discriminate.
  - rewrite N.shiftl_spec_low in Hk by exact L. discriminate.
Qed.
Lemma shl64_lt : forall v a, (shl64 v a < 2 ^ 64)%N.
Proof. intros v a. apply N.mod_lt. discriminate. Qed.
Lemma lor_lt : forall a b n, (a < 2 ^ n)%N -> (b < 2 ^ n)%N -> (N.lor a b < 2 ^ n)%N.
Proof.
  intros a b n H K. assert (E : N.lor a b = N.land (N.lor a b) (N.ones n)).
  { apply N.bits_inj. intros k. rewrite N.land_spec. destruct (N.ltb_spec k n).
    - rewrite N.ones_spec_low, andb_true_r by assumption. reflexivity.
    - rewrite N.lor_spec, (bits_small a n), (bits_small b n) by assumption. reflexivity. }
  rewrite E, N.land_ones. apply N.mod_lt. apply N.pow_nonzero. discriminate.
Qed.
Lemma ldiff_le_lt : forall a m n, (a < 2 ^ n)%N -> (N.ldiff a m < 2 ^ n)%N.
Proof.
  intros a m n H. assert (E : N.ldiff a m = N.land (N.ldiff a m) (N.ones n)).
  { apply N.bits_inj. intros k. rewrite N.land_spec. destruct (N.ltb_spec k n).
    - rewrite N.ones_spec_low, andb_true_r by assumption. reflexivity.
    - rewrite N.ldiff_spec, (bits_small a n) by assumption. reflexivity. }
  rewrite E, N.land_ones. apply N.mod_lt. apply N.pow_nonzero. discriminate.
Qed.
Lemma land_lt : forall a b n, (b < 2 ^ n)%N -> (N.land a b < 2 ^ n)%N.
Proof.
  intros a b n H. assert (E : N.land a b = N.land (N.land a b) (N.ones n)).
  { apply N.bits_inj. intros k. rewrite !N.land_spec. destruct (N.ltb_spec k n).
    - rewrite N.ones_spec_low, andb_true_r by assumption. reflexivity.
    - rewrite (bits_small b n) by assumption. rewrite andb_false_r. reflexivity. }
  rewrite E, N.land_ones. apply N.mod_lt. apply N.pow_nonzero. discriminate.
Qed.
Lemma size_lt : forall v m, (v <= m)%N -> (v < 2 ^ N.size m)%N.
Proof. intros v m H. pose proof (N.size_gt m). lia. Qed.

(** ** Pre- and postconditions on successful results *)

Definition ensures {A} (P : A -> Prop) (m : res A) : Prop := forall x, m = Ok x -> P x.
Lemma en_bind : forall A B (Q : A -> Prop) (P : B -> Prop) m k,
  ensures Q m -> (forall x, Q x -> ensures P (k x)) -> ensures P (bind m k).
Proof. intros A B Q P m k H K x E. apply bind_ok in E as (a & Ea & E). eapply K; eauto. Qed.
Lemma en_ok : forall A (P : A -> Prop) x, P x -> ensures P (Ok x).
Proof. intros A P x H y [= <-]. exact H. Qed.
Lemma en_fail : forall A (P : A -> Prop) t m, ensures P (fail t m).
Proof. intros A P t m x H; discriminate. Qed.
Lemma en_undef : forall A (P : A -> Prop) u, ensures P (Undef u).
Proof. intros A P t x H; discriminate. Qed.
Lemma en_abort : forall A (P : A -> Prop) u, ensures P (Abort u).
Proof. intros A P t x H; discriminate. Qed.
Lemma en_weak : forall A (P Q : A -> Prop) m, ensures P m -> (forall x, P x -> Q x) -> ensures Q m.
Proof. intros A P Q m H K x E. auto. Qed.

Lemma en_convert : forall s mn mx, ensures (fun v => exists z, s_kind s = TImm z /\ mn <= z <= mx /\ v = u64_of_Z z)
  (convert_integer s mn mx).
Proof.
  intros s mn mx v H. unfold convert_integer in H. inv_bind H.
  unfold confirm_type in Hx. destruct (ttype_eqb _ _); [|discriminate]. injection Hx as <-.
  destruct (s_kind s) eqn:K; try discriminate.
  destruct (_ || _) eqn:E; [discriminate|]. injection H as <-.
  apply orb_false_iff in E as (E1 & E2). apply Z.ltb_ge in E1, E2. eauto.
Qed.
Lemma en_confirm : forall ty s, ensures (fun s' => s' = s /\ type_of (s_kind s) = ty) (confirm_type ty s).
Proof.
  intros ty s s' H. unfold confirm_type in H. destruct (ttype_eqb _ _) eqn:E; [|discriminate].
  injection H as <-. apply ttype_eqb_eq in E. auto.
Qed.
Lemma index_of_lt : forall tbl i t j, index_of i tbl t = Some j ->
  (i <= j /\ j < i + N.of_nat (List.length tbl))%N.
Proof.
  induction tbl as [|x tbl IH]; intros i t j H; cbn [index_of] in H; [discriminate|].
  destruct (text_eqb _ _).
  - injection H as <-. cbn [List.length]. lia.
  - apply IH in H. cbn [List.length]. lia.
Qed.
Lemma en_find : forall b tbl p t,
  ensures (fun r => forall i, r = Some i -> (i < N.of_nat (List.length tbl))%N) (find_in_table b tbl p t).
Proof.
  intros b tbl p t r H i ->. unfold find_in_table in H. destruct (kind t); try discriminate.
  destruct (strip_prefix _ _) as [txt|]; [|discriminate].
  destruct (index_of 0 tbl txt) as [j|] eqn:E; [|destruct b; discriminate].
  injection H as <-. apply index_of_lt in E. lia.
Qed.

(** ** The invariant *)

Record inv (m rm : N) (s0 s : st) : Prop := Inv {
  inv_tok : kind_ok (s_kind s);
  inv_word : (value (s_op s) < 2 ^ 64)%N;
  inv_value : N.ldiff (value (s_op s)) m = N.ldiff (value (s_op s0)) m;
  inv_reuse : exists r, reuse (s_op s) = N.lor (reuse (s_op s0)) r /\ sub r rm;
  inv_sched : sched (s_op s) = sched (s_op s0) }.

Lemma ldiff_lor_sub : forall v b m, sub b m -> N.ldiff (N.lor v b) m = N.ldiff v m.
Proof.
  intros v b m H. rewrite sub_spec in H. apply N.bits_inj. intros k.
  rewrite !N.ldiff_spec, N.lor_spec. specialize (H k).
  destruct (N.testbit b k); [rewrite H by reflexivity; cbn; rewrite !andb_false_r; reflexivity|].
  rewrite orb_false_r. reflexivity.
Qed.
Lemma ldiff_ldiff_sub : forall v b m, sub b m -> N.ldiff (N.ldiff v b) m = N.ldiff v m.
Proof.
  intros v b m H. rewrite sub_spec in H. apply N.bits_inj. intros k.
  rewrite !N.ldiff_spec. specialize (H k).
  destruct (N.testbit b k); [rewrite H by reflexivity; cbn; rewrite !andb_false_r; reflexivity|].
  cbn. rewrite andb_true_r. reflexivity.
Qed.

Section Op.
  Variable e : env.
  Variables (m rm : N) (s0 : st).
  Let I := inv m rm s0.

  Lemma en_advance : forall s, I s -> ensures I (advance_tok s).
  Proof.
    intros s [T W V R S] s' H. unfold advance_tok in H. inv_bind H. destruct x as (t, c).
    injection H as <-. apply tokenize_spec in Hx as (q & cq & b & _ & _ & _ & _ & _ & _ & _ & K).
    constructor; auto.
  Qed.
  Lemma en_put : forall b s, I s -> sub b m -> (b < 2 ^ 64)%N -> ensures I (put e b s).
  Proof.
    intros b s [T W V R S] B L s' H. unfold put in H. inv_bind H. injection H as <-.
    unfold add_bits in Hx. destruct (_ && _); [discriminate|]. injection Hx as <-.
    constructor; cbn [s_op s_kind s_tok value reuse sched] in *; auto.
    - apply lor_lt; auto.
    - rewrite ldiff_lor_sub; auto.
  Qed.
  Lemma I_clear : forall s b, I s -> sub b m -> I (set_value (andnot (value (s_op s)) b) s).
  Proof.
    intros s b [T W V R S] B. constructor; cbn [set_value s_op s_kind s_tok value reuse sched] in *; auto.
    - apply ldiff_le_lt; auto.
    - unfold andnot. rewrite ldiff_ldiff_sub; auto.
  Qed.
  Lemma en_shl : forall v a n s, I s -> (v < 2 ^ n)%N -> sub (range a n) m -> ensures I (put e (shl64 v a) s).
  Proof.
    intros v a n s H L S. apply en_put; auto; [|apply shl64_lt].
    eapply sub_trans; [apply sub_shl; exact L|exact S].
  Qed.
  Lemma en_try_reuse : forall a s, I s -> sub (reuse_flag a) rm -> ensures I (try_reuse e a s).
  Proof.
    intros a s [T W V (r & R1 & R2) S] L s' H. unfold try_reuse in H. destruct (equal _ _); cbn [negb] in H.
    2:{ injection H as <-. constructor; eauto. }
    assert (G : forall f, sub (N.modulo f 256) rm -> ensures I (let* op := add_reuse (e_asserts e) (s_op s) f in
      advance_tok (St (s_cur s) (s_tok s) op))).
    { intros f F. eapply (en_bind _ _ (fun op => op = Opcode (value (s_op s)) (N.lor (reuse (s_op s)) (N.modulo f 256)) (sched (s_op s)))).
      - intros op E. unfold add_reuse in E. destruct (_ && _); [discriminate|]. injection E as <-. reflexivity.
      - intros op ->. apply en_advance. constructor; cbn [s_op s_kind s_tok value reuse sched]; auto.
        exists (N.lor r (N.modulo f 256)). rewrite R1, N.lor_assoc. split; [reflexivity|]. apply sub_lor; auto. }
    unfold reuse_flag in L. destruct (N.eqb a 8); [exact (G reuse_gpr8 L _ H)|].
    destruct (N.eqb a 20); [exact (G reuse_gpr20 L _ H)|].
    destruct (N.eqb a 39); [exact (G reuse_gpr39 L _ H)|discriminate].
  Qed.
  Lemma en_gpr : forall a s, I s -> sub (range a 8) m -> sub (reuse_flag a) rm -> ensures I (assemble_gpr e a s).
  Proof.
    intros a s H M L. unfold assemble_gpr. eapply en_bind; [apply en_confirm|]. intros s1 (-> & _).
    pose proof (inv_tok _ _ _ _ H) as K. destruct (s_kind s); try apply en_undef. cbn in K.
    eapply en_bind; [eapply (en_shl _ _ 8); eauto; change (2 ^ 8)%N with 256%N; lia|]. intros s2 H2.
    eapply en_bind; [apply en_advance; exact H2|]. intros s3 H3. apply en_try_reuse; auto.
  Qed.

  (** Values written by the operands, by width. *)
  Lemma u64_small : forall z n, 0 <= z < 2 ^ Z.of_N n -> (n <= 64)%N -> (u64_of_Z z < 2 ^ n)%N.
  Proof.
    intros z n H L. unfold u64_of_Z.
    assert (z < Z.of_N two64).
    { apply Z.lt_le_trans with (2 ^ Z.of_N n); [lia|]. change (Z.of_N two64) with (2 ^ 64).
      apply Z.pow_le_mono_r; lia. }
    rewrite Z.mod_small by lia. apply N2Z.inj_lt. rewrite Z2N.id by lia.
    rewrite N2Z.inj_pow. exact (proj2 H).
  Qed.
  Lemma u64_le : forall z x, 0 <= z <= Z.of_N x -> (x < two64)%N -> (u64_of_Z z <= x)%N.
  Proof.
    intros z x H L. unfold u64_of_Z. rewrite Z.mod_small by lia. lia.
  Qed.
  Lemma pred_lt : forall i x, (i < x)%N -> (i <= N.pred x)%N.
  Proof. intros; lia. Qed.
  Lemma index_lt : forall i d tbl, (i < N.of_nat (List.length tbl))%N -> (i < 2 ^ index_bits d tbl)%N.
  Proof. intros i d tbl H. apply size_lt. lia. Qed.
  Lemma default_lt : forall i tbl, (i < 2 ^ index_bits (Some i) tbl)%N.
  Proof. intros i tbl. apply size_lt. cbn [value_or]. lia. Qed.

End Op.

Lemma en_assoc : forall A B C (P : C -> Prop) (m : res A) (k : A -> res B) (h : B -> res C),
  ensures P (bind m (fun a => bind (k a) h)) -> ensures P (bind (bind m k) h).
Proof. intros A B C P m k h H. rewrite bind_assoc. exact H. Qed.
Lemma sub_lor_inv : forall x y m, sub (N.lor x y) m -> sub x m /\ sub y m.
Proof.
  intros x y m H. rewrite !sub_spec in *. split; intros k Hk; apply H; rewrite N.lor_spec, Hk;
    [reflexivity|apply orb_true_r].
Qed.

(** ** Bounds of the values written *)

Lemma fp16_lt : forall x, (fp32_to_fp16 x < 2 ^ 16)%N.
Proof.
  intros x. unfold fp32_to_fp16, u16. cbv zeta.
  repeat match goal with |- context [if ?b then _ else _] => destruct b end; apply N.mod_lt; discriminate.
Qed.
Lemma with_sign_lt : forall neg mag, (mag < 2 ^ 31)%N -> (with_sign neg f32_sign mag < 2 ^ 32)%N.
Proof.
  intros neg mag H. unfold with_sign, f32_sign. destruct neg.
  - apply lor_lt; [reflexivity|]. eapply N.lt_trans; [exact H|reflexivity].
  - eapply N.lt_trans; [exact H|reflexivity].
Qed.
Lemma f32_ok_lt : forall f, f32_ok f -> (f < 2 ^ 32)%N.
Proof.
  intros f (neg & mag & -> & H). apply with_sign_lt. eapply N.le_lt_trans; [exact H|reflexivity].
Qed.
Lemma f32_of_Z_ok : forall z, f32_ok (f32_of_Z z).
Proof. intros z. apply f32_of_ratio_ok. Qed.
Lemma shiftr_lt : forall x n k, (x < 2 ^ (n + k))%N -> (N.shiftr x k < 2 ^ n)%N.
Proof.
  intros x n k H. rewrite N.shiftr_div_pow2. apply N.div_lt_upper_bound.
  - apply N.pow_nonzero. discriminate.
  - rewrite <- N.pow_add_r, N.add_comm. exact H.
Qed.
Lemma mod_two32_lt : forall x, (N.modulo x two32 < 2 ^ 32)%N.
Proof. intros x. apply N.mod_lt. discriminate. Qed.
Lemma max_bits_lt : forall n, (max_bits n < 2 ^ n)%N.
Proof.
  intros n. unfold max_bits. rewrite N.shiftl_mul_pow2, N.mul_1_l.
  pose proof (N.pow_nonzero 2 n). lia.
Qed.
Lemma u64_imm : forall z mx, INT64_MIN <= z <= INT64_MAX -> 0 <= z <= mx ->
  (u64_of_Z z < 2 ^ N.size (Z.to_N mx))%N.
Proof.
  intros z mx H K. unfold u64_of_Z, INT64_MIN, INT64_MAX, two64 in *. rewrite Z.mod_small by lia.
  apply size_lt. lia.
Qed.
Lemma one_lt : (1 < 2 ^ 1)%N. Proof. reflexivity. Qed.
Lemma bit_lt : forall b : bool, ((if b then 1 else 0) < 2 ^ 1)%N.
Proof. intros []; reflexivity. Qed.

Section Run.
  Variable e : env.

  Ltac step :=
    match goal with
    | |- ensures _ (fail _ _) => apply en_fail
    | |- ensures _ (Undef _) => apply en_undef
    | |- ensures _ (Abort _) => apply en_abort
    | |- ensures _ (Ok _) => apply en_ok; assumption
    | |- ensures _ (advance_tok _) => apply en_advance; assumption
    | |- ensures _ (bind (bind _ _) _) => apply en_assoc
    | |- ensures _ (bind (fail _ _) _) => apply en_fail
    | |- ensures _ (bind (Undef _) _) => apply en_undef
    | |- ensures _ (bind (Abort _) _) => apply en_abort
    | |- ensures _ (bind (Ok _) _) => cbn [bind]
    | |- ensures _ (bind (advance_tok _) _) => eapply en_bind; [apply en_advance; eassumption|intros ? ?]
    | |- ensures _ (bind (confirm_type _ _) _) => eapply en_bind; [apply en_confirm|intros ? (-> & ?)]
    | |- ensures _ (bind (convert_integer _ _ _) _) =>
        eapply en_bind; [apply en_convert|intros ? (? & ? & ? & ->)]
    | |- ensures _ (bind (find_in_table _ _ _ _) _) => eapply en_bind; [apply en_find|intros ? ?]
    | |- ensures _ (bind (if ?b then _ else _) _) => destruct b eqn:?
    | |- ensures _ (if ?b then _ else _) => destruct b eqn:?
    | |- ensures _ (bind (match s_kind ?s with _ => _ end) _) => destruct (s_kind s) eqn:?
    end.

  (** Remaining goals: [put] and [bind (put _)]. *)
  Ltac bits :=
    match goal with
    | |- ensures _ (bind (put _ (shl64 _ _) _) _) =>
        eapply en_bind; [eapply en_shl; [eassumption| |]|intros ? ?]
    | |- ensures _ (put _ (shl64 _ _) _) => eapply en_shl; [eassumption| |]
    end.

  Ltac bitsn w :=
    match goal with
    | |- ensures _ (bind (put _ (shl64 _ _) _) _) =>
        eapply en_bind; [eapply (en_shl _ _ _ _ _ _ w); [eassumption| |]|intros ? ?]
    | |- ensures _ (put _ (shl64 _ _) _) => eapply (en_shl _ _ _ _ _ _ w); [eassumption| |]
    end.

  Definition footprint (o : opnd) : Prop := forall m rm s0 s,
    inv m rm s0 s -> sub (mask o) m -> sub (reuse_mask o) rm -> ensures (inv m rm s0) (run_operand e o s).

  Lemma fp_flag : forall str a, footprint (OFlag str a).
  Proof.
    intros str a m rm s0 s H M R. cbn [run_operand]. unfold assemble_flag. repeat step.
    bits; [apply one_lt|exact M|]. repeat step.
  Qed.
  Lemma imm_ok : forall m rm s0 s z, inv m rm s0 s -> s_kind s = TImm z -> INT64_MIN <= z <= INT64_MAX.
  Proof. intros m rm s0 s z H K. apply inv_tok in H. rewrite K in H. exact H. Qed.
  Lemma float_ok : forall m rm s0 s f, inv m rm s0 s -> s_kind s = TFloat f -> f32_ok f.
  Proof. intros m rm s0 s z H K. apply inv_tok in H. rewrite K in H. exact H. Qed.
  Lemma fp_uint : forall mx a m rm s0 s, inv m rm s0 s -> sub (range a (N.size (Z.to_N mx))) m ->
    ensures (inv m rm s0) (assemble_uint e mx a s).
  Proof.
    intros mx a m rm s0 s H M. unfold assemble_uint. repeat step.
    bits; [|exact M|repeat step]. apply u64_imm; [eapply imm_ok; eauto|assumption].
  Qed.
  Lemma fp_int : forall b a m rm s0 s, inv m rm s0 s -> sub (range a b) m ->
    ensures (inv m rm s0) (assemble_int e b a s).
  Proof.
    intros b a m rm s0 s H M. unfold assemble_int. repeat step.
    bits; [|exact M|repeat step]. apply land_lt. apply (max_bits_lt b).
  Qed.
  Lemma fp_dot : forall d a tbl, footprint (ODotTable d a tbl).
  Proof.
    intros d a tbl m rm s0 s H M R. cbn [run_operand]. unfold dot_table. repeat step.
    destruct x as [i|].
    - repeat step. bits; [|exact M]. apply index_lt; auto.
    - destruct d as [d|]; [|repeat step]. bits; [|exact M]. apply default_lt.
  Qed.
  Lemma fp_req : forall p a tbl msg, footprint (OReqTable p a tbl msg).
  Proof.
    intros p a tbl msg m rm s0 s H M R. cbn [run_operand]. unfold req_table. repeat step.
    destruct x as [i|]; [|repeat step]. bits; [|exact M|repeat step]. apply index_lt; auto.
  Qed.
  Lemma fp_text : forall str b msg, (b < 2 ^ 64)%N -> footprint (OReqText str b msg).
  Proof.
    intros str b msg L m rm s0 s H M R. cbn [run_operand]. unfold req_text. repeat step.
    eapply en_bind; [apply en_put; eassumption|]. intros; repeat step.
  Qed.
  Lemma fp_text_after : forall str b1 b2 msg, (b1 < 2 ^ 64)%N -> (b2 < 2 ^ 64)%N ->
    footprint (OReqTextAfter str b1 b2 msg).
  Proof.
    intros str b1 b2 msg L1 L2 m rm s0 s H M R. cbn [run_operand]. unfold req_text_after.
    apply sub_lor_inv in M as (M1 & M2). repeat step.
    eapply en_bind; [apply en_put; eassumption|]. intros. apply en_put; assumption.
  Qed.
  Lemma fp_uimm : footprint OUimmExtended.
  Proof.
    intros m rm s0 s H M R. cbn [run_operand]. unfold run_uimm_extended.
    apply sub_lor_inv in M as (M1 & M2). repeat step.
    - bits; [apply one_lt|exact M2|]. repeat step.
      bits; [|exact M1|repeat step]. match goal with |- (?x - _ < _)%N => assert (x <= 2 ^ 20)%N end.
      { apply u64_le; [assumption|reflexivity]. }
      change (2 ^ 20)%N with 1048576%N in *. lia.
    - repeat step. bits; [|exact M1|repeat step].
      match goal with E : N.leb _ ?v = false |- _ => apply N.leb_gt in E; eapply N.lt_trans; [exact E|reflexivity] end.
  Qed.
  Lemma fp_label : footprint OLabel.
  Proof.
    intros m rm s0 s H M R. cbn [run_operand]. unfold run_label.
    assert (G : forall z, ensures (inv m rm s0) (let* d := sub64 z (e_pc e) in
      let* value := sub64 d 8 in
      if (Z.of_N (max_bits 23) <? value) || (value <? - Z.of_N (max_bits 23) - 1)
      then fail (s_tok s) "label out of range"
      else
        let* s := put e (shl64 (N.land (u64_of_Z value) 0x7FFFFF) 20) s in
        let* s := put e (shl64 (if value <? 0 then 1 else 0) 43) s in
        advance_tok s)).
    { intros z. eapply (en_bind _ _ (fun _ => True)); [intros ? ?; exact I|]. intros d _.
      eapply (en_bind _ _ (fun _ => True)); [intros ? ?; exact I|]. intros v _. repeat step.
      bits; [apply (land_lt _ _ 23); reflexivity|eapply sub_trans; [|exact M]; apply sub_range; lia|].
      bits; [apply bit_lt|eapply sub_trans; [|exact M]; apply sub_range; lia|]. repeat step. }
    destruct (s_kind s); try apply en_fail; cbn [bind]; [|apply G].
    destruct (find_label _ _); [apply G|apply en_fail].
  Qed.
  Lemma fp_cbuf : footprint OCbuf.
  Proof.
    intros m rm s0 s H M R. cbn [run_operand]. unfold assemble_constant_buffer, confirm_type_next.
    apply sub_lor_inv in M as (M1 & M2). repeat step.
    bits; [|exact M1|].
    { match goal with |- (u64_of_Z ?z < _)%N => assert (u64_of_Z z <= 31)%N; [apply u64_le; [assumption|reflexivity]|] end.
      change (2 ^ 5)%N with 32%N. lia. }
    repeat step. bits; [|exact M2|repeat step].
    apply shiftr_lt. match goal with |- (Z.to_N (?z mod _) < _)%N => pose proof (Z.mod_pos_bound z 65536) end.
    change (2 ^ (14 + 2))%N with 65536%N. lia.
  Qed.
  Lemma fp_imm20 : footprint OImm20.
  Proof.
    intros m rm s0 s H M R. cbn [run_operand]. unfold assemble_signed_20bit_immediate.
    apply sub_lor_inv in M as (M1 & M2). repeat step.
    bits; [|exact M1|].
    - destruct (s64_of_N (u64_of_Z x0) <? 0) eqn:E.
      + apply land_lt. reflexivity.
      + apply Z.ltb_ge in E. pose proof (imm_ok _ _ _ _ _ H H0) as B.
        assert (C : 0 <= x0).
        { unfold s64_of_N, u64_of_Z, INT64_MIN, INT64_MAX, two64 in *. destruct (Z.ltb_spec x0 0); [|assumption].
          exfalso. revert E. rewrite (Z.mod_eq x0) by discriminate.
          replace (x0 / Z.of_N 18446744073709551616) with (-1) by (Z.div_mod_to_equations; lia).
          destruct (N.ltb_spec (Z.to_N (x0 - Z.of_N 18446744073709551616 * -1)) (18446744073709551616 / 2)).
          - change (18446744073709551616 / 2)%N with 9223372036854775808%N in *. lia.
          - lia. }
        apply (u64_small x0 19); [|reflexivity||discriminate]. cbn in H1. lia.
    - bits; [apply bit_lt|exact M2|]. repeat step.
  Qed.
  Lemma fp_fimm : forall b, footprint (OFimm b).
  Proof.
    intros b m rm s0 s H M R. cbn [run_operand]. unfold assemble_float_immediate.
    eapply (en_bind _ _ (fun x => (fst x < 2 ^ 32)%N /\ inv m rm s0 (snd x))).
    - assert (W : forall neg mag t, inv m rm s0 t -> (mag < 2 ^ 31)%N ->
        ensures (fun x => (fst x < 2 ^ 32)%N /\ inv m rm s0 (snd x)) (Ok (with_sign neg f32_sign mag, t)))
        by (intros; apply en_ok; split; [apply with_sign_lt; assumption|assumption]).
      destruct (s_kind s) eqn:K; repeat step; repeat (apply W; [assumption|reflexivity]).
      + apply en_ok. split; [|assumption]. apply f32_ok_lt, f32_of_Z_ok.
      + apply en_ok. split; [|assumption]. apply f32_ok_lt. eapply float_ok; eauto.
    - intros (raw, s1) (L & H1). cbn [fst snd] in *. cbn [mask] in M. repeat step.
      + apply sub_lor_inv in M as (M1 & M2).
        bits; [|exact M1|]; [apply shiftr_lt; apply mod_two32_lt|].
        repeat step. bits; [apply one_lt|exact M2|repeat step].
      + bits; [exact L|exact M|repeat step].
  Qed.
  Lemma fp_dimm : footprint ODimm.
  Proof.
    intros m rm s0 s H M R. cbn [run_operand]. unfold assemble_double_immediate.
    apply sub_lor_inv in M as (M1 & M2).
    eapply (en_bind _ _ (fun x => inv m rm s0 (snd x))).
    - assert (W : forall x t, inv m rm s0 t -> ensures (fun x => inv m rm s0 (snd x)) (Ok (x : N, t)))
        by (intros; apply en_ok; assumption).
      destruct (s_kind s) eqn:K; repeat (step || apply W || (bits; [apply one_lt|exact M2|])); try assumption.
    - intros (raw, s1) H1. cbn [snd] in *.
      bits; [|exact M1|repeat step]. apply shiftr_lt. apply shl64_lt.
  Qed.
  Lemma fp_half : forall b o (nb : option N), footprint (OHalf b o nb).
  Proof.
    intros b o nb m rm s0 s H M R. cbn [run_operand]. unfold assemble_half_float_immediate.
    apply sub_lor_inv in M as (M1 & M2).
    set (P := fun x : N * st => (fst x < 2 ^ 16)%N /\ inv m rm s0 (snd x)).
    assert (PN : forall (b : bool) s, inv m rm s0 s -> ensures (inv m rm s0)
      (match nb with Some a => if b then put e (shl64 1 a) s else Ok s | None => Ok s end)).
    { intros b0 s1 H1. destruct nb as [a|]; repeat step. bits; [apply one_lt|exact M2]. }
    eapply (en_bind _ _ P).
    - assert (W : forall x t, inv m rm s0 t -> (x < 2 ^ 16)%N -> ensures P (Ok (x : N, t)))
        by (intros; apply en_ok; split; assumption).
      assert (Q : forall (neg : bool) t, inv m rm s0 t -> ensures P (let* value :=
          (if equal (s_tok t) "QNAN" then Ok 0x7FFF%N
           else if equal (s_tok t) "INF" then Ok 0x7C00%N
           else fail (s_tok t) FLOAT_MESSAGE) in
        let* s := match nb with Some a => if neg then put e (shl64 1 a) t else Ok t | None => Ok t end in
        Ok (match nb with
            | None => if neg then N.lor value 0x8000 else value
            | Some _ => value
            end, s))).
      { intros neg t Ht.
        repeat step; (eapply en_bind; [apply (PN neg); exact Ht|]; intros t1 H1; apply W; [exact H1|]);
          destruct nb; try reflexivity; destruct neg; reflexivity. }
      destruct (s_kind s) eqn:K; try apply en_fail.
      + apply (Q false); assumption.
      + eapply en_bind; [apply (PN (z <? 0)); exact H|]. intros t H1. apply W; [exact H1|apply fp16_lt].
      + eapply en_bind; [apply (PN (f32_lt0 f32)); exact H|]. intros t H1. apply W; [exact H1|apply fp16_lt].
      + step. apply (Q false); assumption.
      + step. apply (Q true); assumption.
    - intros (v, s1) (L & H1). cbn [fst snd] in *. repeat step.
      + bits; [|exact M1|repeat step]. apply shiftr_lt. unfold u16. apply N.mod_lt. discriminate.
      + bits; [exact L|exact M1|repeat step].
  Qed.
  Lemma fp_pred : forall a n, footprint (OPred a n).
  Proof.
    intros a n m rm s0 s H M R. cbn [run_operand]. unfold run_pred. repeat step.
    pose proof (inv_tok _ _ _ _ H) as K. destruct (s_kind s) as [| | |i g| | | | | | | | | | |] eqn:E; try apply en_undef.
    cbn in K. bitsn 3%N; [change (2 ^ 3)%N with 8%N; lia| |].
    { eapply sub_trans; [|exact M]. cbn [mask]. apply sub_range; destruct n; lia. }
    destruct n; repeat step. bits; [apply bit_lt| |repeat step].
    eapply sub_trans; [|exact M]. cbn [mask]. apply sub_range; lia.
  Qed.
  Lemma fp_invpred : forall a, footprint (OInvPred a).
  Proof.
    intros a m rm s0 s H M R. cbn [run_operand]. unfold run_inverted_pred. repeat step.
    pose proof (inv_tok _ _ _ _ H) as K. destruct (s_kind s) as [| | |i g| | | | | | | | | | |] eqn:E; try apply en_undef.
    bits; [|exact M|repeat step]. apply (u64_small _ 3); [change (2 ^ Z.of_N 3) with 8; change (i <= 7)%N in K; lia|discriminate].
  Qed.
  Lemma fp_type : forall ty a, footprint (OOptType ty a).
  Proof.
    intros ty a m rm s0 s H M R. cbn [run_operand]. unfold opt_type. repeat step.
    bits; [apply one_lt|exact M|]. repeat step.
  Qed.
  Lemma fp_abs : forall a o, footprint o -> footprint (OAbs a o).
  Proof.
    intros a o F m rm s0 s H M R. cbn [run_operand]. unfold run_abs.
    apply sub_lor_inv in M as (M1 & M2).
    eapply (en_bind _ _ (inv m rm s0)).
    { step; [|step]. bits; [apply one_lt|exact M1|]. repeat step. }
    intros s1 H1. eapply en_bind; [apply F; eassumption|]. intros s2 H2. repeat step.
  Qed.
  Lemma fp_po : forall a1 a2, footprint (OPo a1 a2).
  Proof.
    intros a1 a2 m rm s0 s H M R. cbn [run_operand]. unfold run_po.
    apply sub_lor_inv in M as (M1 & M2). repeat step.
    eapply en_bind; [apply en_put; [exact H| |]|intros; repeat step].
    - apply sub_lor; (eapply sub_trans; [apply (sub_shl 1 _ 1 one_lt)|assumption]).
    - apply lor_lt; apply shl64_lt.
  Qed.
  Lemma fp_memory : forall (i : bool) a z h m rm s0 s, inv m rm s0 s ->
    sub (N.lor (range 8 8) (if i then range a z else 0%N)) m -> sub 1 rm ->
    ensures (inv m rm s0) (run_memory_address e i a z h s).
  Proof.
    intros i a z h m rm s0 s H M R. unfold run_memory_address.
    apply sub_lor_inv in M as (M1 & M2). step. step.
    eapply (en_bind _ _ (fun x => (fst x < 2 ^ 8)%N /\ inv m rm s0 (snd x))).
    { pose proof (inv_tok _ _ _ _ H1) as K.
      assert (Z : forall t, inv m rm s0 t -> ensures (fun x => (fst x < 2 ^ 8)%N /\ inv m rm s0 (snd x)) (Ok (ZERO_REGISTER, t)))
        by (intros; apply en_ok; split; [reflexivity|assumption]).
      destruct (s_kind x); try (apply Z; assumption). cbn in K.
      step. eapply en_bind; [apply en_try_reuse; eassumption|]. intros s3 H3. apply en_ok. cbn [fst snd].
      split; [change (2 ^ 8)%N with 256%N; lia|exact H3]. }
    intros (r, s1) (L & H2). cbn [fst snd] in *. bits; [exact L|exact M1|].
    eapply (en_bind _ _ (inv m rm s0)).
    { destruct i; [|repeat step]. destruct (s_kind x0); try (apply en_ok; assumption).
      cbv zeta. step. bits; [|exact M2|repeat step]. apply land_lt. apply max_bits_lt. }
    intros s2 H4. repeat step.
  Qed.
  Lemma fp_cc : forall tests a, footprint (OCcTests tests a).
  Proof.
    intros tests a m rm s0 s H M R. cbn [run_operand]. unfold assemble_cc_tests. step.
    - repeat step. destruct x0 as [i|]; repeat step. bits; [|exact M]. apply index_lt; auto.
    - bits; [|exact M]. apply default_lt.
  Qed.
  Lemma fp_imm_attr : footprint OImmAttr.
  Proof.
    intros m rm s0 s H M R. cbn [run_operand]. unfold run_imm_attr.
    apply sub_lor_inv in M as (M1 & M2). repeat step.
    eapply en_bind; [apply fp_uint; [eassumption|exact M1]|]. intros s1 H3.
    bits; [|exact M2|repeat step]. reflexivity.
  Qed.
  Lemma fp_patch_attr : footprint OPatchAttr.
  Proof.
    intros m rm s0 s H M R. cbn [run_operand]. unfold run_patch_attr.
    apply sub_lor_inv in M as (M1 & M2). step; [step|]. step. step. step.
    eapply en_bind; [apply en_gpr; [eassumption|exact M2|exact R]|]. intros s1 H3.
    step; (eapply (en_bind _ _ (inv m rm s0)); [repeat step|]; intros s2 H4);
      (eapply en_bind; [apply fp_int; [eassumption|exact M1]|]); intros s3 H5; repeat step.
  Qed.
  Lemma fp_phys_attr : footprint OPhysAttr.
  Proof.
    intros m rm s0 s H M R. cbn [run_operand]. unfold run_phys_attr. step; [step|]. step. step. step.
    eapply en_bind; [apply en_gpr; [eassumption|exact M|exact R]|]. intros s1 H3. repeat step.
  Qed.
  Lemma fp_xmad : footprint OXmadSigns.
  Proof.
    intros m rm s0 s H M R. cbn [run_operand]. unfold run_xmad_signs. repeat step.
    - bits; [apply one_lt|eapply sub_trans; [|exact M]; apply sub_range; lia|]. repeat step.
      bits; [apply one_lt|eapply sub_trans; [|exact M]; apply sub_range; lia|]. repeat step.
    - bits; [apply one_lt|eapply sub_trans; [|exact M]; apply sub_range; lia|]. repeat step.
  Qed.
  Lemma fp_f2f : footprint OF2fRounding.
  Proof.
    intros m rm s0 s H M R. cbn [run_operand]. unfold run_f2f_rounding.
    set (L := [0; 1; 2; 3; 8; 9; 10; 11]%N).
    assert (B : forall i, In i L -> ensures (fun x => inv m rm s0 x) (advance_tok s) ->
      forall t, inv m rm s0 t -> ensures (inv m rm s0) (put e (shl64 i 39) t)).
    { intros i Hi _ t Ht. apply en_put; [exact Ht| |apply shl64_lt]. eapply sub_trans; [|exact M].
      repeat (destruct Hi as [<-|Hi]; [reflexivity|]). destruct Hi. }
    eapply (en_bind _ _ (fun r => forall i, r = Some i -> In i L)).
    { step.
      - apply en_ok. intros i.
        repeat match goal with |- context [if ?b then _ else _] => destruct b end; intros [= <-]; cbn; tauto.
      - eapply en_weak; [apply en_find|]. intros r F i E. specialize (F i E). cbn in F.
        assert (D : (i = 0 \/ i = 1 \/ i = 2 \/ i = 3)%N) by lia.
        destruct D as [->|[->|[->| ->]]]; cbn; tauto. }
    intros r F. assert (A : ensures (inv m rm s0) (advance_tok s)) by step.
    destruct r as [i|]; cbn [value_or].
    - step. apply B; auto.
    - cbn [bind]. apply B; auto. cbn; tauto.
  Qed.
  Lemma range_le : forall a n n' m, sub (range a n) m -> (n' <= n)%N -> sub (range a n') m.
  Proof. intros a n n' m H L. eapply sub_trans; [|exact H]. apply sub_range; lia. Qed.
  Lemma fp_int_format : forall u sg a sa msg, footprint (OIntFormat u sg a sa msg).
  Proof.
    intros u sg a sa msg m rm s0 s H M R. cbn [run_operand]. unfold run_int_format.
    apply sub_lor_inv in M as (M1 & M2). step. destruct x as [i|].
    - bits; [apply (index_lt _ None); auto|eapply range_le; [exact M1|lia]|]. repeat step.
    - step. destruct x as [i|]; [|step]. bits; [apply one_lt|exact M2|].
      bits; [apply (index_lt _ None); auto|eapply range_le; [exact M1|lia]|]. repeat step.
  Qed.
  Lemma fp_ldc : footprint OLdcAddress.
  Proof.
    intros m rm s0 s H M R. cbn [run_operand]. unfold run_ldc_address.
    apply sub_lor_inv in M as (M1 & M2). step; [step|]. step. step. step. step.
    bits; [|exact M1|].
    { match goal with |- (u64_of_Z ?z < _)%N => assert (u64_of_Z z <= 31)%N; [apply u64_le; [assumption|reflexivity]|] end.
      change (2 ^ 5)%N with 32%N. lia. }
    repeat (step; []). apply fp_memory; [assumption|exact M2|exact R].
  Qed.
  Lemma fp_s2r : forall tbl, footprint (OS2r tbl).
  Proof.
    intros tbl m rm s0 s H M R. cbn [run_operand]. unfold run_s2r. cbn [mask] in M.
    set (w := N.max 6 (index_bits None tbl)) in *.
    eapply (en_bind _ _ (fun x => (fst x < 2 ^ w)%N /\ inv m rm s0 (snd x))).
    2:{ intros (v, s1) (L & H1). cbn [fst snd] in *. bits; [exact L|exact M]. }
    assert (K : forall v t, inv m rm s0 t -> (v < 2 ^ 6)%N ->
      ensures (fun x => (fst x < 2 ^ w)%N /\ inv m rm s0 (snd x)) (Ok (v : N, t))).
    { intros v t Ht L. apply en_ok. split; [|exact Ht]. cbn [fst]. eapply N.lt_le_trans; [exact L|].
      apply N.pow_le_mono_r; [discriminate|]. unfold w. lia. }
    step.
    - step. cbv zeta.
      repeat match goal with |- context [equal ?t ?x] => destruct (equal t x) end; cbn [N.eqb Pos.eqb];
        repeat step; apply K; auto; reflexivity.
    - step.
      + step.
        repeat match goal with |- context [equal ?t ?x] => destruct (equal t x) end;
          repeat step; apply K; auto; reflexivity.
      + step. destruct x as [v|]; [|repeat step]. step. apply en_ok. cbn [fst snd]. split; [|assumption].
        eapply N.lt_le_trans; [apply (index_lt _ None); eauto|].
        apply N.pow_le_mono_r; [discriminate|]. unfold w. lia.
  Qed.
  Lemma fp_ldg : footprint OLdgSize.
  Proof.
    intros m rm s0 s H M R. cbn [run_operand]. unfold run_ldg_size. step.
    assert (L : (value_or x 4 < 2 ^ 3)%N).
    { destruct x as [i|]; [|reflexivity]. specialize (H0 i eq_refl). exact H0. }
    eapply (en_bind _ _ (inv m rm s0)); [|intros s1 H1; bits; [exact L|exact M]].
    destruct x as [i|]; repeat step.
  Qed.
  Lemma fp_selector : forall ta sh shorts a, footprint (OSelector ta sh shorts a).
  Proof.
    intros ta sh shorts a m rm s0 s H M R. cbn [run_operand]. unfold run_selector. cbv zeta. step.
    assert (L : (value_or x 0 < 2 ^ (N.max 2 (index_bits None shorts)))%N).
    { destruct x as [i|]; [|apply N.neq_0_lt_0, N.pow_nonzero; discriminate]. specialize (H0 i eq_refl). cbn [value_or].
      destruct (N.eqb _ _).
      - eapply N.lt_le_trans; [apply (index_lt _ None); exact H0|]. apply N.pow_le_mono_r; [discriminate|lia].
      - eapply N.lt_le_trans; [exact H0|]. change (N.of_nat (Datatypes.length ["B0"; "B1"; "B2"; "B3"])) with (2 ^ 2)%N.
        apply N.pow_le_mono_r; [discriminate|lia]. }
    destruct x as [i|]; repeat step; (bits; [exact L|exact M]).
  Qed.
  Lemma fp_atomic : forall a, footprint (OAtomicSize a).
  Proof.
    intros a m rm s0 s H M R. cbn [run_operand]. unfold run_atomic_size. step.
    assert (L : (value_or x 0 < 2 ^ 3)%N).
    { destruct x as [i|]; [|reflexivity]. specialize (H0 i eq_refl). cbn in *. lia. }
    eapply (en_bind _ _ (inv m rm s0)); [|intros s1 H1; bits; [exact L|exact M]].
    destruct x as [i|]; repeat step.
  Qed.
  Lemma fp_src : forall a sa, footprint (OSrcFormat a sa).
  Proof.
    intros a sa m rm s0 s H M R. cbn [run_operand]. unfold run_src_format.
    apply sub_lor_inv in M as (M1 & M2). step.
    assert (G : forall b r, (forall i, r = Some i -> (i < 4)%N) -> ensures (inv m rm s0)
      (let* s := match r with Some _ => advance_tok s | None => Ok s end in
       let* s := put e (shl64 (value_or r 3) a) s in
       put e (shl64 (if b : bool then 1 else 0) sa) s)).
    { intros b r F. destruct r as [i|]; repeat step.
      - bitsn 2%N; [apply (F i); reflexivity|exact M1|]. bits; [apply bit_lt|exact M2].
      - bitsn 2%N; [reflexivity|exact M1|]. bits; [apply bit_lt|exact M2]. }
    destruct x as [i|].
    - step. apply (G true (Some i)). intros j [= <-]. apply (H0 i eq_refl).
    - step. step. step. apply G. intros j ->. apply (H1 j eq_refl).
  Qed.
  Lemma fp_textype : forall a, footprint (OTexType a).
  Proof.
    intros a m rm s0 s H M R. cbn [run_operand]. unfold run_tex_type. step.
    destruct x as [i|]; repeat step. bits; [|exact M]. apply (H0 i eq_refl).
  Qed.
  Lemma fp_zero : footprint OZero.
  Proof.
    intros m rm s0 s H M R. cbn [run_operand]. unfold run_zero. destruct (s_kind s); try apply en_fail.
    destruct z; repeat step.
  Qed.
  Lemma fp_texs_mode : forall a, footprint (OTexsMode a).
  Proof.
    intros a m rm s0 s H M R. cbn [run_operand]. unfold run_texs_mode.
    eapply (en_bind _ _ (fun x => (fst x < 2 ^ 2)%N /\ inv m rm s0 (snd x))).
    { repeat step; apply en_ok; split; auto; reflexivity. }
    intros (lod, s1) (L & H1). cbn [fst snd] in *.
    eapply (en_bind _ _ (fun x => (fst x < 2 ^ 3)%N /\ inv m rm s0 (snd x))).
    { repeat step; apply en_ok; split; auto; reflexivity. }
    intros (dc, s2) (L2 & H2). cbn [fst snd] in *. bits; [|exact M]. apply lor_lt; [exact L2|].
    eapply N.lt_trans; [exact L|reflexivity].
  Qed.
  Lemma sub_clear : forall a m n, (3 <= n)%N -> sub (range a n) m -> sub (shl64 7 a) m.
  Proof.
    intros a m n L H. eapply sub_trans; [apply (sub_shl 7 a 3); reflexivity|]. eapply range_le; eauto.
  Qed.
  Lemma fp_tlds : forall a, footprint (OTldsType a).
  Proof.
    intros a m rm s0 s H M R. cbn [run_operand]. unfold run_tlds_type. cbv zeta.
    pose proof (I_clear _ _ _ s (shl64 7 a) H (sub_clear a m 4 ltac:(discriminate) M)) as H1.
    set (s1 := set_value _ s) in *. step.
    eapply (en_bind _ _ (fun x => (x < 2 ^ 4)%N)).
    2:{ intros mode L. bits; [exact L|exact M|repeat step]. }
    repeat match goal with
    | |- ensures _ (match ?x with _ => _ end) => destruct x
    | |- ensures _ (fail _ _) => apply en_fail
    | |- ensures _ (Ok (if ?b then _ else _)) => destruct b
    | |- ensures _ (Ok _) => apply en_ok; reflexivity
    end.
  Qed.
  Lemma fp_texs : forall a, footprint (OTexsType a).
  Proof.
    intros a m rm s0 s H M R. cbn [run_operand]. unfold run_texs_type. cbv zeta.
    apply sub_lor_inv in M as (M1 & M2).
    pose proof (I_clear _ _ _ s (shl64 7 a) H (sub_clear a m 3 ltac:(discriminate) M1)) as H1.
    set (s1 := set_value _ s) in *. step. destruct x as [ty|]; [|step].
    eapply (en_bind _ _ (inv m rm s0)); [|intros; repeat step].
    assert (W : forall b, sub b (range 53 4) -> (b < 2 ^ 64)%N -> ensures (inv m rm s0) (put e b s1)).
    { intros b B L. apply en_put; auto. eapply sub_trans; eauto. }
    repeat match goal with
    | |- ensures _ (match ?x with _ => _ end) => destruct x
    | |- ensures _ (if ?x then _ else _) => destruct x
    | |- ensures _ (fail _ _) => apply en_fail
    | |- ensures _ (put _ _ _) => apply W; reflexivity
    | |- ensures _ (Ok _) => apply en_ok; assumption
    end.
  Qed.
  Lemma assoc_in : forall (P : N -> Prop) tbl t v, Forall (fun p => P (snd p)) tbl ->
    assoc_text tbl t = Some v -> P v.
  Proof.
    intros P tbl t v F. induction F as [|(k, x) tbl Hx F IH]; cbn; [discriminate|].
    destruct (equal t k); [intros [= <-]; exact Hx|exact IH].
  Qed.
  Lemma fp_swizzle : footprint OTexsSwizzle.
  Proof.
    intros m rm s0 s H M R. cbn [run_operand]. unfold run_texs_swizzle. cbv zeta.
    match goal with |- context [assoc_text ?t ?x] => destruct (assoc_text t x) as [b|] eqn:E end; [|step].
    apply (assoc_in (fun b => sub b (range 50 3) /\ (b < 2 ^ 64)%N)) in E.
    2:{ destruct (N.eqb _ _); repeat constructor. }
    destruct E as (E1 & E2). eapply en_bind; [apply en_put; [eassumption|eapply sub_trans; eassumption|exact E2]|].
    intros; repeat step.
  Qed.
  Lemma fp_mirror : forall a, footprint (OMirrorGpr a).
  Proof.
    intros a m rm s0 s H M R s' E. cbn [run_operand] in E. unfold run_mirror_dgpr in E. cbv zeta in E.
    inv_bind E. destruct (N.eqb (value (s_op x)) (value (s_op s))) eqn:V; cbn [negb] in E; [|discriminate].
    injection E as <-. apply N.eqb_eq in V.
    set (s1 := set_value _ s) in *.
    destruct H as [T W VV (r & R1 & R2) S].
    assert (I1 : inv (N.ones 64) rm s1 s1).
    { constructor; auto; [apply (ldiff_le_lt _ _ 64); exact W|]. exists 0%N. rewrite N.lor_0_r. split; [reflexivity|apply sub_0]. }
    assert (R3 : sub (range a 8) (N.lor (N.ones 64) (range a 8))) by apply sub_lor_r, sub_refl.
    assert (I2 : inv (N.lor (N.ones 64) (range a 8)) rm s1 s1) by (destruct I1; constructor; auto).
    destruct (en_gpr e _ _ _ _ _ I2 R3 R _ Hx) as [GT GW GV (r' & GR1 & GR2) GS].
    constructor; auto.
    - rewrite V. exact VV.
    - cbn in GR1. exists (N.lor r r'). rewrite GR1, R1, N.lor_assoc. split; [reflexivity|apply sub_lor; assumption].
    - rewrite GS. exact S.
  Qed.
  Lemma fp_comma : footprint OComma.
  Proof. intros m rm s0 s H M R. cbn [run_operand]. unfold run_comma. repeat step. Qed.
  Lemma fp_opt_text : forall str, footprint (OOptText str).
  Proof. intros str m rm s0 s H M R. cbn [run_operand]. unfold opt_text. repeat step. Qed.
  Lemma fp_rz : forall a, footprint (ODefaultRz a).
  Proof. intros a m rm s0 s H M R. cbn [run_operand]. bits; [|exact M]. reflexivity. Qed.

  (** The literal bits of an operand fit the word. *)
  Definition lit_ok (o : opnd) : bool :=
    match o with
    | OReqText _ b _ => N.ltb b (2 ^ 64)
    | OReqTextAfter _ b1 b2 _ => N.ltb b1 (2 ^ 64) && N.ltb b2 (2 ^ 64)
    | _ => true
    end.
  Fixpoint lit_ok_deep (o : opnd) : bool :=
    match o with OAbs _ inner => lit_ok_deep inner | _ => lit_ok o end.

  Lemma operand_footprint : forall o, lit_ok_deep o = true -> footprint o.
  Proof.
    fix IH 1. intros o L. destruct o; cbn [lit_ok_deep lit_ok] in L;
      try (apply andb_true_iff in L as (L1 & L2); apply N.ltb_lt in L1, L2);
      try (apply N.ltb_lt in L).
    - apply fp_comma. - apply fp_flag.
    - intros m rm s0 s H M R. apply fp_uint; auto.
    - intros m rm s0 s H M R. apply fp_int; auto.
    - apply fp_dot. - apply fp_req. - apply fp_text; auto. - apply fp_text_after; auto.
    - apply fp_opt_text. - apply fp_uimm. - apply fp_label.
    - intros m rm s0 s H M R. apply en_gpr; auto.
    - apply fp_mirror. - apply fp_cbuf. - apply fp_imm20. - apply fp_fimm. - apply fp_dimm. - apply fp_half.
    - apply fp_pred. - apply fp_invpred. - apply fp_type. - apply fp_abs. apply IH; exact L.
    - apply fp_po. - apply fp_rz.
    - intros m rm s0 s H M R. apply fp_memory; auto.
    - apply fp_cc. - apply fp_imm_attr. - apply fp_patch_attr. - apply fp_phys_attr. - apply fp_xmad.
    - apply fp_f2f. - apply fp_int_format. - apply fp_ldc. - apply fp_s2r. - apply fp_ldg. - apply fp_selector.
    - apply fp_atomic. - apply fp_src. - apply fp_textype. - apply fp_zero. - apply fp_texs_mode.
    - apply fp_tlds. - apply fp_texs. - apply fp_swizzle.
  Qed.
End Run.

(** ** A whole operand list *)

Definition masks (ops : list opnd) : N := fold_right (fun o m => N.lor (mask o) m) 0%N ops.
Definition reuse_masks (ops : list opnd) : N := fold_right (fun o m => N.lor (reuse_mask o) m) 0%N ops.

Lemma run_ops_footprint : forall e ops m rm s0 s, forallb lit_ok_deep ops = true ->
  inv m rm s0 s -> sub (masks ops) m -> sub (reuse_masks ops) rm ->
  ensures (inv m rm s0) (run_ops e ops s).
Proof.
  intros e ops m rm s0. induction ops as [|o ops IH]; intros s L H M R; cbn [run_ops].
  - apply en_ok; exact H.
  - cbn [forallb] in L. apply andb_true_iff in L as (L1 & L2).
    cbn [masks reuse_masks fold_right] in M, R. apply sub_lor_inv in M as (M1 & M2), R as (R1 & R2).
    eapply en_bind; [apply operand_footprint; eassumption|]. intros s1 H1. apply IH; assumption.
Qed.

Lemma table_lits : forallb (fun i => forallb lit_ok_deep (i_operands i)) table = true.
Proof. vm_compute. reflexivity. Qed.
