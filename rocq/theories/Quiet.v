(** * Quiet: when the asserts of [opcode::add_bits] and [opcode::add_reuse]
    cannot fail. *)
From Verif Require Import Base Float Lexer Operand Catalogue Table Parse Spec Bits LexFacts SchedFuel Param Reach ParseFacts Outcomes
  Footprint Encode SpecOperand Operands Operands2 Operands3.
From Coq Require Import Lia.
Local Open Scope string_scope.
Local Open Scope list_scope.
Open Scope Z_scope.

(** [m] does not fail an assert, and [P] holds of what it returns. *)
Definition safe {A} (P : A -> Prop) (m : res A) : Prop :=
  match m with Ok x => P x | Abort _ => False | _ => True end.

Lemma safe_bind : forall A B (Q : A -> Prop) (P : B -> Prop) m k,
  safe Q m -> (forall x, Q x -> safe P (k x)) -> safe P (bind m k).
Proof. intros A B Q P [] k H K; cbn in *; auto. Qed.
Lemma safe_assoc : forall A B C (P : C -> Prop) (m : res A) (k : A -> res B) (h : B -> res C),
  safe P (bind m (fun a => bind (k a) h)) -> safe P (bind (bind m k) h).
Proof. intros A B C P m k h H. rewrite bind_assoc. exact H. Qed.
Lemma safe_weak : forall A (P Q : A -> Prop) m, safe P m -> (forall x, P x -> Q x) -> safe Q m.
Proof. intros A P Q [] H K; cbn in *; auto. Qed.
Lemma safe_ensures : forall A (P : A -> Prop) m, ensures P m -> (forall w, m <> Abort w) -> safe P m.
Proof. intros A P [] E N; cbn; auto. eapply N; reflexivity. Qed.

(** Bits [m] of the word and [rm] of the reuse flags are still clear. *)
Record fr (m rm : N) (s : st) : Prop := Fr {
  fr_tok : kind_ok (s_kind s);
  fr_value : N.land (value (s_op s)) m = 0%N;
  fr_reuse : N.land (reuse (s_op s)) rm = 0%N }.

Lemma land_sub : forall v m b, N.land v m = 0%N -> sub b m -> N.land v b = 0%N.
Proof.
  intros v m b H S. rewrite sub_spec in S. apply N.bits_inj. intros k. rewrite N.land_spec, N.bits_0.
  destruct (N.testbit b k) eqn:B; [|apply andb_false_r]. specialize (S k B).
  assert (E : N.testbit (N.land v m) k = false) by (rewrite H; apply N.bits_0).
  rewrite N.land_spec, S in E. rewrite andb_true_r in *. exact E.
Qed.
Lemma fr_weak : forall m rm m' rm' s, fr m rm s -> sub m' m -> sub rm' rm -> fr m' rm' s.
Proof. intros m rm m' rm' s [T V R] S1 S2. constructor; [exact T| |]; eapply land_sub; eauto. Qed.
Lemma sub_disjoint : forall a b m, sub a m -> N.land a b = 0%N -> sub a (N.ldiff m b).
Proof.
  intros a b m S D. rewrite sub_spec in *. intros k K. rewrite N.ldiff_spec, (S k K).
  assert (E : N.testbit (N.land a b) k = false) by (rewrite D; apply N.bits_0).
  rewrite N.land_spec, K in E. cbn in *. rewrite E. reflexivity.
Qed.
Lemma sub_land : forall a b c d, sub a b -> sub c d -> N.land b d = 0%N -> N.land a c = 0%N.
Proof.
  intros a b c d S T D. rewrite N.land_comm. eapply land_sub; [|exact S]. rewrite N.land_comm.
  eapply land_sub; [exact D|exact T].
Qed.
Lemma range_disjoint : forall a n b k, (a + n <= b)%N -> N.land (range a n) (range b k) = 0%N.
Proof.
  intros a n b k H. apply N.bits_inj. intros j. rewrite N.land_spec, !range_spec, N.bits_0.
  destruct (N.leb_spec a j), (N.ltb_spec j (a + n)), (N.leb_spec b j), (N.ltb_spec j (b + k)); try reflexivity; lia.
Qed.

Section Op.
  Variable e : env.

  Lemma safe_advance : forall m rm s, fr m rm s -> safe (fr m rm) (advance_tok s).
  Proof.
    intros m rm s [T V R]. unfold advance_tok. pose proof (tokenize_outcomes (s_cur s)) as O.
    destruct (tokenize (s_cur s)) as [(t, c)| | | | |] eqn:E; cbn in *; auto.
    constructor; auto. eapply token_kind_ok; exact E.
  Qed.
  Lemma safe_put : forall m rm m1 b s, fr m rm s -> sub b m1 -> sub m1 m ->
    safe (fr (N.ldiff m m1) rm) (put e b s).
  Proof.
    intros m rm m1 b s [T V R] B M. unfold put, add_bits.
    rewrite (land_sub _ m b V) by (eapply sub_trans; eauto). rewrite N.eqb_refl, andb_false_r. cbn.
    constructor; cbn; auto. apply N.bits_inj. intros k.
    rewrite N.land_spec, N.lor_spec, N.ldiff_spec, N.bits_0.
    destruct (N.testbit m1 k) eqn:E; [cbn; rewrite !andb_false_r; reflexivity|]. cbn [negb]. rewrite andb_true_r.
    rewrite sub_spec in B. specialize (B k). destruct (N.testbit b k); [rewrite B in E by reflexivity; discriminate|].
    rewrite orb_false_r, <- N.land_spec, V. apply N.bits_0.
  Qed.
  Lemma safe_shl : forall m rm v a n s, fr m rm s -> (v < 2 ^ n)%N -> sub (range a n) m ->
    safe (fr (N.ldiff m (range a n)) rm) (put e (shl64 v a) s).
  Proof. intros m rm v a n s F L M. eapply safe_put; [exact F|apply sub_shl; exact L|exact M]. Qed.
  Lemma safe_confirm : forall ty s, safe (fun s' => s' = s /\ type_of (s_kind s) = ty) (confirm_type ty s).
  Proof.
    intros ty s. apply safe_ensures; [apply en_confirm|]. intros w. unfold confirm_type.
    destruct (ttype_eqb _ _); discriminate.
  Qed.
  Lemma safe_convert : forall s mn mx, safe (fun v => exists z, s_kind s = TImm z /\ mn <= z <= mx /\ v = u64_of_Z z)
    (convert_integer s mn mx).
  Proof.
    intros s mn mx. apply safe_ensures; [apply en_convert|]. intros w. unfold convert_integer, confirm_type.
    destruct (ttype_eqb _ _); [|discriminate]. cbn [bind]. destruct (s_kind s); try discriminate.
    destruct (_ || _); discriminate.
  Qed.
  Lemma safe_find : forall b tbl p t,
    safe (fun r => forall i, r = Some i -> (i < N.of_nat (List.length tbl))%N) (find_in_table b tbl p t).
  Proof.
    intros b tbl p t. apply safe_ensures; [apply en_find|]. intros w. unfold find_in_table.
    destruct (kind t); try discriminate. destruct (strip_prefix _ _); [|discriminate].
    destruct (index_of _ _ _); [discriminate|]. destruct b; discriminate.
  Qed.
  Lemma safe_try_reuse : forall m rm a s, fr m rm s -> sub (reuse_flag a) rm -> safe (fr m 0) (try_reuse e a s).
  Proof.
    intros m rm a s F R. unfold try_reuse. destruct (equal _ _); cbn [negb].
    2:{ cbn. eapply fr_weak; [exact F|apply sub_refl|apply sub_0]. }
    assert (G : forall f, sub f rm -> safe (fr m 0) (let* op := add_reuse (e_asserts e) (s_op s) f in
      advance_tok (St (s_cur s) (s_tok s) op))).
    { intros f S. unfold add_reuse. destruct F as [T V RR]. rewrite (land_sub _ _ f RR S), N.eqb_refl, andb_false_r.
      cbn [bind]. apply safe_advance. constructor; cbn; auto. apply N.land_0_r. }
    unfold reuse_flag in R. destruct (N.eqb a 8); [exact (G reuse_gpr8 R)|].
    destruct (N.eqb a 20); [exact (G reuse_gpr20 R)|]. destruct (N.eqb a 39); [exact (G reuse_gpr39 R)|exact I].
  Qed.
  Lemma safe_gpr : forall m rm a s, fr m rm s -> sub (range a 8) m -> sub (reuse_flag a) rm ->
    safe (fr (N.ldiff m (range a 8)) 0) (assemble_gpr e a s).
  Proof.
    intros m rm a s F M R. unfold assemble_gpr. eapply safe_bind; [apply safe_confirm|]. intros s1 (-> & _).
    pose proof (fr_tok _ _ _ F) as K. destruct (s_kind s); try exact I. cbn in K.
    eapply safe_bind; [eapply (safe_shl _ _ _ _ 8); eauto; change (2 ^ 8)%N with 256%N; lia|]. intros s2 F2.
    eapply safe_bind; [apply safe_advance; exact F2|]. intros s3 F3. eapply safe_try_reuse; eauto.
  Qed.
End Op.

(** The parts of one operand do not overlap. *)
Definition apart (a b : N) : bool := N.eqb (N.land a b) 0.
Fixpoint parts_ok (o : opnd) : bool :=
  match o with
  | OReqTextAfter _ b1 b2 _ => apart b1 b2
  | OFimm b => N.eqb b 20 || N.eqb b 32
  | OHalf b o nb => (N.eqb b 9 || N.eqb b 16) &&
      match nb with Some a => apart (range o (if N.eqb b 9 then 9 else 16)) (range a 1) | None => true end
  | OAbs a inner => apart (range a 1) (mask inner) && parts_ok inner
  | OMemAddress imm a size _ => negb imm || apart (range 8 8) (range a size)
  | OIntFormat u sg a sa _ => apart (range a (N.max (index_bits None u) (index_bits None sg))) (range sa 1)
  | OSrcFormat a sa => apart (range a 2) (range sa 1)
  | OTldsType a => N.leb (a + 3) 64
  | OTexsType a => N.eqb a 53
  | _ => true
  end.
Lemma place7 : forall a, place 7 a = range a 3.
Proof. intros a. unfold place, range. rewrite N.shiftl_mul_pow2. reflexivity. Qed.

Section Run.
  Variable e : env.

  Ltac step :=
    match goal with
    | |- safe _ (fail _ _) => exact I
    | |- safe _ (Undef _) => exact I
    | |- safe (fun _ => True) (Ok _) => exact I
    | |- safe (fr _ _) (advance_tok _) => apply safe_advance; assumption
    | |- safe _ (bind (bind _ _) _) => apply safe_assoc
    | |- safe _ (bind (fail _ _) _) => exact I
    | |- safe _ (bind (Undef _) _) => exact I
    | |- safe _ (bind (Ok _) _) => cbn [bind]
    | |- safe _ (bind (advance_tok _) _) => eapply safe_bind; [eapply safe_advance; eassumption|intros ? ?]
    | |- safe _ (bind (confirm_type _ _) _) => eapply safe_bind; [apply safe_confirm|intros ? (-> & ?)]
    | |- safe _ (bind (convert_integer _ _ _) _) =>
        eapply safe_bind; [apply safe_convert|intros ? (? & ? & ? & ->)]
    | |- safe _ (bind (find_in_table _ _ _ _) _) => eapply safe_bind; [apply safe_find|intros ? ?]
    | |- safe _ (bind (if ?b then _ else _) _) => destruct b eqn:?
    | |- safe _ (if ?b then _ else _) => destruct b eqn:?
    | |- safe _ (bind (match s_kind ?s with _ => _ end) _) => destruct (s_kind s) eqn:?
    | |- safe (fun _ => True) (advance_tok _) => eapply safe_weak; [eapply safe_advance; eassumption|auto]
    end.
  Ltac dead := match goal with |- safe _ (fail _ _) => exact I | |- safe _ (Undef _) => exact I | |- safe _ (bind (fail _ _) _) => exact I end.
  Ltac bits :=
    match goal with
    | |- safe _ (bind (put _ (shl64 _ _) _) _) =>
        eapply safe_bind; [eapply safe_shl; [eassumption| |]|intros ? ?]
    | |- safe (fun _ => True) (put _ (shl64 _ _) _) => eapply safe_weak; [eapply safe_shl; [eassumption| |]|intros; exact I]
    end.
  Ltac bitsn w :=
    match goal with
    | |- safe _ (bind (put _ (shl64 _ _) _) _) =>
        eapply safe_bind; [eapply (safe_shl _ _ _ _ _ w); [eassumption| |]|intros ? ?]
    | |- safe (fun _ => True) (put _ (shl64 _ _) _) => eapply safe_weak; [eapply (safe_shl _ _ _ _ _ w); [eassumption| |]|intros; exact I]
    end.

  Ltac keep m rm := eapply (safe_bind _ _ (fr m rm)).
  Ltac step' := first [step | match goal with |- safe (fr _ _) (Ok _) => assumption end].

  Definition quiet (o : opnd) : Prop := forall m rm s,
    fr m rm s -> sub (N.ldiff (mask o) (clears o)) m -> sub (reuse_mask o) rm -> parts_ok o = true ->
    safe (fun _ => True) (run_operand e o s).
  Ltac go := intros m rm s F M R P; cbn [mask clears reuse_mask parts_ok] in M, R, P; try rewrite N.ldiff_0_r in M;
    cbn [run_operand].

  Lemma q_flag : forall str a, quiet (OFlag str a).
  Proof.
    intros str a. go. unfold assemble_flag. repeat step. bits; [apply one_lt|exact M|]. repeat step.
  Qed.
  Lemma imm_ok' : forall m rm s z, fr m rm s -> s_kind s = TImm z -> INT64_MIN <= z <= INT64_MAX.
  Proof. intros m rm s z H K. apply fr_tok in H. rewrite K in H. exact H. Qed.
  Lemma q_uint_at : forall mx a m rm s, fr m rm s -> sub (range a (N.size (Z.to_N mx))) m ->
    safe (fr (N.ldiff m (range a (N.size (Z.to_N mx)))) rm) (assemble_uint e mx a s).
  Proof.
    intros mx a m rm s F M. unfold assemble_uint. repeat step. bits; [|exact M|].
    - apply u64_imm; [eapply imm_ok'; eauto|assumption].
    - step.
  Qed.
  Lemma q_int_at : forall b a m rm s, fr m rm s -> sub (range a b) m ->
    safe (fr (N.ldiff m (range a b)) rm) (assemble_int e b a s).
  Proof.
    intros b a m rm s F M. unfold assemble_int. repeat step. bits; [|exact M|].
    - apply land_lt. apply (max_bits_lt b).
    - step.
  Qed.
  Lemma q_uint : forall mx a, quiet (OUint mx a).
  Proof. intros mx a. go. eapply safe_weak; [eapply q_uint_at; eauto|auto]. Qed.
  Lemma q_int : forall b a, quiet (OInt b a).
  Proof. intros b a. go. eapply safe_weak; [eapply q_int_at; eauto|auto]. Qed.
  Lemma q_dot : forall d a tbl, quiet (ODotTable d a tbl).
  Proof.
    intros d a tbl. go. unfold dot_table. repeat step. destruct x as [i|].
    - repeat step. bits; [|exact M]. apply index_lt; auto.
    - destruct d as [d|]; [|repeat step]. bits; [|exact M]. apply default_lt.
  Qed.
  Lemma q_req : forall p a tbl msg, quiet (OReqTable p a tbl msg).
  Proof.
    intros p a tbl msg. go. unfold req_table. repeat step. destruct x as [i|]; [|repeat step].
    bits; [|exact M|repeat step]. apply index_lt; auto.
  Qed.
  Lemma q_text : forall str b msg, quiet (OReqText str b msg).
  Proof.
    intros str b msg. go. unfold req_text. repeat step.
    eapply safe_bind; [eapply safe_put; [eassumption|apply sub_refl|exact M]|]. intros; repeat step.
  Qed.
  Lemma apart_eq : forall a b, apart a b = true -> N.land a b = 0%N.
  Proof. intros a b H. apply N.eqb_eq. exact H. Qed.
  Lemma sub_after : forall a b m, sub (N.lor a b) m -> N.land a b = 0%N -> sub b (N.ldiff m a).
  Proof.
    intros a b m S D. apply sub_lor_inv in S as (_ & S). apply sub_disjoint; [exact S|]. rewrite N.land_comm. exact D.
  Qed.
  Lemma q_text_after : forall str b1 b2 msg, quiet (OReqTextAfter str b1 b2 msg).
  Proof.
    intros str b1 b2 msg. go. unfold req_text_after. apply apart_eq in P. repeat step.
    eapply safe_bind; [eapply safe_put; [eassumption|apply sub_refl|apply sub_lor_inv in M as (M & _); exact M]|].
    intros s1 F1. eapply safe_weak; [eapply safe_put; [eassumption|apply sub_refl|]|auto].
    apply sub_after; assumption.
  Qed.
  Lemma q_uimm : quiet OUimmExtended.
  Proof.
    go. unfold run_uimm_extended. repeat step.
    - bits; [apply one_lt|apply sub_lor_inv in M as (_ & M); exact M|]. repeat step.
      bitsn 20%N; [| |repeat step].
      + match goal with |- (?x - _ < _)%N => assert (x <= 2 ^ 20)%N end.
        { apply u64_le; [assumption|reflexivity]. }
        change (2 ^ 20)%N with 1048576%N in *. lia.
      + apply sub_disjoint; [apply sub_lor_inv in M as (M & _); exact M|reflexivity].
    - repeat step. bitsn 20%N; [|apply sub_lor_inv in M as (M & _); exact M|repeat step].
      match goal with E : N.leb _ ?v = false |- _ => apply N.leb_gt in E; eapply N.lt_trans; [exact E|reflexivity] end.
  Qed.
  Lemma q_label : quiet OLabel.
  Proof.
    go. unfold run_label.
    assert (G : forall z, safe (fun _ => True) (let* d := sub64 z (e_pc e) in
      let* value := sub64 d 8 in
      if (Z.of_N (max_bits 23) <? value) || (value <? - Z.of_N (max_bits 23) - 1)
      then fail (s_tok s) "label out of range"
      else
        let* s := put e (shl64 (N.land (u64_of_Z value) 0x7FFFFF) 20) s in
        let* s := put e (shl64 (if value <? 0 then 1 else 0) 43) s in
        advance_tok s)).
    { assert (SB : forall a b, safe (fun _ => True) (sub64 a b)) by (intros; unfold sub64; destruct (_ || _); exact I).
      intros z. eapply safe_bind; [apply SB|]. intros d _. eapply safe_bind; [apply SB|]. intros v _. step; [exact I|].
      bitsn 23%N; [apply (land_lt _ _ 23); reflexivity|eapply sub_trans; [|exact M]; apply sub_range; lia|].
      bitsn 1%N; [apply bit_lt|apply sub_disjoint; [eapply sub_trans; [|exact M]; apply sub_range; lia|reflexivity]|].
      repeat step. }
    destruct (s_kind s); try dead; cbn [bind]; [|apply G].
    destruct (find_label _ _); [apply G|exact I].
  Qed.
  Lemma lt_31 : forall z, 0 <= z <= Z.of_N (max_bits 5) -> (u64_of_Z z < 2 ^ 5)%N.
  Proof.
    intros z H. assert (u64_of_Z z <= 31)%N by (apply u64_le; [assumption|reflexivity]). change (2 ^ 5)%N with 32%N. lia.
  Qed.
  Lemma q_cbuf : quiet OCbuf.
  Proof.
    go. unfold assemble_constant_buffer, confirm_type_next. repeat step.
    bitsn 5%N; [apply lt_31; assumption|apply sub_lor_inv in M as (M & _); exact M|].
    repeat step. bitsn 14%N; [|apply sub_after; [exact M|reflexivity]|repeat step].
    apply shiftr_lt. match goal with |- (Z.to_N (?z mod _) < _)%N => pose proof (Z.mod_pos_bound z 65536) end.
    change (2 ^ (14 + 2))%N with 65536%N. lia.
  Qed.

  Lemma imm20_lt : forall z, INT64_MIN <= z <= INT64_MAX -> z <= Z.of_N (max_bits 19) ->
    N.lt (if s64_of_N (u64_of_Z z) <? 0 then N.land (u64_of_Z (s64_of_N (u64_of_Z z) - 2 ^ 19)) (max_bits 19)
          else u64_of_Z z) (2 ^ 19)%N.
  Proof.
    intros z B U. destruct (s64_of_N (u64_of_Z z) <? 0) eqn:E.
    - apply land_lt. reflexivity.
    - apply Z.ltb_ge in E.
      assert (C : 0 <= z).
      { unfold s64_of_N, u64_of_Z, INT64_MIN, INT64_MAX, two64 in *. destruct (Z.ltb_spec z 0); [|assumption].
        exfalso. revert E. rewrite (Z.mod_eq z) by discriminate.
        replace (z / Z.of_N 18446744073709551616) with (-1) by (Z.div_mod_to_equations; lia).
        destruct (N.ltb_spec (Z.to_N (z - Z.of_N 18446744073709551616 * -1)) (18446744073709551616 / 2)).
        - change (18446744073709551616 / 2)%N with 9223372036854775808%N in *. lia.
        - lia. }
      apply (u64_small z 19); [|reflexivity||discriminate]. cbn in U. lia.
  Qed.
  Lemma q_imm20 : quiet OImm20.
  Proof.
    go. unfold assemble_signed_20bit_immediate. repeat step.
    bitsn 19%N; [apply imm20_lt; [eapply imm_ok'; eauto|tauto]|apply sub_lor_inv in M as (M & _); exact M|].
    bitsn 1%N; [apply bit_lt|apply sub_after; [exact M|reflexivity]|]. repeat step.
  Qed.
  Lemma float_ok' : forall m rm s f, fr m rm s -> s_kind s = TFloat f -> f32_ok f.
  Proof. intros m rm s z H K. apply fr_tok in H. rewrite K in H. exact H. Qed.
  Lemma q_fimm : forall b, quiet (OFimm b).
  Proof.
    intros b. go. unfold assemble_float_immediate.
    eapply (safe_bind _ _ (fun x => (fst x < 2 ^ 32)%N /\ fr m rm (snd x))).
    - assert (W : forall neg mag t, fr m rm t -> (mag < 2 ^ 31)%N ->
        safe (fun x => (fst x < 2 ^ 32)%N /\ fr m rm (snd x)) (Ok (with_sign neg f32_sign mag, t)))
        by (intros; split; [apply with_sign_lt; assumption|assumption]).
      destruct (s_kind s) eqn:K; repeat step; repeat (apply W; [assumption|reflexivity]).
      + split; [|assumption]. apply f32_ok_lt, f32_of_Z_ok.
      + split; [|assumption]. apply f32_ok_lt. eapply float_ok'; eauto.
    - intros (raw, s1) (L & H1). cbn [fst snd] in *. destruct (N.eqb b 20) eqn:E.
      + step. bitsn 19%N; [apply shiftr_lt; apply mod_two32_lt|apply sub_lor_inv in M as (M & _); exact M|].
        step.
        * bitsn 1%N; [apply one_lt|apply sub_after; [exact M|reflexivity]|repeat step].
        * repeat step.
      + cbn [orb] in P. rewrite P. bits; [exact L|exact M|repeat step].
  Qed.
  Lemma q_dimm : quiet ODimm.
  Proof.
    go. unfold assemble_double_immediate.
    assert (M1 : sub (range 20 19) (N.ldiff m (range 56 1)))
      by (apply sub_disjoint; [apply sub_lor_inv in M as (M & _); exact M|reflexivity]).
    assert (M2 : sub (range 56 1) m) by (apply sub_lor_inv in M as (_ & M); exact M).
    eapply (safe_bind _ _ (fun x => fr (N.ldiff m (range 56 1)) rm (snd x))).
    - assert (D : forall t, fr m rm t -> fr (N.ldiff m (range 56 1)) rm t).
      { intros t Ht. eapply fr_weak; [exact Ht| |apply sub_refl]. apply sub_spec. intros k. rewrite N.ldiff_spec.
        destruct (N.testbit m k); [reflexivity|discriminate]. }
      assert (N1 : forall (b : bool) v, safe (fun x => fr (N.ldiff m (range 56 1)) rm (snd x))
        (let* s := if b then put e (shl64 1 56) s else Ok s in Ok (v : N, s))).
      { intros b v. destruct b; [|cbn; auto]. bitsn 1%N; [apply one_lt|exact M2|]. assumption. }
      assert (Q : forall m' s', fr m' rm s' -> (fr m' rm s' -> fr (N.ldiff m (range 56 1)) rm s') ->
         safe (fun x => fr (N.ldiff m (range 56 1)) rm (snd x))
          (if equal (s_tok s') "QNAN" then Ok (f64_qnan, s')
           else if equal (s_tok s') "INF" then Ok (f64_inf, s') else fail (s_tok s') FLOAT_MESSAGE)).
      { intros m' s' Fs C. repeat step; cbn; auto. }
      destruct (s_kind s) eqn:K; try dead.
      + cbn [bind]. rewrite K. cbn [bind]. eapply Q; [exact F|auto].
      + apply N1. + apply N1.
      + cbn [bind]. rewrite K. step. eapply Q; [eassumption|auto].
      + bitsn 1%N; [apply one_lt|exact M2|].
        destruct (s_kind x); first [step|cbn [bind]]; (eapply Q; [eassumption|auto]).
    - intros (raw, s1) H1. cbn [snd] in *.
      bitsn 19%N; [|exact M1|repeat step]. apply shiftr_lt. apply shl64_lt.
  Qed.
  Lemma q_half : forall b o (nb : option N), quiet (OHalf b o nb).
  Proof.
    intros b o nb. go. unfold assemble_half_float_immediate.
    apply andb_true_iff in P as (P1 & P2).
    set (w := (if N.eqb b 9 then 9 else 16)%N) in *.
    set (m2 := range o w).
    assert (PN : forall (b : bool) s, fr m rm s -> safe (fr m2 0)
      (match nb with Some a => if b then put e (shl64 1 a) s else Ok s | None => Ok s end)).
    { intros b0 s1 H1.
      assert (KK : fr m2 0 s1) by (eapply fr_weak; [exact H1|apply sub_lor_inv in M as (M & _); exact M|apply sub_0]).
      destruct nb as [a|]; [|exact KK]. destruct b0; [|exact KK].
      apply apart_eq in P2. eapply safe_weak; [eapply (safe_shl _ m rm _ _ 1); [exact H1|apply one_lt|]|].
      - apply sub_lor_inv in M as (_ & M). exact M.
      - intros x Fx. eapply fr_weak; [exact Fx| |apply sub_0]. apply sub_disjoint; [|exact P2].
        apply sub_lor_inv in M as (M & _). exact M. }
    set (Post := fun x : N * st => (fst x < 2 ^ 16)%N /\ fr m2 0 (snd x)).
    eapply (safe_bind _ _ Post).
    - assert (W : forall x t, fr m2 0 t -> (x < 2 ^ 16)%N -> safe Post (Ok (x : N, t)))
        by (intros; split; assumption).
      assert (Q : forall (neg : bool) t, fr m rm t -> safe Post (let* value :=
          (if equal (s_tok t) "QNAN" then Ok 0x7FFF%N
           else if equal (s_tok t) "INF" then Ok 0x7C00%N
           else fail (s_tok t) FLOAT_MESSAGE) in
        let* s := match nb with Some a => if neg then put e (shl64 1 a) t else Ok t | None => Ok t end in
        Ok (match nb with
            | None => if neg then N.lor value 0x8000 else value
            | Some _ => value
            end, s))).
      { intros neg t Ht.
        repeat step; (eapply safe_bind; [apply (PN neg); exact Ht|]; intros t1 H1; apply W; [exact H1|]);
          destruct nb; try reflexivity; destruct neg; reflexivity. }
      destruct (s_kind s) eqn:K; try dead.
      + apply (Q false); assumption.
      + eapply safe_bind; [apply (PN (z <? 0)); exact F|]. intros t H1. apply W; [exact H1|apply fp16_lt].
      + eapply safe_bind; [apply (PN (f32_lt0 f32)); exact F|]. intros t H1. apply W; [exact H1|apply fp16_lt].
      + step. apply (Q false); assumption.
      + step. apply (Q true); assumption.
    - intros (v, s1) (L & H1). cbn [fst snd] in *. unfold m2, w in *. destruct (N.eqb b 9).
      + bitsn 9%N; [|apply sub_refl|repeat step]. apply shiftr_lt. unfold u16. apply N.mod_lt. discriminate.
      + cbn [orb] in P1. rewrite P1. bitsn 16%N; [exact L|apply sub_refl|repeat step].
  Qed.
  Lemma q_pred : forall a n, quiet (OPred a n).
  Proof.
    intros a n. go. unfold run_pred. repeat step.
    pose proof (fr_tok _ _ _ F) as K. destruct (s_kind s) as [| | |i g| | | | | | | | | | |] eqn:E; try dead.
    cbn in K. bitsn 3%N; [change (2 ^ 3)%N with 8%N; lia| |].
    { eapply sub_trans; [|exact M]. apply sub_range; destruct n; lia. }
    destruct n; repeat step. bitsn 1%N; [apply bit_lt| |repeat step].
    apply sub_disjoint; [eapply sub_trans; [|exact M]; apply sub_range; lia|].
    rewrite N.land_comm. apply range_disjoint. lia.
  Qed.
  Lemma q_invpred : forall a, quiet (OInvPred a).
  Proof.
    intros a. go. unfold run_inverted_pred. repeat step.
    pose proof (fr_tok _ _ _ F) as K. destruct (s_kind s) as [| | |i g| | | | | | | | | | |] eqn:E; try dead.
    bits; [|exact M|repeat step]. apply (u64_small _ 3); [change (2 ^ Z.of_N 3) with 8; change (i <= 7)%N in K; lia|discriminate].
  Qed.
  Lemma q_type : forall ty a, quiet (OOptType ty a).
  Proof.
    intros ty a. go. unfold opt_type. repeat step. bits; [apply one_lt|exact M|]. repeat step.
  Qed.
  (** The operand of [abs] is not one that clears bits. *)
  Lemma q_abs : forall a o, lit_ok_deep o = true -> clears o = 0%N -> quiet o -> quiet (OAbs a o).
  Proof.
    intros a o LO CO Q. go. unfold run_abs. apply andb_true_iff in P as (P1 & P2).
    apply apart_eq in P1.
    eapply (safe_bind _ _ (fun s1 => fr (mask o) rm s1)).
    { step.
      - bits; [apply one_lt|apply sub_lor_inv in M as (M & _); exact M|].
        eapply safe_weak; [eapply safe_advance; eassumption|]. intros s1 F1.
        eapply fr_weak; [exact F1| |apply sub_refl]. apply sub_after; assumption.
      - cbn. eapply fr_weak; [exact F| |apply sub_refl]. apply sub_lor_inv in M as (_ & M). exact M. }
    intros s1 F1. eapply (safe_bind _ _ (fun _ => True)).
    { eapply Q; [exact F1| |exact R|exact P2]. rewrite CO, N.ldiff_0_r. apply sub_refl. }
    intros s2 _. step; [|exact I]. step. unfold advance_tok. pose proof (tokenize_outcomes (s_cur s2)) as O.
    destruct (tokenize (s_cur s2)) as [(t, c)| | | | |]; cbn in *; auto.
  Qed.

  Lemma q_po : forall a1 a2, quiet (OPo a1 a2).
  Proof.
    intros a1 a2. go. unfold run_po. repeat step.
    eapply safe_bind; [eapply safe_put; [exact F| |exact M]|intros; repeat step].
    apply sub_lor; [apply sub_lor_l|apply sub_lor_r]; apply (sub_shl 1 _ 1 one_lt).
  Qed.
  Lemma q_memory_at : forall (i : bool) a z h m rm s, fr m rm s ->
    sub (N.lor (range 8 8) (if i then range a z else 0%N)) m -> sub 1 rm ->
    negb i || apart (range 8 8) (range a z) = true ->
    safe (fun _ => True) (run_memory_address e i a z h s).
  Proof.
    intros i a z h m rm s F M R P. unfold run_memory_address. step. step.
    eapply (safe_bind _ _ (fun x => (fst x < 2 ^ 8)%N /\ fr m 0 (snd x))).
    { pose proof (fr_tok _ _ _ H0) as K.
      assert (Z : forall t, fr m rm t -> safe (fun x => (fst x < 2 ^ 8)%N /\ fr m 0 (snd x)) (Ok (ZERO_REGISTER, t))).
      { intros t Ht. split; [reflexivity|]. eapply fr_weak; [exact Ht|apply sub_refl|apply sub_0]. }
      destruct (s_kind x); try (apply Z; assumption). cbn in K.
      step. eapply safe_bind; [eapply safe_try_reuse; eassumption|]. intros s3 H3.
      split; [change (2 ^ 8)%N with 256%N; cbn [fst]; lia|exact H3]. }
    intros (r, s1) (L & H2). cbn [fst snd] in *.
    bitsn 8%N; [exact L|apply sub_lor_inv in M as (M & _); exact M|].
    eapply (safe_bind _ _ (fun s' => fr 0 0 s')).
    { assert (Z : forall t m', fr m' 0 t -> safe (fun s' => fr 0 0 s') (Ok t)).
      { intros t m' Ht. eapply fr_weak; [exact Ht|apply sub_0|apply sub_0]. }
      destruct i; [|eapply Z; eassumption]. destruct (s_kind x0); try (eapply Z; eassumption).
      cbv zeta. step. cbn [negb orb] in P. apply apart_eq in P.
      bitsn z; [|apply sub_after; assumption|].
      - apply land_lt. apply max_bits_lt.
      - eapply safe_weak; [eapply safe_advance; eassumption|]. intros t Ht.
        eapply fr_weak; [exact Ht|apply sub_0|apply sub_0]. }
    intros s2 H4. repeat step.
  Qed.
  Lemma q_cc : forall tests a, quiet (OCcTests tests a).
  Proof.
    intros tests a. go. unfold assemble_cc_tests. step.
    - repeat step. destruct x0 as [i|]; repeat step. bits; [|exact M]. apply index_lt; auto.
    - bits; [|exact M]. apply default_lt.
  Qed.
  Lemma q_imm_attr : quiet OImmAttr.
  Proof.
    go. unfold run_imm_attr. repeat step.
    eapply safe_bind; [eapply q_uint_at; [eassumption|apply sub_lor_inv in M as (M & _); exact M]|]. intros s1 H3.
    bitsn 8%N; [reflexivity|apply sub_after; [exact M|reflexivity]|repeat step].
  Qed.
  Lemma q_patch_attr : quiet OPatchAttr.
  Proof.
    go. unfold run_patch_attr. step; [step|]. step. step. step.
    eapply safe_bind; [eapply safe_gpr; [eassumption|apply sub_lor_inv in M as (_ & M); exact M|exact R]|]. intros s1 H3.
    eapply (safe_bind _ _ (fr (N.ldiff m (range 8 8)) 0)); [repeat step'|]. intros s2 H4.
    eapply safe_bind; [eapply q_int_at; [eassumption|]|].
    - apply sub_disjoint; [apply sub_lor_inv in M as (M & _); exact M|reflexivity].
    - intros s3 H5; repeat step.
  Qed.
  Lemma q_phys_attr : quiet OPhysAttr.
  Proof.
    go. unfold run_phys_attr. step; [step|]. step. step. step.
    eapply safe_bind; [eapply safe_gpr; [eassumption|exact M|exact R]|]. intros s1 H3. repeat step.
  Qed.
  Lemma q_xmad : quiet OXmadSigns.
  Proof.
    go. unfold run_xmad_signs. repeat step.
    - bitsn 1%N; [apply one_lt|eapply sub_trans; [|exact M]; reflexivity|]. repeat step.
      bitsn 1%N; [apply one_lt|apply sub_disjoint; [eapply sub_trans; [|exact M]; reflexivity|reflexivity]|]. repeat step.
    - bitsn 1%N; [apply one_lt|eapply sub_trans; [|exact M]; reflexivity|]. repeat step.
  Qed.
  Lemma q_f2f : quiet OF2fRounding.
  Proof.
    go. unfold run_f2f_rounding. set (L := [0; 1; 2; 3; 8; 9; 10; 11]%N).
    assert (B : forall i t, In i L -> fr m rm t -> safe (fun _ => True) (put e (shl64 i 39) t)).
    { intros i t Hi Ht. eapply safe_weak; [eapply safe_put; [exact Ht| |exact M]|auto].
      repeat (destruct Hi as [<-|Hi]; [reflexivity|]). destruct Hi. }
    eapply (safe_bind _ _ (fun r => forall i, r = Some i -> In i L)).
    { step.
      - cbn [safe]. intros i.
        repeat match goal with |- context [if ?b then _ else _] => destruct b end; intros [= <-]; cbn; tauto.
      - eapply safe_weak; [apply safe_find|]. intros r G i E. specialize (G i E). cbn in G.
        assert (D : (i = 0 \/ i = 1 \/ i = 2 \/ i = 3)%N) by lia.
        destruct D as [->|[->|[->| ->]]]; cbn; tauto. }
    intros r G. destruct r as [i|]; cbn [value_or].
    - step. apply B; auto.
    - cbn [bind]. apply B; auto. cbn; tauto.
  Qed.
  Lemma q_int_format : forall u sg a sa msg, quiet (OIntFormat u sg a sa msg).
  Proof.
    intros u sg a sa msg. go. unfold run_int_format. apply apart_eq in P.
    set (w := N.max (index_bits None u) (index_bits None sg)) in *. step. destruct x as [i|].
    - bitsn w; [|apply sub_lor_inv in M as (M & _); exact M|repeat step].
      eapply N.lt_le_trans; [apply (index_lt _ None); eauto|]. apply N.pow_le_mono_r; [discriminate|unfold w; lia].
    - step. destruct x as [i|]; [|step]. bitsn 1%N; [apply one_lt|apply sub_lor_inv in M as (_ & M); exact M|].
      bitsn w; [|apply sub_disjoint; [apply sub_lor_inv in M as (M & _); exact M|exact P]|repeat step].
      eapply N.lt_le_trans; [apply (index_lt _ None); eauto|]. apply N.pow_le_mono_r; [discriminate|unfold w; lia].
  Qed.
  Lemma q_ldc : quiet OLdcAddress.
  Proof.
    go. unfold run_ldc_address. step; [step|]. step. step. step. step.
    bitsn 5%N; [apply lt_31; assumption|apply sub_lor_inv in M as (M & _); exact M|].
    repeat (step; []). eapply q_memory_at; [eassumption|apply sub_after; [exact M|reflexivity]|exact R|reflexivity].
  Qed.
  Lemma q_s2r : forall tbl, quiet (OS2r tbl).
  Proof.
    intros tbl. go. unfold run_s2r.
    set (w := N.max 6 (index_bits None tbl)) in *.
    eapply (safe_bind _ _ (fun x => (fst x < 2 ^ w)%N /\ fr m rm (snd x))).
    2:{ intros (v, s1) (L & H1). cbn [fst snd] in *. bits; [exact L|exact M]. }
    assert (K : forall v t, fr m rm t -> (v < 2 ^ 6)%N ->
      safe (fun x => (fst x < 2 ^ w)%N /\ fr m rm (snd x)) (Ok (v : N, t))).
    { intros v t Ht L. split; [|exact Ht]. cbn [fst]. eapply N.lt_le_trans; [exact L|].
      apply N.pow_le_mono_r; [discriminate|]. unfold w. lia. }
    step.
    - step. cbv zeta.
      repeat match goal with |- context [equal ?t ?x] => destruct (equal t x) end; cbn [N.eqb Pos.eqb];
        repeat step; apply K; auto; reflexivity.
    - step.
      + step.
        repeat match goal with |- context [equal ?t ?x] => destruct (equal t x) end;
          repeat step; apply K; auto; reflexivity.
      + step. destruct x as [v|]; [|repeat step]. step. cbn [safe]. cbn [fst snd]. split; [|assumption].
        eapply N.lt_le_trans; [apply (index_lt _ None); eauto|].
        apply N.pow_le_mono_r; [discriminate|]. unfold w. lia.
  Qed.
  Lemma q_ldg : quiet OLdgSize.
  Proof.
    go. unfold run_ldg_size. step.
    assert (L : (value_or x 4 < 2 ^ 3)%N).
    { destruct x as [i|]; [|reflexivity]. specialize (H i eq_refl). exact H. }
    keep m rm; [|intros s1 H1; bits; [exact L|exact M]].
    destruct x as [i|]; repeat step'.
  Qed.
  Lemma q_selector : forall ta sh shorts a, quiet (OSelector ta sh shorts a).
  Proof.
    intros ta sh shorts a. go. unfold run_selector. cbv zeta. step.
    assert (L : (value_or x 0 < 2 ^ (N.max 2 (index_bits None shorts)))%N).
    { destruct x as [i|]; [|apply N.neq_0_lt_0, N.pow_nonzero; discriminate]. specialize (H i eq_refl). cbn [value_or].
      destruct (N.eqb _ _).
      - eapply N.lt_le_trans; [apply (index_lt _ None); exact H|]. apply N.pow_le_mono_r; [discriminate|lia].
      - eapply N.lt_le_trans; [exact H|]. change (N.of_nat (Datatypes.length ["B0"; "B1"; "B2"; "B3"])) with (2 ^ 2)%N.
        apply N.pow_le_mono_r; [discriminate|lia]. }
    destruct x as [i|]; repeat step; (bits; [exact L|exact M]).
  Qed.
  Lemma q_atomic : forall a, quiet (OAtomicSize a).
  Proof.
    intros a. go. unfold run_atomic_size. step.
    assert (L : (value_or x 0 < 2 ^ 3)%N).
    { destruct x as [i|]; [|reflexivity]. specialize (H i eq_refl). cbn in *. lia. }
    keep m rm; [|intros s1 H1; bits; [exact L|exact M]].
    destruct x as [i|]; repeat step'.
  Qed.
  Lemma q_src : forall a sa, quiet (OSrcFormat a sa).
  Proof.
    intros a sa. go. unfold run_src_format. apply apart_eq in P. step.
    assert (G : forall b r, (forall i, r = Some i -> (i < 4)%N) -> safe (fun _ => True)
      (let* s := match r with Some _ => advance_tok s | None => Ok s end in
       let* s := put e (shl64 (value_or r 3) a) s in
       put e (shl64 (if b : bool then 1 else 0) sa) s)).
    { intros b r Fr. assert (M1 : sub (range a 2) m) by (apply sub_lor_inv in M as (M & _); exact M).
      destruct r as [i|]; repeat step.
      - bitsn 2%N; [apply (Fr i); reflexivity|exact M1|]. bitsn 1%N; [apply bit_lt|apply sub_after; assumption].
      - bitsn 2%N; [reflexivity|exact M1|]. bitsn 1%N; [apply bit_lt|apply sub_after; assumption]. }
    destruct x as [i|].
    - step. apply (G true (Some i)). intros j [= <-]. apply (H i eq_refl).
    - step. step. step. apply G. intros j ->. apply (H0 j eq_refl).
  Qed.
  Lemma q_textype : forall a, quiet (OTexType a).
  Proof.
    intros a. go. unfold run_tex_type. step.
    destruct x as [i|]; repeat step. bits; [|exact M]. apply (H i eq_refl).
  Qed.
  Lemma q_zero : quiet OZero.
  Proof.
    go. unfold run_zero. destruct (s_kind s); try dead. destruct z; repeat step.
  Qed.
  Lemma q_texs_mode : forall a, quiet (OTexsMode a).
  Proof.
    intros a. go. unfold run_texs_mode.
    eapply (safe_bind _ _ (fun x => (fst x < 2 ^ 2)%N /\ fr m rm (snd x))).
    { repeat step; cbn [safe]; split; auto; reflexivity. }
    intros (lod, s1) (L & H1). cbn [fst snd] in *.
    eapply (safe_bind _ _ (fun x => (fst x < 2 ^ 3)%N /\ fr m rm (snd x))).
    { repeat step; cbn [safe]; split; auto; reflexivity. }
    intros (dc, s2) (L2 & H2). cbn [fst snd] in *. bits; [|exact M]. apply lor_lt; [exact L2|].
    eapply N.lt_trans; [exact L|reflexivity].
  Qed.
  Lemma shl7 : forall a, (a + 3 <= 64)%N -> shl64 7 a = range a 3.
  Proof.
    intros a L. unfold shl64, range. change (N.ones 3) with 7%N. apply N.mod_small.
    change two64 with (2 ^ 64)%N. rewrite N.shiftl_mul_pow2.
    apply N.lt_le_trans with (2 ^ 3 * 2 ^ a)%N.
    - apply N.mul_lt_mono_pos_r; [apply N.neq_0_lt_0, N.pow_nonzero; discriminate|reflexivity].
    - rewrite <- N.pow_add_r. apply N.pow_le_mono_r; [discriminate|lia].
  Qed.
  Lemma fr_clear : forall m rm w c s, fr m rm s -> sub (N.ldiff w c) m ->
    fr w rm (set_value (andnot (value (s_op s)) c) s).
  Proof.
    intros m rm w c s [T V R] S. constructor; auto. cbn. unfold andnot. apply N.bits_inj. intros k.
    rewrite N.land_spec, N.ldiff_spec, N.bits_0. rewrite sub_spec in S. specialize (S k). rewrite N.ldiff_spec in S.
    destruct (N.testbit c k) eqn:C; [cbn; rewrite andb_false_r; reflexivity|]. cbn [negb] in *. rewrite andb_true_r in *.
    destruct (N.testbit w k); [|apply andb_false_r]. specialize (S eq_refl).
    rewrite <- S at 1. rewrite <- N.land_spec, V. apply N.bits_0.
  Qed.
  Lemma q_tlds : forall a, quiet (OTldsType a).
  Proof.
    intros a. go. unfold run_tlds_type. cbv zeta. apply N.leb_le in P. rewrite (shl7 a P). rewrite place7 in M.
    pose proof (fr_clear _ _ _ _ _ F M) as H1. set (s1 := set_value _ s) in *. step.
    eapply (safe_bind _ _ (fun x => (x < 2 ^ 4)%N)).
    2:{ intros mode L. bits; [exact L|apply sub_refl|repeat step]. }
    repeat match goal with
    | |- safe _ (match ?x with _ => _ end) => destruct x
    | |- safe _ (fail _ _) => exact I
    | |- safe _ (Ok (if ?b then _ else _)) => destruct b
    | |- safe _ (Ok _) => reflexivity
    end.
  Qed.
  Lemma q_texs : forall a, quiet (OTexsType a).
  Proof.
    intros a. go. unfold run_texs_type. cbv zeta. apply N.eqb_eq in P. subst a. rewrite (shl7 53) by discriminate. rewrite place7 in M.
    pose proof (fr_clear _ _ _ _ _ F M) as H1. set (s1 := set_value _ s) in *. step. destruct x as [ty|]; [|step].
    eapply (safe_bind _ _ (fr 0 rm)); [|intros; repeat step].
    assert (W : forall b, sub b (range 53 4) -> safe (fr 0 rm) (put e b s1)).
    { intros b B. eapply safe_weak; [eapply safe_put; [exact H1|exact B|reflexivity]|].
      intros t Ht. eapply fr_weak; [exact Ht|apply sub_0|apply sub_refl]. }
    assert (Z : safe (fr 0 rm) (Ok s1)) by (eapply fr_weak; [exact H1|apply sub_0|apply sub_refl]).
    repeat match goal with
    | |- safe _ (match ?x with _ => _ end) => destruct x
    | |- safe _ (if ?x then _ else _) => destruct x
    | |- safe _ (fail _ _) => exact I
    | |- safe _ (put _ _ _) => apply W; reflexivity
    | |- safe _ (Ok _) => exact Z
    end.
  Qed.
  Lemma q_swizzle : quiet OTexsSwizzle.
  Proof.
    go. unfold run_texs_swizzle. cbv zeta.
    match goal with |- context [assoc_text ?t ?x] => destruct (assoc_text t x) as [b|] eqn:E end; [|step].
    apply (assoc_in (fun b => sub b (range 50 3))) in E.
    2:{ destruct (N.eqb _ _); repeat constructor. }
    eapply safe_bind; [eapply safe_put; [eassumption|exact E|exact M]|]. intros; repeat step.
  Qed.
  Lemma q_mirror : forall a, quiet (OMirrorGpr a).
  Proof.
    intros a. go. unfold run_mirror_dgpr. cbv zeta.
    assert (F0 : fr 0 rm s) by (eapply fr_weak; [exact F|apply sub_0|apply sub_refl]).
    assert (H1 : fr (shl64 255 a) rm (set_value (andnot (value (s_op s)) (shl64 255 a)) s)).
    { eapply fr_clear; [exact F0|]. rewrite N.ldiff_diag. apply sub_0. }
    set (s1 := set_value _ s) in *. eapply (safe_bind _ _ (fun _ => True)); [|intros; repeat step].
    unfold assemble_gpr. step.
    pose proof (fr_tok _ _ _ H1) as K. destruct (s_kind s1); try dead. cbn in K.
    eapply (safe_bind _ _ (fr 0 rm)).
    - eapply safe_weak; [eapply safe_put; [exact H1| |apply sub_refl]|].
      + apply sub_spec. intros k. unfold shl64. change two64 with (2 ^ 64)%N.
        destruct (N.ltb_spec k 64); [rewrite !N.mod_pow2_bits_low by assumption|rewrite !N.mod_pow2_bits_high by assumption; discriminate].
        destruct (N.leb_spec a k); [rewrite !N.shiftl_spec_high' by assumption|rewrite !N.shiftl_spec_low by assumption; discriminate].
        intros T. change 255%N with (N.ones 8). apply N.ones_spec_low. destruct (N.ltb_spec (k - a) 8); [assumption|].
        rewrite (bits_small r 8) in T; [discriminate|change (2 ^ 8)%N with 256%N; lia|assumption].
      + intros t Ht. eapply fr_weak; [exact Ht|apply sub_0|apply sub_refl].
    - intros s2 F2. step. eapply safe_weak; [eapply safe_try_reuse; eassumption|auto].
  Qed.
  Lemma q_comma : quiet OComma.
  Proof. go. unfold run_comma. repeat step. Qed.
  Lemma q_opt_text : forall str, quiet (OOptText str).
  Proof. intros str. go. unfold opt_text. repeat step. Qed.
  Lemma q_rz : forall a, quiet (ODefaultRz a).
  Proof. intros a. go. bitsn 8%N; [reflexivity|exact M]. Qed.

  (** No operand of the table wraps one that clears bits. *)
  Fixpoint wraps_ok (o : opnd) : bool :=
    match o with OAbs _ inner => N.eqb (clears inner) 0 && wraps_ok inner | _ => true end.

  Theorem operand_quiet : forall o, lit_ok_deep o = true -> wraps_ok o = true -> quiet o.
  Proof.
    fix IH 1. intros o L W. destruct o.
    - apply q_comma. - apply q_flag. - apply q_uint. - apply q_int.
    - apply q_dot. - apply q_req. - apply q_text. - apply q_text_after.
    - apply q_opt_text. - apply q_uimm. - apply q_label.
    - intros m rm s F M R P. cbn [mask clears] in M. rewrite N.ldiff_0_r in M.
      eapply safe_weak; [eapply safe_gpr; [exact F|exact M|exact R]|auto].
    - apply q_mirror. - apply q_cbuf. - apply q_imm20. - apply q_fimm. - apply q_dimm. - apply q_half.
    - apply q_pred. - apply q_invpred. - apply q_type.
    - cbn [lit_ok_deep wraps_ok] in L, W. apply andb_true_iff in W as (W1 & W2). apply N.eqb_eq in W1.
      apply q_abs; auto.
    - apply q_po. - apply q_rz.
    - intros m rm s F M R P. cbn [mask clears] in M. rewrite N.ldiff_0_r in M.
      eapply q_memory_at; [exact F|exact M|exact R|exact P].
    - apply q_cc. - apply q_imm_attr. - apply q_patch_attr. - apply q_phys_attr. - apply q_xmad.
    - apply q_f2f. - apply q_int_format. - apply q_ldc. - apply q_s2r. - apply q_ldg. - apply q_selector.
    - apply q_atomic. - apply q_src. - apply q_textype. - apply q_zero. - apply q_texs_mode.
    - apply q_tlds. - apply q_texs. - apply q_swizzle.
  Qed.
End Run.

(** ** A whole form *)

(** Bits [u] of the word may be set before the operands [ops] run. *)
Fixpoint flow_ok (u ru : N) (ops : list opnd) : bool :=
  match ops with
  | [] => true
  | o :: ops' =>
      parts_ok o && wraps_ok o && apart u (N.ldiff (mask o) (clears o)) && apart ru (reuse_mask o) &&
      flow_ok (N.lor u (mask o)) (N.lor ru (reuse_mask o)) ops'
  end.
Definition form_ok (i : insn) : bool :=
  apart (i_opcode i) (range 16 4) &&
  flow_ok (N.lor (i_opcode i) (range 16 4)) 0 (i_operands i).

Definition silent {A} (m : res A) : Prop := forall w, m <> Abort w.
Lemma safe_silent : forall A (P : A -> Prop) m, safe P m -> silent m.
Proof. intros A P m H w ->. exact H. Qed.

Lemma sub_value : forall a b m u, N.ldiff a m = N.ldiff b m -> sub b u -> sub a (N.lor u m).
Proof.
  intros a b m u E S. rewrite sub_spec in *. intros k K. rewrite N.lor_spec.
  destruct (N.testbit m k) eqn:M; [apply orb_true_r|]. rewrite orb_false_r. apply S.
  assert (X : N.testbit (N.ldiff a m) k = N.testbit (N.ldiff b m) k) by (rewrite E; reflexivity).
  rewrite !N.ldiff_spec, K, M in X. cbn in X. rewrite andb_true_r in X. auto.
Qed.

Lemma run_operands_quiet : forall e ops u ru n s k, forallb lit_ok_deep ops = true -> flow_ok u ru ops = true ->
  kind_ok (s_kind s) -> (value (s_op s) < 2 ^ 64)%N -> sub (value (s_op s)) u -> sub (reuse (s_op s)) ru ->
  (forall n s, silent (k n s)) -> silent (run_operands e ops n s k).
Proof.
  intros e ops. induction ops as [|o ops IH]; intros u ru n s k L F T W V R K; cbn [run_operands]; [apply K|].
  cbn [forallb flow_ok] in L, F. apply andb_true_iff in L as (L1 & L2).
  repeat (apply andb_true_iff in F as (F & ?)). rename H into F5, H0 into F4, H1 into F3, H2 into F2, F into F1.
  apply apart_eq in F3, F4.
  assert (Q : safe (fun _ => True) (run_operand e o s)).
  { eapply (operand_quiet e o L1 F2 (N.ldiff (mask o) (clears o)) (reuse_mask o)); [|apply sub_refl|apply sub_refl|exact F1].
    constructor; [exact T| |].
    - eapply sub_land; [exact V|apply sub_refl|exact F3].
    - eapply sub_land; [exact R|apply sub_refl|exact F4]. }
  assert (FP : ensures (inv (mask o) (reuse_mask o) s) (run_operand e o s)).
  { apply (operand_footprint e o L1); [|apply sub_refl|apply sub_refl]. constructor; auto.
    exists 0%N. rewrite N.lor_0_r. split; [reflexivity|apply sub_0]. }
  destruct (run_operand e o s) as [s'| | | | |] eqn:E; cbn [scored]; try (intros w; discriminate); [|destruct Q].
  destruct (FP s' eq_refl) as [T' W' V' (r & R1 & R2) _].
  eapply IH; [exact L2|exact F5|exact T'|exact W'| | |exact K].
  - eapply sub_value; eassumption.
  - rewrite R1. apply sub_lor; [apply sub_lor_l; exact R|apply sub_lor_r; exact R2].
Qed.

Lemma sched_silent : forall s, silent (assemble_sched s).
Proof.
  intros s w E. pose proof (sched_clean false (Env [] 0 false) s) as H. rewrite E in H. discriminate.
Qed.

Theorem form_quiet : forall e i c gi gn, In i table -> form_ok i = true -> (gi <= 7)%N ->
  silent (parse_insn e i c (Opcode (N.shiftl (guard_bits gi gn) 16) 0 0)).
Proof.
  intros e i c gi gn Hi F Hg. apply andb_true_iff in F as (F1 & F2). apply apart_eq in F1.
  assert (G : (guard_bits gi gn < 2 ^ 4)%N) by (apply guard_word; exact Hg).
  assert (SG : sub (N.shiftl (guard_bits gi gn) 16) (range 16 4)).
  { apply sub_spec. intros k K. rewrite range_spec. destruct (N.leb_spec 16 k).
    - rewrite N.shiftl_spec_high' in K by assumption. destruct (N.ltb_spec k (16 + 4)); [reflexivity|].
      rewrite (bits_small _ 4) in K; [discriminate|exact G|lia].
    - rewrite N.shiftl_spec_low in K by assumption. discriminate. }
  unfold parse_insn, add_bits. cbn [value].
  rewrite (sub_land _ _ (i_opcode i) (i_opcode i) SG (sub_refl _)) by (rewrite N.land_comm; exact F1).
  rewrite N.eqb_refl, andb_false_r. cbn [bind reuse sched].
  pose proof (tokenize_outcomes c) as O.
  destruct (tokenize c) as [(t, c1)| | | | |] eqn:E; cbn [bind]; try (intros w; discriminate); [|contradiction].
  destruct (_ && _); [intros w; discriminate|].
  eapply run_operands_quiet; [exact (forallb_in _ _ _ _ table_lits Hi)|exact F2|eapply token_kind_ok; exact E| | | |].
  - cbn [value s_op]. apply lor_lt; [|apply N.ltb_lt; exact (forallb_in _ _ _ _ table_opcodes Hi)].
    rewrite N.shiftl_mul_pow2. change (2 ^ 16)%N with 65536%N. change (2 ^ 64)%N with 18446744073709551616%N.
    change (2 ^ 4)%N with 16%N in G. lia.
  - cbn [value s_op]. apply sub_lor; [apply sub_lor_r; exact SG|apply sub_lor_l; apply sub_refl].
  - apply sub_0.
  - intros n s. pose proof (sched_silent s) as SS.
    destruct (assemble_sched s); cbn [scored]; try (intros w; discriminate); [|intros w; exact (SS w)||(exfalso; eapply SS; reflexivity)].
    unfold confirm_type. destruct (ttype_eqb _ _); cbn; intros w; discriminate.
Qed.
