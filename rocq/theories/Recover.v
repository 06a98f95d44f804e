(** * Recover: reading the operands back from the emitted words. *)
From Verif Require Import Base Float Lexer Operand Catalogue Table Parse Assemble Spec SpecOperand SpecInsn Bits LexFacts
  SchedFuel Param Reach ParseFacts Outcomes Decode Program Footprint Encode Operands Operands3 Quiet Notes Insn Words Clash.
From Coq Require Import Lia.
Local Open Scope string_scope.
Local Open Scope list_scope.
Open Scope Z_scope.

(** ** Instructions of a program *)

(** In the program [code], instruction [k] is written as the form [i] with the
    guard ([gi], [gn]) and the tokens [kf] after the mnemonic; it is encoded
    as [op].  The labels of the program are [ls]. *)
Definition assembled (a : bool) (code : text) (ls : labels) (k : nat) (i : insn) (gi : N) (gn : bool)
  (kf : list tkind) (op : opcode) : Prop :=
  exists l y x c0 kg,
    program a code ls l y /\ nth_error l k = Some (x, op) /\ In i table /\
    reached (Cursor code 0 0) c0 /\ guard_tokens gi gn kg /\
    scan c0 (kg ++ id (i_mnemonic i) :: kf) (c_cur x) /\
    form_spells (find_label ls) (addr k) i gi gn kf op.

Lemma scan_ok : forall c ks c', scan c ks c' -> Forall kind_ok ks.
Proof. intros c ks c' H. induction H; constructor; auto. eapply token_ok; eassumption. Qed.
Lemma decodes_reached : forall a ls x l y, decodes a ls x l y ->
  Forall (fun p => reached (c_cur x) (c_cur (fst p))) l.
Proof.
  intros a ls x l y D. induction D as [|x x' op l y P D IH]; [constructor|].
  apply instruction_semi in P as ((p & M) & _).
  assert (R : reached (c_cur x) (c_cur x')) by (exists (p ++ [";"%char]); exact M).
  constructor; [exact R|]. eapply Forall_impl; [|exact IH]. intros q Q. eapply reached_trans; eauto.
Qed.

Theorem program_assembled : forall a code ls l y k x op, program a code ls l y -> nth_error l k = Some (x, op) ->
  exists i gi gn kf, assembled a code ls k i gi gn kf op.
Proof.
  intros a code ls l y k x op P N.
  destruct (program_meets _ _ _ _ _ _ _ _ P N) as (x0 & X & _ & PC & R).
  assert (RX : reached (Cursor code 0 0) (c_cur x0)).
  { destruct X as [->|(op0 & _ & X)]; [apply reached_refl|]. destruct P as (_ & D & _).
    apply decodes_reached in D. rewrite Forall_forall in D. exact (D _ (nth_error_In _ _ X)). }
  destruct R as (t & c & t1 & c1 & o & pre & i & post & kg & gi & gn & cm & kf & T & _ & O & E & G & (k0 & ks0 & GE & GK & GS) & S & F & _ & _).
  assert (L : last_read (Cursor code 0 0) t1 c1).
  { eapply options_last; [|exact O]. exists (c_cur x0). auto. }
  destruct L as (c0 & RC & T1). rewrite PC in F.
  exists i, gi, gn, kf, l, y, x, c0, kg. split; [exact P|]. split; [exact N|].
  split; [rewrite E; apply in_elt|]. split; [exact RC|]. split; [exact G|]. split; [|exact F].
  replace (kg ++ id (i_mnemonic i) :: kf) with ((kg ++ [id (i_mnemonic i)]) ++ kf) by (rewrite <- app_assoc; reflexivity).
  rewrite GE. cbn [app]. rewrite <- GK. econstructor; [exact T1|]. eapply scan_app; eassumption.
Qed.

Lemma assembled_ok : forall a code ls k i gi gn kf op, assembled a code ls k i gi gn kf op ->
  In i table /\ Forall kind_ok kf /\ (gi <= 7)%N /\ form_spells (find_label ls) (addr k) i gi gn kf op.
Proof.
  intros a code ls k i gi gn kf op (l & y & x & c0 & kg & _ & _ & I & _ & G & S & F).
  apply scan_ok in S. rewrite Forall_app in S. destruct S as (S1 & S2). inversion S2; subst.
  split; [exact I|]. split; [assumption|]. split; [|exact F].
  destruct G as [(_ & -> & _)| ->]; [discriminate|]. inversion S1 as [|? ? _ S3]; subst. inversion S3; subst. assumption.
Qed.

(** ** Fields *)

Lemma field_land : forall w m a n, sub (range a n) m -> field (N.land w m) a n = field w a n.
Proof.
  intros w m a n S. rewrite sub_spec in S. apply N.bits_inj. intros k. rewrite !field_spec, N.land_spec.
  destruct (N.ltb_spec k n); [|reflexivity]. cbn [andb].
  rewrite (S (k + a)%N), andb_true_r; [reflexivity|]. rewrite range_spec.
  apply andb_true_iff. split; [apply N.leb_le; lia|apply N.ltb_lt; lia].
Qed.
Lemma field_lor : forall x y a n, field (N.lor x y) a n = N.lor (field x a n) (field y a n).
Proof.
  intros x y a n. apply N.bits_inj. intros k. rewrite N.lor_spec, !field_spec, N.lor_spec.
  destruct (k <? n)%N; reflexivity.
Qed.
Lemma field_ldiff : forall x y a n, field (N.ldiff x y) a n = N.ldiff (field x a n) (field y a n).
Proof.
  intros x y a n. apply N.bits_inj. intros k. rewrite N.ldiff_spec, !field_spec, N.ldiff_spec.
  destruct (k <? n)%N; reflexivity.
Qed.
Lemma field_0 : forall a n, field 0 a n = 0%N.
Proof. intros a n. unfold field. now rewrite N.shiftr_0_l. Qed.
Lemma field_place : forall v a n, (v < 2 ^ n)%N -> field (place v a) a n = v.
Proof.
  intros v a n H. rewrite field_arith. unfold place. rewrite N.div_mul by (apply N.pow_nonzero; lia).
  apply N.mod_small. exact H.
Qed.
Lemma field_apart : forall x m a n, sub x m -> N.land m (range a n) = 0%N -> field x a n = 0%N.
Proof.
  intros x m a n S D. apply N.bits_inj. intros k. rewrite field_spec, N.bits_0.
  destruct (N.ltb_spec k n); [|reflexivity]. cbn [andb]. destruct (N.testbit x (k + a)) eqn:E; [|reflexivity].
  rewrite sub_spec in S. apply S in E.
  assert (Q : N.testbit (N.land m (range a n)) (k + a) = false) by (rewrite D; apply N.bits_0).
  rewrite N.land_spec, E, range_spec in Q. cbn [andb] in Q.
  destruct (N.leb_spec a (k + a)); [|lia]. destruct (N.ltb_spec (k + a) (a + n)); [discriminate|lia].
Qed.
Lemma field_place_out : forall v a n b m, (v < 2 ^ n)%N -> (b + m <= a \/ a + n <= b)%N -> field (place v a) b m = 0%N.
Proof.
  intros v a n b m H D. eapply field_apart; [apply place_sub; exact H|].
  destruct D; [rewrite N.land_comm|]; apply range_disjoint; assumption.
Qed.
Lemma field_flag : forall f a, field (flag_bit f a) a 1 = (if f then 1 else 0)%N.
Proof.
  intros [] a; [|apply field_0]. unfold flag_bit. replace (2 ^ a)%N with (place 1 a) by (unfold place; lia).
  apply field_place. reflexivity.
Qed.
Lemma field_flag_out : forall f a b m, (b + m <= a \/ a + 1 <= b)%N -> field (flag_bit f a) b m = 0%N.
Proof.
  intros [] a b m D; [|apply field_0]. unfold flag_bit. replace (2 ^ a)%N with (place 1 a) by (unfold place; lia).
  apply (field_place_out 1 a 1); [reflexivity|exact D].
Qed.

Lemma sub_land : forall b m, sub b m -> N.land b m = b.
Proof.
  intros b m S. rewrite sub_spec in S. apply N.bits_inj. intros k. rewrite N.land_spec. specialize (S k).
  destruct (N.testbit b k); [rewrite (S eq_refl)|]; reflexivity.
Qed.

(** ** One operand in a form *)

Fixpoint writes (l : list opnd) : N :=
  match l with [] => 0%N | o :: l' => N.lor (N.lor (mask o) (clears o)) (writes l') end.
(** No other field of the form touches the bits of [o]. *)
Definition alone (i : insn) (pre : list opnd) (o : opnd) (post : list opnd) : bool :=
  apart (N.lor (N.lor (i_opcode i) (range 16 4)) (writes pre)) (N.ldiff (mask o) (clears o)) &&
  apart (writes post) (mask o) &&
  apart (N.lor (reuse_masks pre) (reuse_masks post)) (reuse_mask o).

Lemma spell_app : forall lab pc nx ops1 ops2 w ks w' r,
  spell_list lab pc nx (ops1 ++ ops2) w ks w' r <->
  exists k1 k2 w1 r1 r2, ks = k1 ++ k2 /\ r = N.lor r1 r2 /\
    spell_list lab pc (hd nx k2) ops1 w k1 w1 r1 /\ spell_list lab pc nx ops2 w1 k2 w' r2.
Proof.
  intros lab pc nx ops1 ops2. induction ops1 as [|o ops1 IH]; intros w ks w' r; cbn [app]; split.
  - intros H. exists [], ks, w, 0%N, r. rewrite N.lor_0_l. repeat split; [constructor|exact H].
  - intros (k1 & k2 & w1 & r1 & r2 & -> & -> & H1 & H2). inversion H1; subst. rewrite N.lor_0_l. exact H2.
  - intros H. inversion H as [|? ? ? ks1 ks2 b ra rb ? S1 S2]; subst.
    apply IH in S2 as (k1 & k2 & w1 & r1 & r2 & -> & -> & A & B).
    exists (ks1 ++ k1), k2, w1, (N.lor ra r1), r2. rewrite app_assoc, N.lor_assoc. repeat split; auto.
    econstructor; [|exact A]. destruct k1; exact S1.
  - intros (k1 & k2 & w1 & r1 & r2 & -> & -> & H1 & H2).
    inversion H1 as [|? ? ? ks1 ks2 b ra rb ? S1 S2]; subst. rewrite <- app_assoc, <- N.lor_assoc.
    econstructor; [|apply IH; eauto 10]. destruct ks2; exact S1.
Qed.

Lemma reuse_bit_flag : forall a r, reuse_bit a = Some r -> r = reuse_flag a.
Proof.
  intros a r. unfold reuse_bit, reuse_flag. destruct (N.eqb a 8); [intros [= <-]; reflexivity|].
  destruct (N.eqb a 20); [intros [= <-]; reflexivity|]. destruct (N.eqb a 39); [intros [= <-]; reflexivity|discriminate].
Qed.
Lemma register_reuse : forall a ks nx n r, register a ks nx n r -> sub r (reuse_flag a).
Proof.
  intros a ks nx n r [(_ & _ & ->)|(_ & E)]; [apply sub_0|]. apply reuse_bit_flag in E as ->. apply sub_refl.
Qed.
Lemma memory_reuse : forall imm addr size shr ks b r, memory imm addr size shr ks b r -> sub r (reuse_flag 8).
Proof.
  intros imm addr size shr ks b r (kr & ki & n & o & _ & [(_ & _ & ->)|[(_ & ->)|(_ & ->)]] & _ & _);
    [apply sub_0|apply sub_0|apply sub_refl].
Qed.
Lemma spells_reuse : forall lab pc o w ks nx b r, spells lab pc o w ks nx b r -> sub r (reuse_mask o).
Proof.
  intros lab pc o. induction o; intros w ks nx b r H; cbn [spells] in H;
    try (cbn [reuse_mask];
      repeat match goal with
      | X : exists _, _ |- _ => destruct X
      | X : _ /\ _ |- _ => destruct X
      | X : let _ := _ in _ |- _ => cbv zeta in X
      end; subst; apply sub_0).
  - destruct H as (n & H & _). exact (register_reuse _ _ _ _ _ H).
  - destruct H as (n & H & _). exact (register_reuse _ _ _ _ _ H).
  - destruct H as [(ks' & b' & _ & H & _)|(_ & H)]; eapply IHo; exact H.
  - exact (memory_reuse _ _ _ _ _ _ _ H).
  - destruct H as (kr & kp & z & n & _ & H & _). exact (register_reuse _ _ _ _ _ H).
  - destruct H as (kr & n & _ & H & _). exact (register_reuse _ _ _ _ _ H).
  - destruct H as (bank & km & b' & _ & _ & H & _). exact (memory_reuse _ _ _ _ _ _ _ H).
Qed.

Lemma list_keeps : forall lab pc nx ops w ks w' r, forallb spec_ok ops = true -> Forall kind_ok ks ->
  spell_list lab pc nx ops w ks w' r ->
  (forall m, N.land (writes ops) m = 0%N -> N.land w' m = N.land w m) /\
  sub w' (N.lor w (writes ops)) /\ sub r (reuse_masks ops).
Proof.
  intros lab pc nx ops w ks w' r F K H. induction H as [w|o ops w ks1 ks2 b r1 r2 w' S H IH].
  - split; [auto|]. split; [apply sub_lor_l, sub_refl|apply sub_0].
  - cbn [forallb] in F. apply andb_true_iff in F as (F1 & F2). rewrite Forall_app in K. destruct K as (K1 & K2).
    destruct (IH F2 K2) as (A & B & C). pose proof (spells_sub _ _ _ _ _ _ _ _ F1 K1 S) as SB.
    pose proof (spells_reuse _ _ _ _ _ _ _ _ S) as SR. split; [|split].
    + intros m D. cbn [writes] in D.
      assert (D1 : N.land (writes ops) m = 0%N /\ N.land (mask o) m = 0%N /\ N.land (clears o) m = 0%N).
      { rewrite !N.land_lor_distr_l in D. apply N.lor_eq_0_iff in D as (D & D3). apply N.lor_eq_0_iff in D as (D1 & D2). auto. }
      destruct D1 as (D1 & D2 & D3). rewrite (A m D1). apply N.bits_inj. intros k.
      rewrite !N.land_spec, N.lor_spec, N.ldiff_spec.
      destruct (N.testbit m k) eqn:M; [|rewrite !andb_false_r; reflexivity]. rewrite !andb_true_r.
      assert (X : forall y, N.land y m = 0%N -> N.testbit y k = false).
      { intros y Y. assert (Q : N.testbit (N.land y m) k = false) by (rewrite Y; apply N.bits_0).
        rewrite N.land_spec, M, andb_true_r in Q. exact Q. }
      rewrite (X _ D3). rewrite sub_spec in SB. specialize (SB k).
      destruct (N.testbit b k); [rewrite (X _ D2) in SB; discriminate SB; reflexivity|].
      cbn. rewrite orb_false_r, andb_true_r. reflexivity.
    + eapply sub_trans; [exact B|]. cbn [writes]. apply sub_lor.
      * apply sub_lor; [|apply sub_lor_r, sub_lor_l, sub_lor_l; exact SB].
        apply sub_lor_l. apply sub_spec. intros k. rewrite N.ldiff_spec. intros Q. now apply andb_true_iff in Q.
      * apply sub_lor_r, sub_lor_r, sub_refl.
    + cbn [reuse_masks]. apply sub_lor; [apply sub_lor_l; exact SR|apply sub_lor_r; exact C].
Qed.

Lemma bare_sub : forall i gi gn, (gi <= 7)%N -> sub (bare_word i gi gn) (N.lor (i_opcode i) (range 16 4)).
Proof.
  intros i gi gn G. unfold bare_word. apply sub_lor; [apply sub_lor_r, place_sub|apply sub_lor_l, sub_refl].
  unfold guard_field. change (2 ^ 4)%N with 16%N. destruct gn; lia.
Qed.

(** Where the bits of one operand of a list end up. *)
Theorem recover_list : forall lab pc nx pre o post w ks w' r m0,
  forallb spec_ok (pre ++ o :: post) = true -> Forall kind_ok ks -> sub w m0 ->
  spell_list lab pc nx (pre ++ o :: post) w ks w' r ->
  exists ka k1 kb wa ra b ro, ks = ka ++ k1 ++ kb /\
    spell_list lab pc (hd (hd nx kb) k1) pre w ka wa ra /\
    spells lab pc o wa k1 (hd nx kb) b ro /\ sub b (mask o) /\ sub ro (reuse_mask o) /\
    (forall m, sub b m -> N.land (N.lor m0 (writes pre)) (N.ldiff m (clears o)) = 0%N -> N.land (writes post) m = 0%N ->
       N.land w' m = b) /\
    (forall m, sub ro m -> N.land (N.lor (reuse_masks pre) (reuse_masks post)) m = 0%N -> N.land r m = ro) /\
    (forall m, N.land (writes (o :: post)) m = 0%N -> N.land w' m = N.land wa m).
Proof.
  intros lab pc nx pre o post w ks w' r m0 TS K S0 S.
  rewrite forallb_app in TS. apply andb_true_iff in TS as (T1 & TS). pose proof TS as T23. cbn [forallb] in TS.
  apply andb_true_iff in TS as (T2 & T3).
  apply spell_app in S as (k1 & k2 & w1 & r1 & r2 & -> & -> & S1 & S2).
  pose proof S2 as S2'. inversion S2 as [|? ? ? k3 k4 b r3 r4 ? S3 S4]; subst.
  rewrite !Forall_app in K. destruct K as (K1 & K3 & K4).
  destruct (list_keeps _ _ _ _ _ _ _ _ T1 K1 S1) as (_ & B1 & C1).
  destruct (list_keeps _ _ _ _ _ _ _ _ T3 K4 S4) as (B4 & _ & C4).
  destruct (list_keeps _ _ _ _ _ _ _ _ T23 (proj2 (Forall_app _ _ _) (conj K3 K4)) S2') as (B2 & _).
  exists k1, k3, k4, w1, r1, b, r3. split; [reflexivity|].
  split; [destruct k3; exact S1|]. split; [exact S3|]. split; [exact (spells_sub _ _ _ _ _ _ _ _ T2 K3 S3)|].
  split; [exact (spells_reuse _ _ _ _ _ _ _ _ S3)|]. split; [|split; [|exact B2]].
  - intros m SB A1 A2. rewrite B4 by exact A2. apply N.bits_inj. intros j. rewrite N.land_spec, N.lor_spec, N.ldiff_spec.
    rewrite sub_spec in SB. specialize (SB j).
    destruct (N.testbit m j) eqn:M.
    2:{ destruct (N.testbit b j); [discriminate SB; reflexivity|]. rewrite andb_false_r. reflexivity. }
    rewrite andb_true_r. destruct (N.testbit (clears o) j) eqn:Cl; [cbn [negb]; now rewrite andb_false_r|].
    cbn [negb]. rewrite andb_true_r. destruct (N.testbit w1 j) eqn:W; [exfalso|reflexivity].
    rewrite sub_spec in B1. apply B1 in W. rewrite N.lor_spec in W.
    assert (Q : N.testbit (N.land (N.lor m0 (writes pre)) (N.ldiff m (clears o))) j = false)
      by (rewrite A1; apply N.bits_0).
    rewrite N.land_spec, N.ldiff_spec, M, Cl in Q. cbn [andb negb] in Q. rewrite andb_true_r in Q.
    rewrite sub_spec in S0. specialize (S0 j). rewrite N.lor_spec in Q. apply orb_false_iff in Q as (Q1 & Q2).
    destruct (N.testbit w j); cbn [orb] in W; [specialize (S0 eq_refl)|]; congruence.
  - intros m SR A3. apply N.bits_inj. intros j. rewrite N.land_spec, !N.lor_spec. rewrite sub_spec in SR, C1, C4. specialize (SR j).
    destruct (N.testbit m j) eqn:M.
    2:{ destruct (N.testbit r3 j); [discriminate SR; reflexivity|]. now rewrite andb_false_r. }
    rewrite andb_true_r.
    assert (Q : N.testbit (N.land (N.lor (reuse_masks pre) (reuse_masks post)) m) j = false)
      by (rewrite A3; apply N.bits_0).
    rewrite N.land_spec, M, andb_true_r, N.lor_spec in Q. apply orb_false_iff in Q as (Q1 & Q2).
    destruct (N.testbit r1 j) eqn:R1; [rewrite (C1 _ R1) in Q1; discriminate|].
    destruct (N.testbit r4 j) eqn:R4; [rewrite (C4 _ R4) in Q2; discriminate|].
    cbn. now rewrite orb_false_r.
Qed.

(** The bits of an operand that is alone are those its tokens stand for. *)
Theorem recover : forall lab pc i gi gn ks op pre o post, In i table -> (gi <= 7)%N -> Forall kind_ok ks ->
  form_spells lab pc i gi gn ks op -> i_operands i = pre ++ o :: post ->
  exists ka k1 kb wa ra b r, ks = ka ++ k1 ++ kb /\ kb <> [] /\
    spell_list lab pc (hd TSemi (k1 ++ kb)) pre (bare_word i gi gn) ka wa ra /\
    spells lab pc o wa k1 (hd TSemi kb) b r /\
    (alone i pre o post = true -> N.land (value op) (mask o) = b /\ N.land (reuse op) (reuse_mask o) = r) /\
    (forall m, sub b m -> N.land (N.lor (N.lor (i_opcode i) (range 16 4)) (writes pre)) (N.ldiff m (clears o)) = 0%N ->
       N.land (writes post) m = 0%N -> N.land (value op) m = b) /\
    (forall m, N.land (writes (o :: post)) m = 0%N -> N.land (value op) m = N.land wa m).
Proof.
  intros lab pc i gi gn ks op pre o post I G K (ko & kn & notes & w & r & -> & _ & S & NT & _ & ->) E. cbn [value reuse].
  pose proof (forallb_in _ _ _ _ table_spec I) as TS. cbn beta in TS. rewrite E in TS, S.
  rewrite Forall_app in K. destruct K as (K & _).
  destruct (recover_list _ _ _ _ _ _ _ _ _ _ _ TS K (bare_sub i gi gn G) S)
    as (k1 & k3 & k4 & w1 & r1 & b & r3 & -> & S1 & S3 & MB & MR & RB & RR & RK).
  exists k1, k3, (k4 ++ kn ++ [TSemi]), w1, r1, b, r3. split; [rewrite <- !app_assoc; reflexivity|].
  split; [destruct k4; [destruct kn; discriminate|discriminate]|].
  assert (HD : hd TSemi (k4 ++ kn ++ [TSemi]) = hd (hd TSemi kn) k4) by (destruct k4; [destruct kn|]; reflexivity).
  split; [|split; [|split; [|split]]].
  - replace (hd TSemi (k3 ++ k4 ++ kn ++ [TSemi])) with (hd (hd (hd TSemi kn) k4) k3); [exact S1|].
    destruct k3; [|reflexivity]. symmetry. exact HD.
  - rewrite HD. exact S3.
  - intros A. unfold alone in A. apply andb_true_iff in A as (A & A3). apply andb_true_iff in A as (A1 & A2).
    apply apart_eq in A1, A2, A3. auto.
  - exact RB.
  - exact RK.
Qed.

(** ** All places of a kind of operand in the table *)

Fixpoint splits (pre l : list opnd) : list (list opnd * opnd * list opnd) :=
  match l with [] => [] | o :: l' => (pre, o, l') :: splits (pre ++ [o]) l' end.
Lemma splits_in : forall l pre0 pre o post, l = pre ++ o :: post -> In (pre0 ++ pre, o, post) (splits pre0 l).
Proof.
  induction l as [|x l IH]; intros pre0 pre o post E; [destruct pre; discriminate|].
  destruct pre as [|p pre]; cbn [app] in E; injection E as -> E; cbn [splits].
  - subst l. rewrite app_nil_r. left. reflexivity.
  - right. replace (pre0 ++ p :: pre) with ((pre0 ++ [p]) ++ pre) by (rewrite <- app_assoc; reflexivity). apply IH. exact E.
Qed.
Definition everywhere (f : insn -> list opnd -> opnd -> list opnd -> bool) : bool :=
  forallb (fun i => forallb (fun p => f i (fst (fst p)) (snd (fst p)) (snd p)) (splits [] (i_operands i))) table.
Lemma everywhere_in : forall f i pre o post, everywhere f = true -> In i table -> i_operands i = pre ++ o :: post ->
  f i pre o post = true.
Proof.
  intros f i pre o post H I E. pose proof (forallb_in _ _ _ _ H I) as K. cbn beta in K.
  exact (forallb_in _ _ _ (pre, o, post) K (splits_in _ [] _ _ _ E)).
Qed.

(** Operands that share bits with another one somewhere: the ones of the forms
    in [clash_at], and the modifiers in front of a TEXS or TLDS type. *)
Definition shares (i : insn) (o : opnd) : bool :=
  match o with
  | OPo _ _ | OUimmExtended | OSrcFormat _ _ | OSelector _ _ _ _ | OTexsMode _ => true
  | OOptType _ _ => existsb (String.eqb (i_mnemonic i)) ["IADD"; "IADD32I"; "ISCADD"; "VMAD"]
  | OFlag s _ => existsb (String.eqb (i_mnemonic i)) ["IADD"; "SUST"; "TLDS"]
  | OGpr a => existsb (fun o' => match o' with OUimmExtended => true | _ => false end) (i_operands i) && N.eqb a 39
  | OReqText s _ _ => String.eqb (i_mnemonic i) "SUST"
  | ODotTable _ a _ => N.eqb a 43 && String.eqb (i_mnemonic i) "VSETP" || String.eqb (i_mnemonic i) "TLDS"
  | OReqTable _ a _ _ => N.eqb a 45 && String.eqb (i_mnemonic i) "VSETP"
  | _ => false
  end.
Lemma mostly_alone : everywhere (fun i pre o post => shares i o || alone i pre o post) = true.
Proof. vm_compute. reflexivity. Qed.
Lemma is_alone : forall i pre o post, In i table -> i_operands i = pre ++ o :: post -> shares i o = false ->
  alone i pre o post = true.
Proof.
  intros i pre o post I E S. pose proof (everywhere_in _ _ _ _ _ mostly_alone I E) as H. cbn beta in H.
  rewrite S in H. exact H.
Qed.

(** The form [i] has the operand [o] after the operands [pre], possibly between
    bars. *)
Definition has (i : insn) (pre : list opnd) (o : opnd) : Prop :=
  exists post, i_operands i = pre ++ o :: post \/ exists a, i_operands i = pre ++ OAbs a o :: post.
(** In instruction [k] of a program the tokens [ka] write the operands [pre],
    and then perhaps a bar, when [nx] is the next token. *)
Definition after (ls : labels) (k : nat) (i : insn) (gi : N) (gn : bool) (pre : list opnd)
  (ka : list tkind) (nx : tkind) : Prop :=
  exists w r,
    spell_list (find_label ls) (addr k) nx pre (bare_word i gi gn) ka w r \/
    exists kp, ka = kp ++ [TVbar] /\ spell_list (find_label ls) (addr k) TVbar pre (bare_word i gi gn) kp w r.

Lemma abs_apart : everywhere (fun i pre o post => match o with
  | OAbs a o' => N.eqb (N.land (2 ^ a) (mask o')) 0 && spec_ok o' | _ => true end) = true.
Proof. vm_compute. reflexivity. Qed.

(** The same for an instruction of a program. *)
Theorem recovered : forall a code ls k i gi gn kf op pre o, assembled a code ls k i gi gn kf op ->
  has i pre o -> shares i o = false ->
  exists ka k1 kb wa b r, kf = ka ++ k1 ++ kb /\ kb <> [] /\ Forall kind_ok k1 /\
    after ls k i gi gn pre ka (hd TSemi (k1 ++ kb)) /\
    spells (find_label ls) (addr k) o wa k1 (hd TSemi kb) b r /\
    N.land (value op) (mask o) = b /\ N.land (reuse op) (reuse_mask o) = r.
Proof.
  intros a code ls k i gi gn kf op pre o H (post & E) S.
  destruct (assembled_ok _ _ _ _ _ _ _ _ _ H) as (I & K & G & F). destruct E as [E|(ad & E)].
  - destruct (recover _ _ _ _ _ _ _ _ _ _ I G K F E)
      as (ka & k1 & kb & wa & ra & b & r & -> & R1 & R2 & R3 & AL & _). specialize (AL (is_alone _ _ _ _ I E S)).
    exists ka, k1, kb, wa, b, r. split; [reflexivity|]. split; [exact R1|].
    rewrite !Forall_app in K. split; [apply K|]. split; [|auto]. exists wa, ra. left. exact R2.
  - destruct (recover _ _ _ _ _ _ _ _ _ _ I G K F E)
      as (ka & k1 & kb & wa & ra & b & r & -> & R1 & R2 & R3 & AL & _).
    destruct (AL (is_alone _ _ _ _ I E eq_refl)) as (V & R).
    rewrite !Forall_app in K. destruct K as (_ & K & _).
    pose proof (everywhere_in _ _ _ _ _ abs_apart I E) as AP. cbn beta iota in AP. apply andb_true_iff in AP as (AP & SO).
    apply N.eqb_eq in AP. cbn [reuse_mask] in R.
    assert (X : N.land (value op) (mask o) = N.land (N.land (value op) (mask (OAbs ad o))) (mask o)).
    { cbn [mask]. apply N.bits_inj. intros j. rewrite !N.land_spec, N.lor_spec.
      destruct (N.testbit (mask o) j); [rewrite orb_true_r, !andb_true_r; reflexivity|rewrite !andb_false_r; reflexivity]. }
    cbn [spells] in R3. destruct R3 as [(k2 & b' & -> & R3 & ->)|(NB & R3)].
    + exists (ka ++ [TVbar]), k2, (TVbar :: kb), (N.lor wa (2 ^ ad)), b', r.
      inversion K as [|? ? _ K2]; subst. apply Forall_app in K2 as (K2 & _).
      split; [rewrite <- !app_assoc; cbn [app]; rewrite <- app_assoc; reflexivity|]. split; [discriminate|].
      split; [exact K2|]. split; [exists wa, ra; right; exists ka; split; [reflexivity|exact R2]|].
      split; [exact R3|]. split; [|reflexivity]. rewrite X, V, N.land_lor_distr_l, AP, N.lor_0_l.
      apply sub_land. exact (spells_sub _ _ _ _ _ _ _ _ SO K2 R3).
    + exists ka, k1, kb, wa, b, r. split; [reflexivity|]. split; [exact R1|]. split; [exact K|].
      split; [exists wa, ra; left; exact R2|]. split; [exact R3|]. split; [|exact R]. rewrite X, V.
      apply sub_land. exact (spells_sub _ _ _ _ _ _ _ _ SO K R3).
Qed.
