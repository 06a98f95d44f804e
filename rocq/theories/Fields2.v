(** * Fields2: guards, opcodes, floating-point immediates, mirrored registers
    and texture modes in the emitted words. *)
From Verif Require Import Base Float Lexer Operand Catalogue Table Parse Assemble Spec SpecOperand SpecInsn Bits LexFacts
  SchedFuel Param Reach ParseFacts Outcomes Decode Program Footprint Encode Operands Operands3 Quiet Notes Insn Words Clash Recover Fields.
From Coq Require Import Lia.
Local Open Scope string_scope.
Local Open Scope list_scope.
Open Scope Z_scope.

(** ** Guard and opcode *)

(** The bits the operands of a form may write. *)
Definition operand_bits (i : insn) : N := writes (i_operands i).

Lemma guard_free : forallb (fun i =>
  N.eqb (N.land (N.lor (i_opcode i) (operand_bits i)) (range 16 4)) 0) table = true.
Proof. vm_compute. reflexivity. Qed.
Lemma opcode_kept : forallb (fun i =>
  forallb (fun o => N.eqb (N.land (i_opcode i) (clears o)) 0) (i_operands i)) table = true.
Proof. vm_compute. reflexivity. Qed.

Lemma spell_list_keeps : forall lab pc nx ops w ks w' r x, spell_list lab pc nx ops w ks w' r ->
  (forall o, In o ops -> N.land x (clears o) = 0%N) -> sub x w -> sub x w'.
Proof.
  intros lab pc nx ops w ks w' r x H. induction H as [w|o ops w ks1 ks2 b r1 r2 w' S H IH]; intros C X; [exact X|].
  apply IH; [intros o' O; apply C; right; exact O|]. rewrite sub_spec in *. intros k K. rewrite N.lor_spec, N.ldiff_spec.
  rewrite (X k K). assert (Q : N.testbit (N.land x (clears o)) k = false) by (rewrite (C o (or_introl eq_refl)); apply N.bits_0).
  rewrite N.land_spec, K in Q. cbn [andb] in Q. rewrite Q. reflexivity.
Qed.

(** The word: the opcode's bits, the guard in bits 16..19, and otherwise only
    bits of operand fields. *)
Theorem word_shape : forall a code ls k i gi gn kf op, assembled a code ls k i gi gn kf op ->
  field (value op) 16 4 = guard_field gi gn /\
  N.land (value op) (i_opcode i) = i_opcode i /\
  sub (value op) (N.lor (N.lor (i_opcode i) (range 16 4)) (operand_bits i)).
Proof.
  intros a code ls k i gi gn kf op H. destruct (assembled_ok _ _ _ _ _ _ _ _ _ H) as (I & K & G & F).
  destruct F as (ko & kn & notes & w & r & -> & _ & S & _ & _ & ->). cbn [value].
  pose proof (forallb_in _ _ _ _ table_spec I) as TS. cbn beta in TS. apply Forall_app in K as (K & _).
  destruct (list_keeps _ _ _ _ _ _ _ _ TS K S) as (A & B & _).
  pose proof (forallb_in _ _ _ _ guard_free I) as GF. cbn beta in GF. apply N.eqb_eq in GF.
  rewrite N.land_lor_distr_l in GF. apply N.lor_eq_0_iff in GF as (GF1 & GF2).
  assert (L : (guard_field gi gn < 2 ^ 4)%N) by (unfold guard_field; change (2 ^ 4)%N with 16%N; destruct gn; lia).
  split; [|split].
  - rewrite (field_of _ _ _ 16 4 (A (range 16 4) GF2) (sub_refl _)), field_land by apply sub_refl.
    unfold bare_word. rewrite field_lor, (field_place _ 16 4 L).
    rewrite (field_apart (i_opcode i) (i_opcode i) 16 4 (sub_refl _) GF1). apply N.lor_0_r.
  - rewrite N.land_comm. apply sub_land. eapply spell_list_keeps; [exact S| |].
    + intros o O. pose proof (forallb_in _ _ _ _ opcode_kept I) as OK. cbn beta in OK.
      pose proof (forallb_in _ _ _ _ OK O) as Q. cbn beta in Q. apply N.eqb_eq in Q. exact Q.
    + unfold bare_word. apply sub_lor_r, sub_refl.
  - eapply sub_trans; [exact B|]. apply sub_lor; [|apply sub_lor_r, sub_refl]. apply sub_lor_l, bare_sub. exact G.
Qed.

(** Bits of the word an operand looks at. *)
Fixpoint peeks (o : opnd) : N :=
  match o with
  | OSelector ta _ _ _ => range ta 3
  | OF2fRounding => range 8 4
  | OTldsType a | OTexsType a => range a 3
  | OTexsSwizzle => range 28 8
  | OMirrorGpr a => range a 8
  | OAbs _ inner => peeks inner
  | _ => 0%N
  end.
Lemma peek_field : forall w w' m a n, N.land w m = N.land w' m -> sub (range a n) m -> field w a n = field w' a n.
Proof. intros w w' m a n E S. rewrite <- (field_land w m a n S), E. apply field_land. exact S. Qed.
Lemma peek_bit : forall w w' m k, N.land w m = N.land w' m -> N.testbit m k = true -> N.testbit w k = N.testbit w' k.
Proof.
  intros w w' m k E M. assert (Q : N.testbit (N.land w m) k = N.testbit (N.land w' m) k) by (now rewrite E).
  rewrite !N.land_spec, M, !andb_true_r in Q. exact Q.
Qed.
Lemma range_bit : forall a n k, (a <= k < a + n)%N -> N.testbit (range a n) k = true.
Proof. intros a n k H. rewrite range_spec. apply andb_true_iff. split; [apply N.leb_le|apply N.ltb_lt]; lia. Qed.
Lemma spells_peeks : forall lab pc o w w' ks nx b r, N.land w (peeks o) = N.land w' (peeks o) ->
  spells lab pc o w ks nx b r -> spells lab pc o w' ks nx b r.
Proof.
  intros lab pc o. induction o; intros w w' ks nx b r E H; cbn [spells peeks] in *; try exact H.
  - rewrite <- (peek_field _ _ _ address 8 E (sub_refl _)). exact H.
  - destruct H as [(k1 & b1 & -> & H & ->)|(N & H)]; [left|right; eauto].
    exists k1, b1. split; [reflexivity|]. split; [|reflexivity]. eapply IHo; [|exact H].
    rewrite !N.land_lor_distr_l, E. reflexivity.
  - rewrite <- (peek_field _ _ _ 8 2 E eq_refl), <- (peek_field _ _ _ 10 2 E eq_refl). exact H.
  - rewrite <- (peek_field _ _ _ type_address 3 E (sub_refl _)). exact H.
  - rewrite <- (peek_bit _ _ _ address E), <- (peek_bit _ _ _ (address + 1) E), <- (peek_bit _ _ _ (address + 2) E)
      by (apply range_bit; lia). exact H.
  - rewrite <- (peek_field _ _ _ address 2 E) by (apply sub_range; lia). rewrite <- (peek_bit _ _ _ (address + 2) E)
      by (apply range_bit; lia). exact H.
  - rewrite <- (peek_field _ _ _ 28 8 E (sub_refl _)). exact H.
Qed.

Lemma ldiff_lor : forall x y m, N.ldiff (N.lor x y) m = N.lor (N.ldiff x m) (N.ldiff y m).
Proof.
  intros x y m. apply N.bits_inj. intros k. rewrite N.lor_spec, !N.ldiff_spec, N.lor_spec.
  destruct (N.testbit x k), (N.testbit y k), (N.testbit m k); reflexivity.
Qed.
(** Equal apart from the bits in [m]. *)
Definition off (m w w' : N) : Prop := N.ldiff w m = N.ldiff w' m.
Lemma off_land : forall m w w' x, off m w w' -> N.land x m = 0%N -> N.land w x = N.land w' x.
Proof.
  intros m w w' x H X. apply N.bits_inj. intros k. rewrite !N.land_spec.
  assert (Q1 : N.testbit (N.ldiff w m) k = N.testbit (N.ldiff w' m) k) by (now rewrite H).
  assert (Q2 : N.testbit (N.land x m) k = false) by (rewrite X; apply N.bits_0).
  rewrite !N.ldiff_spec in Q1. rewrite N.land_spec in Q2.
  destruct (N.testbit x k); [|now rewrite !andb_false_r]. cbn [andb] in Q2. rewrite Q2 in Q1. cbn [negb] in Q1.
  now rewrite !andb_true_r in *.
Qed.
Lemma off_step : forall m w w' c b, off m w w' -> off m (N.lor (N.ldiff w c) b) (N.lor (N.ldiff w' c) b).
Proof.
  intros m w w' c b H. unfold off. apply N.bits_inj. intros k.
  assert (Q1 : N.testbit (N.ldiff w m) k = N.testbit (N.ldiff w' m) k) by (now rewrite H).
  rewrite !N.ldiff_spec, !N.lor_spec, !N.ldiff_spec in *.
  destruct (N.testbit w k), (N.testbit w' k), (N.testbit m k), (N.testbit c k), (N.testbit b k); cbn in *; congruence.
Qed.
Lemma spell_list_off : forall lab pc nx ops w ks w1 r m w', spell_list lab pc nx ops w ks w1 r ->
  (forall o, In o ops -> N.land (peeks o) m = 0%N) -> off m w w' ->
  exists w1', spell_list lab pc nx ops w' ks w1' r /\ off m w1 w1'.
Proof.
  intros lab pc nx ops w ks w1 r m w' H. revert w'. induction H as [w|o ops w ks1 ks2 b r1 r2 w1 S H IH]; intros w' P O.
  - exists w'. split; [constructor|exact O].
  - destruct (IH (N.lor (N.ldiff w' (clears o)) b)) as (w2 & H2 & O2).
    + intros o' I. apply P. right. exact I.
    + apply off_step. exact O.
    + exists w2. split; [|exact O2]. econstructor; [|exact H2]. eapply spells_peeks; [|exact S].
      apply (off_land m); [exact O|]. apply P. left. reflexivity.
Qed.
Lemma guard_unseen : forallb (fun i => forallb (fun o => N.eqb (N.land (peeks o) (range 16 4)) 0) (i_operands i)) table = true.
Proof. vm_compute. reflexivity. Qed.

(** One form, one sequence of tokens: one result. *)
Lemma form_unique : forall ls pc i gi gn c ks c' op1 op2, In i table -> (gi <= 7)%N -> scan c ks c' ->
  form_spells (find_label ls) pc i gi gn ks op1 -> form_spells (find_label ls) pc i gi gn ks op2 -> op1 = op2.
Proof.
  intros ls pc i gi gn c ks c' op1 op2 I G S F1 F2.
  destruct (proj2 (form_meets ls pc i c gi gn c' op1 I G)) as (t1 & E1); [eauto|].
  destruct (proj2 (form_meets ls pc i c gi gn c' op2 I G)) as (t2 & E2); [eauto|].
  rewrite E1 in E2. congruence.
Qed.

(** The guard only decides bits 16..19: instructions of one form written with
    the same tokens at the same address differ nowhere else. *)
Theorem guard_alone : forall a code a' code' ls k i gi gn gi' gn' kf op op',
  assembled a code ls k i gi gn kf op -> assembled a' code' ls k i gi' gn' kf op' ->
  N.ldiff (value op) (range 16 4) = N.ldiff (value op') (range 16 4) /\ reuse op = reuse op' /\ sched op = sched op'.
Proof.
  intros a code a' code' ls k i gi gn gi' gn' kf op op' H1 H2.
  destruct (assembled_ok _ _ _ _ _ _ _ _ _ H1) as (I & K & G1 & F1).
  destruct (assembled_ok _ _ _ _ _ _ _ _ _ H2) as (_ & _ & G2 & F2).
  destruct H2 as (l2 & y2 & x2 & c2 & kg2 & _ & _ & _ & _ & GT2 & S2 & _).
  replace (kg2 ++ id (i_mnemonic i) :: kf) with ((kg2 ++ [id (i_mnemonic i)]) ++ kf) in S2 by (rewrite <- app_assoc; reflexivity).
  apply scan_split in S2 as (cm & _ & S2).
  destruct F1 as (ko & kn & notes & w & r & -> & NE & S & NT & NO & ->).
  assert (NE2 : always_executed (i_mnemonic i) -> gi' = 7%N) by (destruct F2 as (? & ? & ? & ? & ? & _ & X & _); exact X).
  destruct (spell_list_off _ _ _ _ _ _ _ _ (range 16 4) (bare_word i gi' gn') S) as (w1' & S' & O').
  - intros o O. pose proof (forallb_in _ _ _ _ guard_unseen I) as Q. cbn beta in Q.
    pose proof (forallb_in _ _ _ _ Q O) as Q'. cbn beta in Q'. apply N.eqb_eq in Q'. exact Q'.
  - unfold off, bare_word. rewrite !ldiff_lor.
    assert (X : forall gi gn, (gi <= 7)%N -> N.ldiff (place (guard_field gi gn) 16) (range 16 4) = 0%N).
    { intros g n Gg. apply place_sub. unfold guard_field. change (2 ^ 4)%N with 16%N. destruct n; lia. }
    rewrite (X _ _ G1), (X _ _ G2). reflexivity.
  - assert (E : Opcode w1' r (notes_record notes) = op').
    { eapply form_unique; [exact I|exact G2|exact S2| |exact F2]. exists ko, kn, notes, w1', r. auto 8. }
    subst op'. cbn [value reuse sched]. auto.
Qed.

(** Instructions that are always executed. *)
Theorem always_seven : forall a code ls k i gi gn kf op, assembled a code ls k i gi gn kf op ->
  always_executed (i_mnemonic i) -> gi = 7%N.
Proof.
  intros a code ls k i gi gn kf op H AE. destruct (assembled_ok _ _ _ _ _ _ _ _ _ H) as (_ & _ & _ & F).
  destruct F as (ko & kn & notes & w & r & _ & A & _). exact (A AE).
Qed.
