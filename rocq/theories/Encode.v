(** * Encode: what is known of every decoded instruction. *)
From Verif Require Import Base Float Lexer Operand Catalogue Table Parse Assemble
  Spec Bits LexFacts SchedFuel Param Reach ParseFacts Outcomes Decode Emit Program Footprint.
From Coq Require Import Lia.
Local Open Scope string_scope.
Open Scope Z_scope.

(** ** Bounds of the scheduling record *)

Definition vars_ok (v : sched_vars) : Prop :=
  (value_or (v_stall v) 0 < 2 ^ 4 /\ value_or (v_write v) 7 < 2 ^ 3 /\ value_or (v_read v) 7 < 2 ^ 3 /\
   v_wait v < 2 ^ 6)%N.

Lemma sched_int_ok : forall s mx msg n s', sched_int s mx msg = Ok (n, s') ->
  s_op s' = s_op s /\ (Z.of_N n <= mx) /\ s_kind s' = TImm (Z.of_N n) /\ advance_tok s = Ok s'.
Proof.
  intros s mx msg n s' H. unfold sched_int in H. inv_bind H. inv_bind H.
  apply en_confirm in Hx0 as (-> & _).
  destruct (s_kind x) eqn:K; try discriminate. destruct (_ || _) eqn:E; [discriminate|].
  injection H as <- <-. apply orb_false_iff in E as (E1 & E2). apply Z.ltb_ge in E1, E2.
  rewrite Z2N.id by lia. repeat split; auto.
  unfold advance_tok in Hx. inv_bind Hx. destruct x0. injection Hx as <-. reflexivity.
Qed.

Lemma advance_op : forall s s', advance_tok s = Ok s' -> s_op s' = s_op s.
Proof. intros s s' H. unfold advance_tok in H. inv_bind H. destruct x. injection H as <-. reflexivity. Qed.

Lemma pow2_bits_lt : forall n k, (n < k)%N -> (N.shiftl 1 n < 2 ^ k)%N.
Proof. intros n k H. rewrite N.shiftl_1_l. apply N.pow_lt_mono_r; lia. Qed.

Lemma sched_loop_ok : forall n v s s', vars_ok v -> assemble_sched_loop n v s = Ok s' ->
  value (s_op s') = value (s_op s) /\ reuse (s_op s') = reuse (s_op s) /\
  exists v', vars_ok v' /\ sched (s_op s') = pack_sched v'.
Proof.
  induction n as [|n IH]; intros v s s' V H; [discriminate|]. cbn [assemble_sched_loop] in H.
  destruct (negb _).
  { injection H as <-. cbn. eauto 6. }
  inv_bind H. pose proof (advance_op _ _ Hx) as O1.
  destruct V as (V1 & V2 & V3 & V4).
  assert (FIN : forall v2 s2 s3, vars_ok v2 -> s_op s2 = s_op x -> advance_tok s2 = Ok s3 ->
    assemble_sched_loop n v2 s3 = Ok s' ->
    value (s_op s') = value (s_op s) /\ reuse (s_op s') = reuse (s_op s) /\
    exists v', vars_ok v' /\ sched (s_op s') = pack_sched v').
  { intros v2 s2 s3 K O2 A F. apply IH in F; [|exact K]. apply advance_op in A. rewrite A, O2, O1 in F. exact F. }
  destruct (equal (s_tok x) "WAIT").
  { destruct (v_stall v) eqn:VS; [discriminate|]. inv_bind H. destruct x0 as (k, s2).
    apply sched_int_ok in Hx0 as (O2 & B & _). inv_bind H. eapply FIN; [|exact O2|exact Hx0|exact H].
    repeat split; cbn [v_stall v_write v_read v_wait value_or]; auto. change (2 ^ 4)%N with 16%N. lia. }
  destruct (equal (s_tok x) "WB" || equal (s_tok x) "RB").
  { destruct (if equal (s_tok x) "WB" then v_write v else v_read v) eqn:VS; [discriminate|].
    inv_bind H. destruct x0 as (k, s2).
    apply sched_int_ok in Hx0 as (O2 & B & _). inv_bind H. eapply FIN; [|exact O2|exact Hx0|exact H].
    assert (k < 2 ^ 3)%N by (change (2 ^ 3)%N with 8%N; lia).
    destruct (equal (s_tok x) "WB"); repeat split; cbn [v_stall v_write v_read v_wait value_or]; auto. }
  destruct (equal (s_tok x) "Y" || equal (s_tok x) "YIELD").
  { destruct (v_yield v); [discriminate|]. inv_bind H. eapply FIN; [|reflexivity|exact Hx0|exact H].
    repeat split; auto. }
  destruct (equal (s_tok x) "DEP"); [|discriminate].
  inv_bind H. destruct x0 as (k, s2). apply sched_int_ok in Hx0 as (O2 & B & _).
  destruct (negb _); [discriminate|]. inv_bind H. eapply FIN; [|exact O2|exact Hx0|exact H].
  repeat split; cbn [v_stall v_write v_read v_wait value_or]; auto.
  apply lor_lt; [exact V4|]. apply pow2_bits_lt. lia.
Qed.

Lemma pack_lt : forall v, vars_ok v -> (pack_sched v < 2 ^ 17)%N.
Proof.
  intros v (V1 & V2 & V3 & V4). unfold pack_sched.
  assert (S : forall x n k, (x < 2 ^ n)%N -> (n + k <= 17)%N -> (N.shiftl x k < 2 ^ 17)%N).
  { intros x n k H L. rewrite N.shiftl_mul_pow2. apply N.lt_le_trans with (2 ^ n * 2 ^ k)%N.
    - apply N.mul_lt_mono_pos_r; [|exact H]. apply N.neq_0_lt_0, N.pow_nonzero. discriminate.
    - rewrite <- N.pow_add_r. apply N.pow_le_mono_r; [discriminate|exact L]. }
  repeat apply lor_lt.
  - eapply N.lt_trans; [exact V1|reflexivity].
  - apply (S _ 1%N); [destruct (v_yield v); reflexivity|discriminate].
  - apply (S _ 3%N); [exact V2|discriminate].
  - apply (S _ 3%N); [exact V3|discriminate].
  - apply (S _ 6%N); [exact V4|discriminate].
Qed.

Lemma sched0_ok : vars_ok sched0.
Proof. repeat split. Qed.

(** ** One instruction *)

(** The guard predicate as written to bits 16..19. *)
Definition guard_bits (index : N) (negated : bool) : N := (index + (if negated then 8 else 0))%N.

Lemma guard_word : forall i g, (i <= 7)%N ->
  shl64 (N.lor i (if g : bool then 8 else 0)) 16 = N.shiftl (guard_bits i g) 16 /\
  (guard_bits i g < 2 ^ 4)%N.
Proof.
  intros i g H.
  assert (C : (i = 0 \/ i = 1 \/ i = 2 \/ i = 3 \/ i = 4 \/ i = 5 \/ i = 6 \/ i = 7)%N) by lia.
  repeat (destruct C as [->|C]; [destruct g; vm_compute; auto|]). subst i; destruct g; vm_compute; auto.
Qed.

(** What an accepted instruction is made of: a form of the table with the
    mnemonic that was read, a guard, and bits inside the operands' fields. *)
Record built (i : insn) (gi : N) (gn : bool) (op : opcode) : Prop := Built {
  built_form : In i table;
  built_guard : (gi <= 7)%N;
  built_bits : N.ldiff (value op) (masks (i_operands i)) =
    N.ldiff (N.lor (N.shiftl (guard_bits gi gn) 16) (i_opcode i)) (masks (i_operands i));
  built_reuse : sub (reuse op) (reuse_masks (i_operands i));
  built_op : op_ok op }.

Lemma guard_built : forall a t c t' c' op', guard_parsed a t c opcode0 t' c' op' ->
  kind_ok (kind t) ->
  exists gi gn, (gi <= 7)%N /\ op' = Opcode (N.shiftl (guard_bits gi gn) 16) 0 0 /\
    ((type_of (kind t) <> ty_at /\ gi = 7%N /\ gn = false /\ t' = t /\ c' = c) \/
     (exists tp cp, kind t = TAt /\ tokenize c = Ok (tp, cp) /\ kind tp = TPred gi gn /\
        tokenize cp = Ok (t', c'))).
Proof.
  intros a t c t' c' op' [(NT & -> & -> & A)|(tp & cp & K & T1 & A & T2)] KO.
  - exists 7%N, false. split; [discriminate|].
    unfold add_bits in A. cbn [value opcode0 N.land N.eqb negb] in A. rewrite andb_false_r in A.
    injection A as <-. split; [reflexivity|]. left; auto 6.
  - unfold assemble_predicate in A. destruct (kind tp) as [| | |i g| | | | | | | | | | |] eqn:KP; try discriminate.
    cbn [negb andb] in A. unfold add_bits in A. cbn [value opcode0 N.land N.eqb negb reuse sched] in A.
    rewrite andb_false_r in A. injection A as <-.
    apply tokenize_spec in T1 as KT. destruct KT as (q & cq & b & _ & _ & _ & _ & _ & _ & _ & KI).
    rewrite KP in KI. change (i <= 7)%N in KI. destruct (guard_word i g KI) as (E & _).
    exists i, g. split; [exact KI|]. split.
    + f_equal. exact E.
    + right. exists tp, cp. auto.
Qed.

Lemma table_opcodes : forallb (fun i => N.ltb (i_opcode i) (2 ^ 64)) table = true.
Proof. vm_compute. reflexivity. Qed.
Lemma table_reuse : forallb (fun i => N.ltb (reuse_masks (i_operands i)) (2 ^ 4)) table = true.
Proof. vm_compute. reflexivity. Qed.
Lemma forallb_in : forall A (f : A -> bool) l x, forallb f l = true -> In x l -> f x = true.
Proof. intros A f l x H I. rewrite forallb_forall in H. auto. Qed.

Lemma sub_lt : forall b m n, sub b m -> (m < 2 ^ n)%N -> (b < 2 ^ n)%N.
Proof.
  intros b m n S L. assert (E : b = N.land b m).
  { rewrite sub_spec in S. apply N.bits_inj. intros k. rewrite N.land_spec. specialize (S k).
    destruct (N.testbit b k); [rewrite S; reflexivity|reflexivity]. }
  rewrite E. apply land_lt. exact L.
Qed.

Lemma token_kind_ok : forall c t c', tokenize c = Ok (t, c') -> kind_ok (kind t).
Proof.
  intros c t c' H. apply tokenize_spec in H as (q & cq & b & _ & _ & _ & _ & _ & _ & _ & K). exact K.
Qed.

Lemma insn_built : forall e i c gi gn s, In i table -> (gi <= 7)%N ->
  parse_insn e i c (Opcode (N.shiftl (guard_bits gi gn) 16) 0 0) = Ok (Parsed s) ->
  built i gi gn (s_op s).
Proof.
  intros e i c gi gn s IN G H. apply parse_insn_parsed in H as (op1 & t & c1 & s1 & A & T & _ & R & SC & _).
  unfold add_bits in A. destruct (_ && _); [discriminate|]. injection A as <-.
  cbn [value reuse sched] in R.
  pose proof (forallb_in _ _ _ _ table_lits IN) as L. pose proof (forallb_in _ _ _ _ table_opcodes IN) as LO.
  pose proof (forallb_in _ _ _ _ table_reuse IN) as LR. cbn beta in L, LO, LR.
  apply N.ltb_lt in LO, LR.
  set (s0 := St c1 t _) in R.
  assert (I0 : inv (masks (i_operands i)) (reuse_masks (i_operands i)) s0 s0).
  { constructor; auto.
    - eapply token_kind_ok; eauto.
    - cbn [s0 s_op value]. apply lor_lt; [|exact LO].
      destruct (guard_word gi gn G) as (_ & B). rewrite N.shiftl_mul_pow2.
      apply N.lt_le_trans with (2 ^ 4 * 2 ^ 16)%N; [|discriminate].
      apply N.mul_lt_mono_pos_r; [reflexivity|exact B].
    - exists 0%N. rewrite N.lor_0_r. split; [reflexivity|apply sub_0]. }
  destruct (run_ops_footprint e _ _ _ _ _ L I0 (sub_refl _) (sub_refl _) _ R) as [_ W V (r & RE & RS) SS].
  apply sched_loop_ok in SC as (V1 & V2 & v & VO & SV); [|apply sched0_ok].
  constructor; auto.
  - rewrite V1, V. reflexivity.
  - rewrite V2, RE. cbn [s0 s_op reuse]. rewrite N.lor_0_l. exact RS.
  - split; [rewrite SV; apply pack_lt; exact VO|]. split; [|rewrite V1; exact W].
    rewrite V2, RE. cbn [s0 s_op reuse]. rewrite N.lor_0_l. eapply sub_lt; eauto.
Qed.

Lemma options_token : forall n t c o t' c' o', kind_ok (kind t) -> parse_options n t c o = Ok (t', c', o') ->
  kind_ok (kind t').
Proof.
  induction n as [|n IH]; intros t c o t' c' o' K H; [discriminate|]. cbn [parse_options] in H.
  destruct (is_option t).
  - inv_bind H. destruct x as ((t1, c1), o1). eapply IH; [|exact H].
    unfold parse_option in Hx. inv_bind Hx. destruct x as ((t2, c2), o2). inv_bind Hx. destruct x as (t3, c3).
    destruct (_ =? _); [discriminate|]. injection Hx as <- _ _. eapply token_kind_ok; eauto.
  - injection H as <- _ _. exact K.
Qed.

Theorem instruction_built : forall a ls x x' op,
  parse_instruction a ls x opcode0 = Ok (Some (x', op)) -> exists i gi gn, built i gi gn op.
Proof.
  intros a ls x x' op H. apply parse_instruction_some in H as
    (t & c & t1 & c1 & o & t2 & c2 & op1 & s & H1 & H2 & H3 & H4 & _ & H6 & -> & ->).
  pose proof (token_kind_ok _ _ _ H1) as K. apply options_token in H3; [|exact K].
  apply guard_built in H4 as (gi & gn & G & -> & _); [|exact H3].
  apply parse_table_ok in H6 as (pre & i & post & E & _ & P & _).
  exists i, gi, gn. eapply insn_built; eauto. rewrite E. apply in_elt.
Qed.

Theorem decodes_built : forall a ls x l y, decodes a ls x l y ->
  Forall (fun p => exists i gi gn, built i gi gn (snd p)) l.
Proof.
  intros a ls x l y D. induction D as [|x x' op l y H D IH]; constructor; auto.
  eapply instruction_built; eauto.
Qed.
Corollary decodes_op_ok : forall a ls x l y, decodes a ls x l y -> Forall op_ok (map snd l).
Proof.
  intros a ls x l y D. apply decodes_built in D. induction D as [|p l (i & gi & gn & B) D IH]; constructor; auto.
  apply B.
Qed.
