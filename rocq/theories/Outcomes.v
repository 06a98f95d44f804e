(** * Outcomes: which outcomes each part of the instruction parser can have. *)
From Verif Require Import Base Float Lexer Operand Catalogue Table Parse LexFacts SchedFuel Param Reach ParseFacts.
From Coq Require Import Lia.
Open Scope Z_scope.

(** [clean f a m]: [m] runs out of fuel only if [f], aborts only if [a], and
    every undefined behaviour is one of the four the parser can reach. *)
Definition parser_ub (u : ub) : Prop :=
  u = UB_read_past_nul \/ u = UB_inactive_union \/ u = UB_table_overrun \/ u = UB_signed_overflow.
Definition clean {A} (f a : bool) (m : res A) : Prop :=
  match m with
  | Abort _ => a = true
  | Undef u => parser_ub u
  | OutOfFuel => f = true
  | _ => True
  end.

Lemma clean_bind : forall A B f a (m : res A) (k : A -> res B),
  clean f a m -> (forall x, clean f a (k x)) -> clean f a (bind m k).
Proof. intros A B f a [] k H K; cbn in *; auto. Qed.
Lemma clean_weak : forall A f a (m : res A), clean f a m -> m <> OutOfFuel -> clean false a m.
Proof. intros A f a [] H K; cbn in *; auto; congruence. Qed.
Lemma clean_raise : forall A f a (m : res A), clean f a m -> clean f a (raise m).
Proof. intros A f a [] H; cbn in *; auto. Qed.

Lemma clean_tokenize : forall f a c, clean f a (tokenize c).
Proof.
  intros f a c. pose proof (tokenize_outcomes c) as H.
  destruct (tokenize c); cbn in *; auto; try contradiction. subst; left; reflexivity.
Qed.
Lemma clean_advance : forall f a s, clean f a (advance_tok s).
Proof.
  intros f a s. unfold advance_tok. apply clean_bind; [apply clean_tokenize|].
  intros (t, c); exact I.
Qed.
Lemma clean_add_bits : forall f a op b, clean f a (add_bits a op b).
Proof. intros f [] op b; unfold add_bits; cbn [andb]; [|exact I]. destruct (negb _); [reflexivity|exact I]. Qed.
Lemma clean_add_reuse : forall f a op b, clean f a (add_reuse a op b).
Proof. intros f [] op b; unfold add_reuse; cbn [andb]; [|exact I]. destruct (negb _); [reflexivity|exact I]. Qed.

Section Clean.
  Variable f : bool.
  Variable e : env.
  Notation ok := (clean f (e_asserts e)).

  Lemma clean_put : forall b s, ok (put e b s).
  Proof. intros b s. unfold put. apply clean_bind; [apply clean_add_bits|]. intros; exact I. Qed.
  Lemma clean_find : forall b tbl p t, ok (find_in_table b tbl p t).
  Proof.
    intros b tbl p t. unfold find_in_table. destruct (kind t); try exact I.
    destruct (strip_prefix _ _); [|exact I]. destruct (index_of _ _ _); [exact I|].
    destruct b; [exact I|]. right; right; left; reflexivity.
  Qed.
  Lemma clean_bits : forall m s, ok (if e_asserts e then Abort m else Ok (A := st) s).
  Proof. intros m s. destruct (e_asserts e) eqn:E; cbn; auto. Qed.

  Ltac cl1 :=
    match goal with
    | |- clean _ _ (bind _ _) => apply clean_bind; [|intros]
    | |- clean _ _ (advance_tok _) => apply clean_advance
    | |- clean _ _ (put _ _ _) => apply clean_put
    | |- clean _ _ (find_in_table _ _ _ _) => apply clean_find
    | |- clean _ _ (fail _ _) => exact I
    | |- clean _ _ (Ok _) => exact I
    | |- clean _ _ (Undef UB_inactive_union) => right; left; reflexivity
    | |- clean _ _ (Undef UB_signed_overflow) => right; right; right; reflexivity
    | |- clean _ _ (if e_asserts e then Abort _ else Ok _) => apply clean_bits
    | |- clean _ _ (add_reuse _ _ _) => apply clean_add_reuse
    | x : (_ * _)%type |- _ => destruct x
    | |- clean _ _ (if ?b then _ else _) => destruct b
    | |- clean _ _ (match ?b with _ => _ end) => destruct b
    | |- clean _ _ (confirm_type _ _) => unfold confirm_type
    | |- clean _ _ (confirm_type_next _ _) => unfold confirm_type_next
    | |- clean _ _ (convert_integer _ _ _) => unfold convert_integer
    | |- clean _ _ (try_reuse _ _ _) => unfold try_reuse
    | |- clean _ _ (sub64 _ _) => unfold sub64
    | |- clean _ _ (assemble_gpr _ _ _) => unfold assemble_gpr
    | |- clean _ _ (assemble_uint _ _ _ _) => unfold assemble_uint
    | |- clean _ _ (assemble_int _ _ _ _) => unfold assemble_int
    | |- clean _ _ (sched_int _ _ _) => unfold sched_int
    | |- clean _ _ (run_memory_address _ _ _ _ _ _) => unfold run_memory_address
    end.
  Ltac cl := repeat cl1.

  Lemma operand_clean : forall o s, ok (run_operand e o s).
  Proof.
    induction o; intros s0; cbn [run_operand];
      unfold run_comma, assemble_flag, dot_table, req_table, req_text, req_text_after, opt_text,
        run_uimm_extended, run_label, run_mirror_dgpr, assemble_constant_buffer,
        assemble_signed_20bit_immediate, assemble_float_immediate, assemble_double_immediate,
        assemble_half_float_immediate, run_pred, run_inverted_pred, opt_type, run_abs, run_po,
        assemble_cc_tests, run_imm_attr, run_patch_attr, run_phys_attr, run_xmad_signs,
        run_f2f_rounding, run_int_format, run_ldc_address, run_s2r, run_ldg_size, run_selector,
        run_atomic_size, run_src_format, run_tex_type, run_zero, run_texs_mode, run_tlds_type,
        run_texs_type, run_texs_swizzle; cl; auto.
  Qed.

  Lemma sched_loop_clean : forall n v s, clean true (e_asserts e) (assemble_sched_loop n v s).
  Proof.
    induction n as [|n IH]; intros v s; cbn [assemble_sched_loop]; [reflexivity|]. 
    repeat first [apply IH | cl1].
  Qed.
  Lemma sched_clean : forall s, ok (assemble_sched s).
  Proof.
    intros s. destruct f.
    - apply sched_loop_clean.
    - eapply clean_weak; [apply sched_loop_clean|apply assemble_sched_not_fuel].
  Qed.

  Lemma scored_clean : forall n m k, ok m -> (forall s, ok (k s)) -> ok (scored n m k).
  Proof. intros n [] k H K; cbn in *; auto. Qed.
  Lemma operands_clean : forall ops n s k, (forall n s, ok (k n s)) -> ok (run_operands e ops n s k).
  Proof.
    induction ops as [|o ops IH]; intros n s k K; cbn [run_operands]; auto.
    apply scored_clean; [apply operand_clean|]. intros; apply IH; auto.
  Qed.
  Lemma insn_clean : forall i c op, ok (parse_insn e i c op).
  Proof.
    intros i c op. unfold parse_insn.
    apply clean_bind; [apply clean_add_bits|]. intros op1.
    apply clean_bind; [apply clean_tokenize|]. intros (t, c1).
    destruct (_ && _); [exact I|].
    apply operands_clean. intros n s. apply scored_clean; [apply sched_clean|].
    intros s1. apply scored_clean; [cl|]. intros; exact I.
  Qed.
  Lemma insn_no_err : forall i c op d, parse_insn e i c op <> Err d.
  Proof.
    intros i c op d. unfold parse_insn.
    unfold add_bits. destruct (_ && _); [discriminate|]. cbn [bind].
    pose proof (tokenize_outcomes c) as T.
    destruct (tokenize c) as [(t, c1)| | | | |]; cbn [bind]; try discriminate; [|contradiction].
    destruct (_ && _); [discriminate|].
    assert (SC : forall n m k, (forall s, k s <> Err d) -> scored n m k <> Err d)
      by (intros n [] k K; cbn; auto; discriminate).
    generalize 1 as n. match goal with |- context [St c1 t ?o] => generalize (St c1 t o) as s end.
    induction (i_operands i) as [|o ops IH]; intros s n; cbn [run_operands].
    - apply SC. intros s1. apply SC. discriminate.
    - apply SC. intros s1. apply IH.
  Qed.
  Lemma table_clean : forall tbl t c op b, ok (parse_table e tbl t c op b) /\
    forall d, parse_table e tbl t c op b <> Err d.
  Proof.
    induction tbl as [|i tbl IH]; intros t c op b; cbn [parse_table].
    - destruct b as [(d, n)|]; split; try exact I; discriminate.
    - destruct (negb _); auto. pose proof (insn_clean i c op) as H. pose proof (insn_no_err i c op) as H1.
      destruct (parse_insn e i c op) as [[s|d n]| | | | |]; cbn [bind]; auto; try (split; [exact H|discriminate]).
      exfalso; eapply H1; reflexivity.
  Qed.
End Clean.

Lemma parse_options_clean : forall a n t c o,
  clean true a (parse_options n t c o) /\ forall d, parse_options n t c o <> Err d.
Proof.
  assert (BN : forall A B (m : res A) (k : A -> res B), (forall d, m <> Err d) -> (forall x d, k x <> Err d) ->
    forall d, bind m k <> Err d).
  { intros A B [] k H K d0; cbn; auto; try discriminate. intros E; eapply H; reflexivity. }
  assert (TN : forall c d, tokenize c <> Err d).
  { intros c d E. pose proof (tokenize_outcomes c) as T. rewrite E in T. exact T. }
  assert (IC : forall a c m, clean true a (option_int c m) /\ forall d, option_int c m <> Err d).
  { intros a c m. unfold option_int. split.
    - apply clean_bind; [apply clean_tokenize|]. intros (t, c1). destruct (kind t); exact I.
    - apply BN; [apply TN|]. intros (t, c1) ?. destruct (kind t); discriminate. }
  assert (PT : forall a l t c o, clean true a (parse_type l t c o) /\ forall d, parse_type l t c o <> Err d).
  { intros a l t c o. unfold parse_type. destruct (o_type o); [split; [exact I|discriminate]|]. split.
    - apply clean_bind; [apply clean_tokenize|]. intros (t1, c1).
      apply clean_bind; [unfold check_option_line; destruct (_ =? _); exact I|]. intros _.
      destruct (program_type t1); [exact I|]. destruct (string_is_active _); [exact I|right; left; reflexivity].
    - apply BN; [apply TN|]. intros (t1, c1).
      apply BN; [unfold check_option_line; destruct (_ =? _); discriminate|]. intros _ ?.
      destruct (program_type t1); [discriminate|]. destruct (string_is_active _); discriminate. }
  assert (PO : forall a t c o, clean true a (parse_option t c o) /\ forall d, parse_option t c o <> Err d).
  { intros a t c o. unfold parse_option.
    match goal with |- context [bind ?m _] => set (m0 := m) end.
    assert (G : clean true a m0 /\ forall d, m0 <> Err d).
    { subst m0. destruct (equal t ".dksh"); [apply PT|]. destruct (equal t ".type"); [apply PT|].
      destruct (equal t ".num_gprs").
      { split.
        - apply clean_bind; [apply clean_tokenize|]. intros (t1, c1).
          destruct (kind t1); try (right; left; reflexivity); exact I.
        - apply BN; [apply TN|]. intros (t1, c1) ?. destruct (kind t1); discriminate. }
      destruct (equal t ".workgroup_size").
      { split.
        - apply clean_bind; [apply IC|]. intros ((z1, t1), c1).
          apply clean_bind; [apply IC|]. intros ((z2, t2), c2).
          apply clean_bind; [apply IC|]. intros ((z3, t3), c3).
          apply clean_bind; [unfold check_option_line; destruct (_ =? _); exact I|]. intros; exact I.
        - apply BN; [apply (IC a)|]. intros ((z1, t1), c1).
          apply BN; [apply (IC a)|]. intros ((z2, t2), c2).
          apply BN; [apply (IC a)|]. intros ((z3, t3), c3).
          apply BN; [unfold check_option_line; destruct (_ =? _); discriminate|]. discriminate. }
      destruct (equal t ".shared_memory").
      { split.
        - apply clean_bind; [apply IC|]. intros ((z1, t1), c1); exact I.
        - apply BN; [apply (IC a)|]. intros ((z1, t1), c1); discriminate. }
      destruct (equal t ".local_memory").
      { split.
        - apply clean_bind; [apply IC|]. intros ((z1, t1), c1); exact I.
        - apply BN; [apply (IC a)|]. intros ((z1, t1), c1); discriminate. }
      split; [exact I|discriminate]. }
    destruct G as (G1 & G2). split.
    - apply clean_bind; [exact G1|]. intros ((t1, c1), o1).
      apply clean_bind; [apply clean_tokenize|]. intros (t2, c2). destruct (_ =? _); exact I.
    - apply BN; [exact G2|]. intros ((t1, c1), o1).
      apply BN; [apply TN|]. intros (t2, c2) ?. destruct (_ =? _); discriminate. }
  intros a; induction n as [|n IH]; intros t c o; cbn [parse_options].
  { split; [reflexivity|discriminate]. }
  destruct (is_option t); [|split; [exact I|discriminate]]. split.
  - apply clean_bind; [apply PO|]. intros ((t1, c1), o1). apply IH.
  - apply BN; [apply (PO a)|]. intros ((t1, c1), o1). apply IH.
Qed.

Theorem instruction_clean : forall tbl a ls x op,
  clean false a (parse_instruction_with tbl a ls x op) /\
  forall d, parse_instruction_with tbl a ls x op <> Err d.
Proof.
  intros tbl a ls x op. rewrite parse_instruction_eq.
  assert (TN : forall c d, tokenize c <> Err d).
  { intros c d E. pose proof (tokenize_outcomes c) as T. rewrite E in T. exact T. }
  assert (BN : forall A B (m : res A) (k : A -> res B), (forall d, m <> Err d) -> (forall x d, k x <> Err d) ->
    forall d, bind m k <> Err d).
  { intros A B [] k H K d0; cbn; auto; try discriminate. intros E; eapply H; reflexivity. }
  assert (AB : forall op b d, add_bits a op b <> Err d)
    by (intros op' b d; unfold add_bits; destruct (_ && _); discriminate).
  assert (PC : forall t c o, clean false a (parse_options (S (S (List.length (rest c)))) t c o)).
  { intros t c o. eapply clean_weak; [apply parse_options_clean|].
    apply (parse_options_fuel _ (S (S (len c)))); unfold len; destruct (is_option t); lia. }
  assert (PR : forall t op d, raise (assemble_predicate a t op 16 true) <> Err d)
    by (intros t op' d; destruct (assemble_predicate a t op' 16 true); discriminate).
  assert (PP : forall t op, clean false a (raise (assemble_predicate a t op 16 true))).
  { intros t op'. apply clean_raise. unfold assemble_predicate. destruct (kind t); try exact I.
    destruct (_ && _); [exact I|apply clean_add_bits]. }
  split.
  - apply clean_bind; [apply clean_tokenize|]. intros (t, c).
    destruct (ttype_eqb _ _); [exact I|]. unfold rest_of_instruction.
    apply clean_bind; [apply PC|]. intros ((t1, c1), o1). apply clean_bind.
    { destruct (ttype_eqb _ _).
      - apply clean_bind; [apply clean_tokenize|]. intros (t2, c2).
        apply clean_bind; [apply PP|]. intros op2.
        apply clean_bind; [apply clean_tokenize|]. intros (t3, c3). exact I.
      - apply clean_bind; [apply clean_add_bits|]. intros; exact I. }
    intros ((t2, c2), op2). destruct (kind t2); try exact I.
    apply clean_bind; [|intros; exact I].
    apply (table_clean false (Env ls (bump (c_pc x)) a)).
  - apply BN; [apply TN|]. intros (t, c).
    destruct (ttype_eqb _ _); [discriminate|]. unfold rest_of_instruction.
    apply BN; [apply (parse_options_clean a)|]. intros ((t1, c1), o1). apply BN.
    { destruct (ttype_eqb _ _).
      - apply BN; [apply TN|]. intros (t2, c2).
        apply BN; [apply PR|]. intros op2.
        apply BN; [apply TN|]. intros (t3, c3). discriminate.
      - apply BN; [apply AB|]. discriminate. }
    intros ((t2, c2), op2). destruct (kind t2); try discriminate.
    apply BN; [|discriminate].
    apply (table_clean false (Env ls (bump (c_pc x)) a)).
Qed.
