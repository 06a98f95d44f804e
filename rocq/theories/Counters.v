(** * Counters: lines, columns and addresses stay in range. *)
From Verif Require Import Base Float Lexer Operand Catalogue Table Parse Assemble Spec LexFacts SchedFuel Param Reach ParseFacts
  Outcomes Decode Program Layout SpecInsn Insn SpecLex Lexemes Where Stream Text.
From Coq Require Import Lia.
Local Open Scope char_scope.
Local Open Scope list_scope.
Open Scope Z_scope.

Lemma lines_after : forall p l, lines p l = l + line_after p.
Proof.
  induction p as [|ch p IH]; intros l; cbn [lines line_after]; [lia|]. rewrite IH. unfold adv_line. change LF with (ascii_of_N 10).
  destruct (Ascii.eqb ch (ascii_of_N 10)); lia.
Qed.
Lemma cols_after : forall p c, cols p c = fold_left column_step p c.
Proof. induction p as [|ch p IH]; intros c; cbn [cols fold_left]; [reflexivity|]. rewrite IH. reflexivity. Qed.
Lemma line_bound : forall p, 0 <= line_after p <= Z.of_nat (List.length p).
Proof. induction p as [|ch p IH]; cbn [line_after List.length]; [lia|]. destruct (Ascii.eqb _ _); lia. Qed.
Lemma column_bound : forall p c, 0 <= c -> 0 <= fold_left column_step p c <= c + 4 * Z.of_nat (List.length p).
Proof.
  induction p as [|ch p IH]; intros c C; cbn [fold_left List.length]; [lia|]. unfold column_step at 2 4.
  destruct (Ascii.eqb _ _); [specialize (IH (c + 4) ltac:(lia)); lia|]. destruct (Ascii.eqb _ _); [specialize (IH 0 ltac:(lia)); lia|].
  specialize (IH (c + 1) ltac:(lia)). lia.
Qed.
(** The counters of any cursor that comes from the start of the text. *)
Theorem cursor_counters : forall code p c, moves (start code) p c ->
  line c = line_after p /\ col c = column_after p /\
  0 <= line c <= Z.of_nat (List.length code) /\ 0 <= col c <= 4 * Z.of_nat (List.length code).
Proof.
  intros code p c (R & L & C). cbn [start rest line col] in *. rewrite lines_after in L. rewrite cols_after in C.
  pose proof (line_bound p). pose proof (column_bound p 0 ltac:(lia)). rewrite R, app_length. rewrite L, C. unfold column_after. lia.
Qed.
Theorem token_counters : forall code ks c t c', scan (start code) ks c -> tokenize c = Ok (t, c') ->
  0 <= t_line t <= Z.of_nat (List.length code) /\ 0 <= t_col t <= 4 * Z.of_nat (List.length code).
Proof.
  intros code ks c t c' S T. destruct (boundary_moves _ _ (ex_intro _ ks S)) as (p & M).
  apply tokenize_iff in T as (g & s & cs & M1 & _ & _ & _ & TL & TC). rewrite TL, TC.
  destruct (cursor_counters _ _ _ (moves_trans _ _ _ _ _ M M1)) as (_ & _ & L & C). split; assumption.
Qed.
Lemma addr_bound : forall k, 0 <= addr k <= 16 * Z.of_nat k + 8.
Proof. intros k. unfold addr. pose proof (Z.div_mod (Z.of_nat k) 3 ltac:(lia)). pose proof (Z.mod_pos_bound (Z.of_nat k) 3 ltac:(lia)). lia. Qed.
Lemma semis_bound : forall p, (semis p <= List.length p)%nat.
Proof. induction p as [|ch p IH]; cbn [semis List.length]; [lia|]. destruct (Ascii.eqb _ _); lia. Qed.
(** Addresses: of labels and in front of every instruction. *)
Theorem label_counters : forall code ls name z, ~ In NUL code -> generate_labels code = Ok ls -> find_label ls name = Some z ->
  0 <= z <= 16 * Z.of_nat (List.length code) + 8.
Proof.
  intros code ls name z N G F. apply (first_definition _ _ N G) in F as (p & ((_ & _ & q & E) & _) & ->).
  pose proof (addr_bound (semis p)). pose proof (semis_bound p). rewrite E, app_length. lia.
Qed.
Lemma bump_bound : forall pc k, bump pc = addr k -> pc <= addr k.
Proof. intros pc k. unfold bump. destruct (_ =? _); lia. Qed.
Theorem address_counters : forall a code ls l y x op, program a code ls l y -> In (x, op) l ->
  c_pc x <= 16 * Z.of_nat (List.length code) + 8.
Proof.
  intros a code ls l y x op (_ & D & _) I. apply in_split in I as (l1 & l2 & ->).
  replace (l1 ++ (x, op) :: l2) with ((l1 ++ [(x, op)]) ++ l2) in D by (rewrite <- app_assoc; reflexivity).
  destruct (decodes_app _ _ _ _ _ _ D) as (z & _ & (p & (R & _) & L) & P & Z). rewrite map_app in Z. cbn [map fst] in Z. rewrite last_last in Z. subst z.
  assert (K : pc_ok (ctx0 code) 0) by reflexivity. apply P in K. cbn [Nat.add] in K. apply bump_bound in K.
  pose proof (addr_bound (List.length (l1 ++ [(x, op)]))). pose proof (semis_bound p). cbn [ctx0 c_cur rest] in R. rewrite R, app_length. lia.
Qed.

(** Tabs only: the column is four times their number. *)
Lemma tabs_column : forall n c, fold_left column_step (repeat "009" n) c = c + 4 * Z.of_nat n.
Proof. induction n as [|n IH]; intros c; [cbn; lia|]. cbn [repeat fold_left]. rewrite IH. change (column_step c "009") with (c + 4). lia. Qed.
Theorem tabs_token : forall n, exists t c', tokenize (start (repeat "009" n)) = Ok (t, c') /\ t_col t = 4 * Z.of_nat n.
Proof.
  intros n. destruct (moves_along (repeat "009" n) [] 0 0) as (c' & M & R). rewrite app_nil_r in M.
  exists (Token TNone (line c') (col c')), c'. split.
  - apply tokenize_iff. exists (repeat "009" n), [], c'. split; [exact M|]. rewrite R. split.
    + apply gap_blank. apply Forall_forall. intros x I. apply repeat_spec in I. subst. cbn. tauto.
    + split; [apply moves_refl|]. split; [right; auto|]. split; reflexivity.
  - cbn [t_col]. destruct M as (_ & _ & C). rewrite C, cols_after. apply tabs_column.
Qed.
