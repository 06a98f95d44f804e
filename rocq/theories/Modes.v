(** * Modes: builds with and without asserts.

    Asserts only ever stop a run: a debug run that does not abort does exactly
    what the release run does. *)
From Verif Require Import Base Float Lexer Operand Catalogue Table Parse Assemble
  Spec LexFacts SchedFuel Param Reach ParseFacts Decode Program.
From Coq Require Import Lia.
Open Scope Z_scope.

(** [agrees m1 m2]: the debug result [m1] is an abort or equals [m2]. *)
Definition agrees {A} (m1 m2 : res A) : Prop := m1 = m2 \/ exists w, m1 = Abort w.

Definition MC (c1 : cursor) (t1 : token) (c2 : cursor) (t2 : token) : Prop := c1 = c2 /\ t1 = t2.

Lemma agrees_relres : forall A (m1 m2 : res A), relres eq true eq m1 m2 -> agrees m1 m2.
Proof.
  intros A m1 m2 H. destruct m1, m2; cbn in H; try contradiction; try (right; eexists; reflexivity);
    left; congruence.
Qed.
Lemma agrees_refl : forall A (m : res A), agrees m m.
Proof. left; reflexivity. Qed.
Lemma agrees_bind : forall A B (m1 m2 : res A) (k1 k2 : A -> res B), agrees m1 m2 ->
  (forall a, agrees (k1 a) (k2 a)) -> agrees (bind m1 k1) (bind m2 k2).
Proof.
  intros A B m1 m2 k1 k2 [->|(w & ->)] K; [|right; eexists; reflexivity].
  destruct m2; cbn; auto using agrees_refl.
Qed.

Lemma agrees_operand : forall ls pc o s,
  agrees (run_operand (Env ls pc true) o s) (run_operand (Env ls pc false) o s).
Proof.
  intros ls pc o s. apply agrees_relres.
  eapply relres_mono; [|apply (sim_operand eq MC eq true)].
  - intros (c1, t1, o1) (c2, t2, o2) ((E1 & E2) & E3). cbn in *. congruence.
  - intros c1 t1 c2 t2 (E & _) _; exact E.
  - intros c1 t1 c2 t2 (_ & ->); reflexivity.
  - intros c1 t1 c2 t2 m (_ & ->); reflexivity.
  - intros c1 c2 ->. eapply relres_mono; [|apply relres_eq; reflexivity].
    intros (t1, d1) (t2, d2) [= -> ->]. split; reflexivity.
  - reflexivity.
  - right; split; reflexivity.
  - split; right; [|reflexivity]. intros c1 t1 c2 t2 (E & _); exact E.
  - split; [split|]; reflexivity.
Qed.

Lemma agrees_table : forall ls pc tbl t c op,
  agrees (parse_table (Env ls pc true) tbl t c op None) (parse_table (Env ls pc false) tbl t c op None).
Proof.
  intros ls pc tbl t c op. apply agrees_relres.
  eapply relres_mono; [|apply (sim_table eq MC eq true)].
  - intros (c1, t1, o1) (c2, t2, o2) ((E1 & E2) & E3). cbn in *. congruence.
  - intros c1 t1 c2 t2 (E & _) _; exact E.
  - intros c1 t1 c2 t2 (_ & ->); reflexivity.
  - intros c1 t1 c2 t2 m (_ & ->); reflexivity.
  - intros c1 c2 ->. eapply relres_mono; [|apply relres_eq; reflexivity].
    intros (t1, d1) (t2, d2) [= -> ->]. split; reflexivity.
  - reflexivity.
  - right; split; reflexivity.
  - intros i _ _. apply fits_all; [|reflexivity]. intros c1 t1 c2 t2 (E & _); exact E.
  - reflexivity.
  - reflexivity.
  - reflexivity.
  - exact I.
Qed.

Lemma agrees_add : forall op bits, agrees (add_bits true op bits) (add_bits false op bits).
Proof. intros op bits. unfold add_bits. destruct (_ && _); [right; eexists; reflexivity|left; reflexivity]. Qed.

Lemma agrees_raise : forall A (m1 m2 : res A), agrees m1 m2 -> agrees (raise m1) (raise m2).
Proof. intros A m1 m2 [->|(w & ->)]; [apply agrees_refl|right; eexists; reflexivity]. Qed.

Lemma agrees_instruction : forall tbl ls x op,
  agrees (parse_instruction_with tbl true ls x op) (parse_instruction_with tbl false ls x op).
Proof.
  intros tbl ls x op. rewrite !parse_instruction_eq. apply agrees_bind; [apply agrees_refl|]. intros (t, c).
  destruct (ttype_eqb _ _); [apply agrees_refl|]. unfold rest_of_instruction.
  apply agrees_bind; [apply agrees_refl|]. intros ((t1, c1), o). apply agrees_bind.
  - destruct (ttype_eqb _ _).
    + apply agrees_bind; [apply agrees_refl|]. intros (tp, cp). apply agrees_bind; [|intros; apply agrees_refl].
      apply agrees_raise. unfold assemble_predicate. destruct (kind tp); try apply agrees_refl.
      destruct (_ && _); [apply agrees_refl|apply agrees_add].
    + apply agrees_bind; [apply agrees_add|intros; apply agrees_refl].
  - intros ((t2, c2), op1). destruct (kind t2); try apply agrees_refl.
    apply agrees_bind; [apply agrees_table|intros; apply agrees_refl].
Qed.

Lemma agrees_decode : forall n ls max idx x acc,
  agrees (decode_loop n true ls max idx x acc) (decode_loop n false ls max idx x acc).
Proof.
  induction n as [|n IH]; intros ls max idx x acc; cbn [decode_loop]; [apply agrees_refl|].
  destruct (Nat.leb max idx); [apply agrees_refl|]. apply agrees_bind; [apply (agrees_instruction table)|].
  intros [(x', op)|]; [apply IH|]. cbn [andb]. destruct (negb _); [right; eexists; reflexivity|apply agrees_refl].
Qed.

Theorem modes_agree : forall code, agrees (assemble true code) (assemble false code).
Proof.
  intros code. unfold assemble. apply agrees_bind; [apply agrees_refl|]. intros ls.
  apply agrees_bind; [apply agrees_decode|]. intros; apply agrees_refl.
Qed.

(** A program decoded with asserts is decoded without. *)
Theorem decodes_release : forall ls x l y, decodes true ls x l y -> decodes false ls x l y.
Proof.
  intros ls x l y D.
  assert (A : forall x r, parse_instruction true ls x opcode0 = Ok r -> parse_instruction false ls x opcode0 = Ok r).
  { intros x0 r H. destruct (agrees_instruction table ls x0 opcode0) as [E|(w & E)].
    - rewrite <- H. symmetry. exact E.
    - exfalso. assert (Ok r = Abort w) by (rewrite <- H; exact E). discriminate. }
  induction D as [x H|x x' op l y H D IH]; [apply decodes_end; apply A; exact H|].
  eapply decodes_cons; [apply A; exact H|exact IH].
Qed.
Theorem program_release : forall code ls l y, program true code ls l y -> program false code ls l y.
Proof.
  intros code ls l y (G & D & _). split; [exact G|]. split; [apply decodes_release; exact D|]. discriminate.
Qed.

Theorem modes_same : forall code, (forall w, assemble true code <> Abort w) ->
  assemble false code = assemble true code.
Proof. intros code H. destruct (modes_agree code) as [E|(w & E)]; [symmetry; exact E|]. now apply H in E. Qed.
