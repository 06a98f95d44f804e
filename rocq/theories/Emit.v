(** * Emit: the layout of the emitted words. *)
From Verif Require Import Base Float Lexer Operand Parse Assemble Spec Bits.
From Coq Require Import Lia ZifyNat.
Open Scope Z_scope.

Definition recs (ops : list opcode) : list (N * N) := map (fun op => (sched op, reuse op)) ops.
Definition words (ops : list opcode) : list N := map value ops.

(** Records within their bit ranges. *)
Definition op_ok (op : opcode) : Prop := (sched op < 2 ^ 17 /\ reuse op < 2 ^ 4 /\ value op < 2 ^ 64)%N.

Lemma record_bound : forall ops k, Forall op_ok ops -> (record (recs ops) k < 2 ^ 21)%N.
Proof.
  intros ops k F. unfold record, recs. rewrite nth_error_map.
  destruct (nth_error ops k) as [op|] eqn:E; cbn; [|reflexivity].
  apply nth_error_In in E. rewrite Forall_forall in F. destruct (F _ E) as (S & R & _). lia.
Qed.

Lemma generate_sched_record : forall ops i j, (j < 3)%nat -> Forall op_ok ops ->
  generate_sched ops i (List.length ops) j = (record (recs ops) (i + j) * 2 ^ (21 * N.of_nat j))%N.
Proof.
  intros ops i j Hj F. unfold generate_sched.
  assert (SH : N.of_nat (j * 21) = (21 * N.of_nat j)%N) by lia. rewrite SH.
  pose proof (record_bound ops (i + j) F) as B.
  assert (R : forall x, (x < 2 ^ 21)%N -> shl64 x (21 * N.of_nat j) = (x * 2 ^ (21 * N.of_nat j))%N).
  { intros x Hx. apply (shl64_bound x _ 21); [exact Hx|lia]. }
  unfold record in *. unfold recs in *. rewrite nth_error_map in *.
  destruct (Nat.leb_spec (List.length ops) (i + j)) as [L|L].
  - rewrite (proj2 (nth_error_None ops (i + j))) by lia. cbn [option_map].
    apply R. reflexivity.
  - destruct (nth_error ops (i + j)) as [op|] eqn:E.
    2:{ apply nth_error_None in E. lia. }
    cbn [option_map] in *. rewrite (nth_error_nth _ _ _ E).
    apply nth_error_In in E. rewrite Forall_forall in F. destruct (F _ E) as (S & RU & _).
    rewrite <- R by exact B. f_equal.
    destruct (shl64_bound (reuse op) 17 4 RU) as (-> & _); [lia|].
    rewrite <- (lor_shift_add _ _ 17 S). rewrite N.shiftl_mul_pow2. reflexivity.
Qed.

Lemma control_generated : forall ops g, Forall op_ok ops ->
  N.lor (N.lor (N.lor 0 (generate_sched ops (3 * g) (List.length ops) 0))
               (generate_sched ops (3 * g) (List.length ops) 1))
        (generate_sched ops (3 * g) (List.length ops) 2) = control_word (recs ops) g.
Proof.
  intros ops g F. rewrite N.lor_0_l. rewrite !generate_sched_record by (auto; lia).
  change (21 * N.of_nat 0)%N with 0%N. change (21 * N.of_nat 1)%N with 21%N. change (21 * N.of_nat 2)%N with 42%N.
  unfold control_word. rewrite Nat.add_0_r.
  pose proof (record_bound ops (3 * g) F). pose proof (record_bound ops (3 * g + 1) F).
  set (r0 := record _ (3 * g)) in *. set (r1 := record _ (3 * g + 1)) in *. set (r2 := record _ (3 * g + 2)) in *.
  rewrite N.pow_0_r, N.mul_1_r. rewrite <- (N.shiftl_mul_pow2 r1 21), <- (N.shiftl_mul_pow2 r2 42).
  rewrite (lor_shift_add r0 r1) by assumption.
  rewrite lor_shift_add; [|change (2 ^ 42)%N with (2 ^ 21 * 2 ^ 21)%N; nia].
  rewrite !N.shiftl_mul_pow2. reflexivity.
Qed.

(** Every prefix of the blob follows the layout. *)
Definition blob_inv (ops : list opcode) (i : nat) (blob : list N) : Prop :=
  blob = map (layout_word (recs ops) (words ops)) (seq 0 (i + (i + 2) / 3)).

Ltac Zify.zify_post_hook ::= Z.div_mod_to_equations.

Lemma layout_instruction : forall ops i, (i < List.length ops)%nat ->
  layout_word (recs ops) (words ops) (i + i / 3 + 1) = value (nth i ops opcode0).
Proof.
  intros ops i H. unfold layout_word.
  replace (Nat.eqb ((i + i / 3 + 1) mod 4) 0) with false by (symmetry; apply Nat.eqb_neq; lia).
  replace (3 * ((i + i / 3 + 1) / 4) + ((i + i / 3 + 1) mod 4 - 1))%nat with i by lia.
  unfold words. rewrite (nth_indep _ NOP (value opcode0)) by (rewrite map_length; exact H).
  apply map_nth.
Qed.
Lemma layout_control : forall ops g,
  layout_word (recs ops) (words ops) (4 * g) = control_word (recs ops) g.
Proof.
  intros ops g. unfold layout_word.
  replace (Nat.eqb ((4 * g) mod 4) 0) with true by (symmetry; apply Nat.eqb_eq; lia).
  replace (4 * g / 4)%nat with g by lia. reflexivity.
Qed.
Lemma layout_missing : forall ops j, (List.length ops + (List.length ops + 2) / 3 <= j)%nat ->
  (j < 4 * ((List.length ops + 2) / 3))%nat ->
  layout_word (recs ops) (words ops) j = NOP.
Proof.
  intros ops j H1 H2. unfold layout_word.
  replace (Nat.eqb (j mod 4) 0) with false by (symmetry; apply Nat.eqb_neq; lia).
  apply nth_overflow. unfold words. rewrite map_length. lia.
Qed.

Lemma blob_loop_layout : forall ops todo i blob, Forall op_ok ops ->
  (i + todo = List.length ops)%nat -> blob_inv ops i blob ->
  blob_inv ops (i + todo) (blob_loop ops (List.length ops) i todo blob).
Proof.
  intros ops todo. induction todo as [|todo IH]; intros i blob F L B; cbn [blob_loop].
  { rewrite Nat.add_0_r. exact B. }
  rewrite <- Nat.add_succ_comm. apply IH; [exact F|lia|].
  unfold blob_inv in *. destruct (Nat.eqb_spec (i mod 3) 0) as [E|E].
  - replace (S i + (S i + 2) / 3)%nat with (i + (i + 2) / 3 + 1 + 1)%nat by lia.
    rewrite (seq_app (i + (i + 2) / 3 + 1)), (seq_app (i + (i + 2) / 3)), !map_app, <- B.
    cbn [seq map]. f_equal; [f_equal|].
    + f_equal.
      replace (0 + (i + (i + 2) / 3))%nat with (4 * (i / 3))%nat by lia.
      rewrite layout_control. rewrite <- (control_generated ops (i / 3) F).
      replace (3 * (i / 3))%nat with i by lia. reflexivity.
    + f_equal. replace (0 + (i + (i + 2) / 3 + 1))%nat with (i + i / 3 + 1)%nat by lia.
      symmetry. apply layout_instruction. lia.
  - replace (S i + (S i + 2) / 3)%nat with (i + (i + 2) / 3 + 1)%nat by lia.
    rewrite (seq_app (i + (i + 2) / 3)), !map_app, <- B. cbn [seq map]. f_equal.
    f_equal. replace (0 + (i + (i + 2) / 3))%nat with (i + i / 3 + 1)%nat by lia.
    symmetry. apply layout_instruction. lia.
Qed.

(** Padding completes the last group; three rounds always suffice. *)
Lemma pad_loop_aligned : forall fuel ops m blob,
  blob = map (layout_word (recs ops) (words ops)) (seq 0 m) ->
  (List.length ops + (List.length ops + 2) / 3 <= m)%nat ->
  (m <= 4 * ((List.length ops + 2) / 3))%nat ->
  (4 * ((List.length ops + 2) / 3) - m <= fuel)%nat ->
  pad_loop fuel blob = layout (recs ops) (words ops).
Proof.
  induction fuel as [|fuel IH]; intros ops m blob B L1 L2 L3; cbn [pad_loop].
  - unfold layout, words. rewrite map_length. rewrite B. f_equal. f_equal. lia.
  - assert (LB : List.length blob = m) by (rewrite B, map_length, seq_length; reflexivity).
    rewrite LB. destruct (Nat.eqb_spec (m mod 4) 0) as [E|E].
    + unfold layout, words. rewrite map_length, B. f_equal. f_equal. lia.
    + apply (IH ops (m + 1)%nat); try lia.
      rewrite seq_app, map_app, <- B. cbn [seq map]. f_equal. f_equal. symmetry.
      apply layout_missing; lia.
Qed.

Theorem emit_layout : forall ops, Forall op_ok ops -> emit ops = layout (recs ops) (words ops).
Proof.
  intros ops F. unfold emit.
  pose proof (blob_loop_layout ops (List.length ops) 0 [] F eq_refl eq_refl) as B. cbn [plus] in B.
  eapply pad_loop_aligned; [exact B|lia|lia|lia].
Qed.
