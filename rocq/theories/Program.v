(** * Program: facts about a whole run of [assemble]. *)
From Verif Require Import Base Float Lexer Operand Catalogue Table Parse Assemble
  Spec LexFacts SchedFuel Param Reach ParseFacts Outcomes Decode.
From Coq Require Import Lia.
Local Open Scope char_scope.
Open Scope Z_scope.

(** ** The label scan on any text *)

Lemma next_line_outcomes : forall n c pc, (List.length (rest c) < n)%nat ->
  match next_line n (c, pc) with
  | Ok (c', _) => (List.length (rest c') < List.length (rest c))%nat
  | Undef u => u = UB_read_past_nul
  | _ => False
  end.
Proof.
  induction n as [|n IH]; intros c pc Hn; [lia|]. cbn [next_line].
  destruct (rest c) as [|ch0 r0] eqn:E.
  { rewrite advance_end by exact E. reflexivity. }
  destruct (advance_spec c pc) as (ch & c1 & A & M & P); [rewrite E; discriminate|].
  rewrite A. cbn [bind]. apply moves_length in M. rewrite E in M. cbn in M.
  destruct (_ && _); [|cbn; lia].
  specialize (IH c1 (bump_pc ch pc)). destruct (next_line n (c1, bump_pc ch pc)) as [(c', pc')| | | | |];
    try (apply IH; cbn in Hn; lia).
  cbn in Hn |- *. enough (List.length (rest c') < List.length (rest c1))%nat by lia. apply IH. lia.
Qed.

Lemma labels_loop_outcomes : forall n c pc ls, (List.length (rest c) < n)%nat ->
  match generate_labels_loop n (c, pc) ls with
  | Ok _ => True
  | Undef u => u = UB_read_past_nul
  | _ => False
  end.
Proof.
  induction n as [|n IH]; intros c pc ls Hn; [lia|]. cbn [generate_labels_loop fst].
  destruct (Ascii.eqb _ NUL); [exact I|].
  destruct (negb (is_alpha _)).
  - pose proof (next_line_outcomes (Datatypes.S (List.length (rest c))) c pc) as H.
    destruct (next_line _ (c, pc)) as [(c', pc')| | | | |]; cbn [bind]; try (apply H; lia).
    apply IH. specialize (H ltac:(lia)). lia.
  - destruct (skip_label_spec (Datatypes.S (List.length (rest c))) c pc) as (p & c1 & E & M & _); [lia|].
    rewrite E. cbn [bind]. apply moves_length in M.
    pose proof (next_line_outcomes (Datatypes.S (List.length (rest c))) c1 pc) as H.
    destruct (next_line _ (c1, pc)) as [(c', pc')| | | | |]; cbn [bind]; try (apply H; lia).
    apply IH. specialize (H ltac:(lia)). lia.
Qed.
Lemma generate_labels_outcomes : forall code,
  match generate_labels code with
  | Ok _ => True
  | Undef u => u = UB_read_past_nul
  | _ => False
  end.
Proof. intros code. apply labels_loop_outcomes. cbn; lia. Qed.

(** ** Outcomes of [assemble] *)

Lemma binary_outcomes : forall ls o code,
  match binary ls o code with
  | Ok _ | Fatal _ => True
  | Undef u => u = UB_signed_overflow
  | _ => False
  end.
Proof.
  intros ls o code. unfold binary, write_dksh, scratch_size.
  destruct (o_dksh o); cbn [bind].
  - destruct (o_type o) as [ty|]; [|exact I]. destruct (find_label _ _) as [en|]; [|exact I].
    destruct (negb (Z.rem en 32 =? 8)); [exact I|].
    match goal with |- context [if ?b then Undef _ else _] => destruct b end; [reflexivity|]. cbn [bind].
    destruct (o_dims o) as ((dx, dy), dz). cbn [bind]. destruct (negb _); exact I.
  - match goal with |- context [if ?b then _ else _] => destruct b end; exact I.
Qed.

(** Result, diagnostic, failed assert in debug builds, or one of the four
    undefined behaviours the parser and the writer can reach. *)
Theorem assemble_outcomes : forall a code,
  match assemble a code with
  | Ok _ | Fatal _ => True
  | Abort _ => a = true
  | Undef u => parser_ub u
  | Err _ | OutOfFuel => False
  end.
Proof.
  intros a code. unfold assemble. pose proof (generate_labels_outcomes code) as G.
  destruct (generate_labels code) as [ls|e|d|w|u|]; cbn [bind]; try contradiction.
  2:{ subst; left; reflexivity. }
  destruct (decode_loop_outcome a ls (Datatypes.S (count_semi code)) (Datatypes.S (Datatypes.S (List.length code))) 0
             (Ctx (Cursor code 0 0) 0 options0) []) as (C & E).
  { cbn; lia. }
  { cbn. rewrite count_semi_semis. lia. }
  destruct (decode_loop _ a ls _ 0 _ []) as [(o, ops)|d|d|w|u|]; cbn [bind]; try exact I; try exact C.
  - pose proof (binary_outcomes ls o (emit ops)) as B. destruct (binary ls o (emit ops)); auto.
    subst; unfold parser_ub; auto.
  - apply (E d); reflexivity.
  - discriminate.
Qed.
Corollary assemble_terminates : forall a code, assemble a code <> OutOfFuel.
Proof. intros a code E. pose proof (assemble_outcomes a code) as H. rewrite E in H. exact H. Qed.
Corollary assemble_no_overrun : forall a code, assemble a code <> Undef UB_vector_index.
Proof.
  intros a code E. pose proof (assemble_outcomes a code) as H. rewrite E in H.
  destruct H as [H|[H|[H|H]]]; discriminate.
Qed.

(** ** A successful run *)

(** [program a code ls l y]: the labels [ls], the instructions [l] (each with
    the context after it) and the final context [y] of a complete decode. *)
Definition program (a : bool) (code : text) (ls : labels) (l : list (ctx * opcode)) (y : ctx) : Prop :=
  generate_labels code = Ok ls /\ decodes a ls (ctx0 code) l y /\
  (a = true -> List.length l = semis code).

Theorem assemble_ok : forall a code w, assemble a code = Ok w <->
  exists ls l y, program a code ls l y /\ binary ls (c_opts y) (emit (map snd l)) = Ok w.
Proof.
  intros a code w. unfold assemble. split.
  - intros H. inv_bind H. rename x into ls. inv_bind H. destruct x as (o, ops).
    apply decode_loop_ok in Hx0 as (l & y & D & -> & -> & A). cbn [rev app] in H.
    exists ls, l, y. split; [|exact H]. split; [exact Hx|]. split; [exact D|].
    intros Ha. specialize (A Ha). rewrite count_semi_semis in A. cbn in A. lia.
  - intros (ls & l & y & (G & D & A) & B). rewrite G. cbn [bind].
    change (Ctx (Cursor code 0 0) 0 options0) with (ctx0 code).
    rewrite (decode_loop_complete a ls _ _ l y D).
    + cbn [bind rev app]. exact B.
    + cbn; lia.
    + cbn. rewrite count_semi_semis. lia.
    + intros Ha. rewrite count_semi_semis, (A Ha). reflexivity.
Qed.

(** In a debug build exactly [k] semicolons precede instruction [k]. *)
Theorem debug_semis : forall code ls l y l1 l2, program true code ls l y -> l = l1 ++ l2 ->
  exists p, moves (Cursor code 0 0) p (c_cur (last (map fst l1) (ctx0 code))) /\
    semis p = List.length l1.
Proof.
  intros code ls l y l1 l2 (_ & D & A) ->. specialize (A eq_refl).
  destruct (decodes_app _ _ _ _ _ _ D) as (z & Dz & (p & M & L) & _ & <-).
  exists p. split; [exact M|].
  destruct (decodes_semis _ _ _ _ _ Dz) as (q & Q & LQ).
  pose proof (moves_semis _ _ _ M) as S1. pose proof (moves_semis _ _ _ Q) as S2. cbn in S1.
  rewrite app_length in A. lia.
Qed.
