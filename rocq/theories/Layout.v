(** * Layout: the output words of a program and the addresses of its labels. *)
From Verif Require Import Base Float Lexer Operand Catalogue Table Parse Assemble
  Spec Bits LexFacts Reach ParseFacts Decode Emit Program Footprint Encode.
From Coq Require Import Lia ZifyNat.
Open Scope Z_scope.

(** ** A text has one decoding *)

Lemma decodes_unique : forall a ls x l y, decodes a ls x l y -> forall l' y', decodes a ls x l' y' ->
  l' = l /\ y' = y.
Proof.
  intros a ls x l y D. induction D as [x H|x x' op l y H D IH]; intros l' y' D'; inversion D'; subst; try congruence.
  - auto.
  - assert (E : (x'0, op0) = (x', op)) by congruence. injection E as -> ->.
    destruct (IH _ _ H1) as (-> & ->). auto.
Qed.
Theorem program_unique : forall a code ls l y ls' l' y', program a code ls l y -> program a code ls' l' y' ->
  ls' = ls /\ l' = l /\ y' = y.
Proof.
  intros a code ls l y ls' l' y' (G & D & _) (G' & D' & _).
  assert (ls' = ls) as -> by congruence. split; [reflexivity|]. eapply decodes_unique; eauto.
Qed.

(** ** Words *)

Lemma binary_plain : forall ls o code w, o_dksh o = false -> binary ls o code = Ok w -> w = code.
Proof.
  intros ls o code w D H. unfold binary in H. rewrite D in H. cbn [bind] in H.
  destruct (match o_type o with Some ty => negb (N.eqb ty 5) | None => false end); [discriminate|].
  injection H as <-. rewrite app_nil_r. reflexivity.
Qed.

(** The code words of a program, wherever they are put. *)
Theorem program_emit : forall a code ls l y, program a code ls l y ->
  emit (map snd l) = layout (recs (map snd l)) (words (map snd l)).
Proof. intros a code ls l y (_ & D & _). apply emit_layout. eapply decodes_op_ok; eauto. Qed.

Theorem assemble_plain : forall a code ls l y w, program a code ls l y -> o_dksh (c_opts y) = false ->
  assemble a code = Ok w -> w = layout (recs (map snd l)) (words (map snd l)).
Proof.
  intros a code ls l y w P D H. apply assemble_ok in H as (ls' & l' & y' & P' & B).
  destruct (program_unique _ _ _ _ _ _ _ _ P P') as (-> & -> & ->).
  apply binary_plain in B; [|exact D]. rewrite B. eapply program_emit; eauto.
Qed.

Ltac Zify.zify_post_hook ::= Z.div_mod_to_equations.

Lemma layout_length : forall rs ws, List.length (layout rs ws) = (4 * ((List.length ws + 2) / 3))%nat.
Proof. intros rs ws. unfold layout. rewrite map_length, seq_length. reflexivity. Qed.
Lemma layout_nth : forall rs ws j, (j < 4 * ((List.length ws + 2) / 3))%nat ->
  nth j (layout rs ws) 0%N = layout_word rs ws j.
Proof.
  intros rs ws j H. unfold layout. rewrite (nth_indep _ 0%N (layout_word rs ws 0)) by (rewrite map_length, seq_length; exact H).
  rewrite map_nth, seq_nth by exact H. reflexivity.
Qed.

(** Group [g], slot [j]. *)
Theorem layout_slots : forall rs ws g j, (g < (List.length ws + 2) / 3)%nat -> (j < 3)%nat ->
  nth (4 * g) (layout rs ws) 0%N = control_word rs g /\
  nth (4 * g + 1 + j) (layout rs ws) 0%N = nth (3 * g + j) ws NOP.
Proof.
  intros rs ws g j G J. rewrite !layout_nth by lia. unfold layout_word. split.
  - replace (Nat.eqb ((4 * g) mod 4) 0) with true by (symmetry; apply Nat.eqb_eq; lia).
    f_equal; lia.
  - replace (Nat.eqb ((4 * g + 1 + j) mod 4) 0) with false by (symmetry; apply Nat.eqb_neq; lia).
    f_equal; lia.
Qed.

(** The byte offset of instruction [k]. *)
Theorem layout_addr : forall rs ws k, (k < List.length ws)%nat ->
  nth (Z.to_nat (addr k / 8)) (layout rs ws) 0%N = nth k ws NOP /\ addr k mod 8 = 0.
Proof.
  intros rs ws k H. assert (E : Z.to_nat (addr k / 8) = (4 * (k / 3) + 1 + k mod 3)%nat).
  { unfold addr. rewrite Z.mul_comm, Z.div_mul by lia. lia. }
  rewrite E. destruct (layout_slots rs ws (k / 3) (k mod 3)) as (_ & ->); [lia|lia|].
  split; [f_equal; lia|]. apply addr_pos.
Qed.

(** ** Control words *)

Theorem control_slots : forall rs g j, (forall k, record rs k < 2 ^ 21)%N -> (j < 3)%nat ->
  field (control_word rs g) (21 * N.of_nat j) 21 = record rs (3 * g + j) /\ (control_word rs g < 2 ^ 63)%N.
Proof.
  intros rs g j B J. unfold control_word.
  pose proof (B (3 * g)%nat) as B0. pose proof (B (3 * g + 1)%nat) as B1. pose proof (B (3 * g + 2)%nat) as B2.
  split.
  - destruct j as [|[|[|j]]]; [| | |lia].
    + rewrite Nat.add_0_r. set (r0 := record rs (3 * g)) in *. set (r1 := record rs (3 * g + 1)) in *.
      set (r2 := record rs (3 * g + 2)) in *. change (21 * N.of_nat 0)%N with 0%N.
      replace (r0 + r1 * 2 ^ 21 + r2 * 2 ^ 42)%N with (0 + r0 * 2 ^ 0 + (r1 + r2 * 2 ^ 21) * 2 ^ (0 + 21))%N.
      * apply field_read; [reflexivity|exact B0].
      * change (2 ^ 42)%N with (2 ^ 21 * 2 ^ 21)%N. change (0 + 21)%N with 21%N. rewrite N.pow_0_r. lia.
    + set (r0 := record rs (3 * g)) in *. set (r1 := record rs (3 * g + 1)) in *.
      set (r2 := record rs (3 * g + 2)) in *. change (21 * N.of_nat 1)%N with 21%N.
      change (2 ^ 42)%N with (2 ^ (21 + 21))%N. apply field_read; assumption.
    + set (r0 := record rs (3 * g)) in *. set (r1 := record rs (3 * g + 1)) in *.
      set (r2 := record rs (3 * g + 2)) in *. change (21 * N.of_nat 2)%N with 42%N.
      replace (r0 + r1 * 2 ^ 21 + r2 * 2 ^ 42)%N with ((r0 + r1 * 2 ^ 21) + r2 * 2 ^ 42 + 0 * 2 ^ (42 + 21))%N by lia.
      apply field_read; [|exact B2]. change (2 ^ 42)%N with (2 ^ 21 * 2 ^ 21)%N. nia.
  - set (r0 := record rs (3 * g)) in *. set (r1 := record rs (3 * g + 1)) in *.
    set (r2 := record rs (3 * g + 2)) in *. clearbody r0 r1 r2.
    change (2 ^ 63)%N with 9223372036854775808%N. change (2 ^ 42)%N with 4398046511104%N.
    change (2 ^ 21)%N with 2097152%N in *. lia.
Qed.

Lemma program_records : forall a code ls l y k, program a code ls l y -> (record (recs (map snd l)) k < 2 ^ 21)%N.
Proof. intros a code ls l y k (_ & D & _). apply record_bound. eapply decodes_op_ok; eauto. Qed.

(** ** Label addresses *)

(** The text left when the first [k] instructions have been read. *)
Definition left_after (code : text) (l : list (ctx * opcode)) (k : nat) : text :=
  rest (c_cur (last (map fst (firstn k l)) (ctx0 code))).

Theorem debug_prefix : forall code ls l y k, program true code ls l y -> (k <= List.length l)%nat ->
  exists p, code = p ++ left_after code l k /\ semis p = k /\
    (k = O \/ exists q, p = q ++ [";"%char]).
Proof.
  intros code ls l y k P K. pose proof P as (_ & D & _).
  assert (E : l = firstn k l ++ skipn k l) by (symmetry; apply firstn_skipn).
  destruct (debug_semis _ _ _ _ _ _ P E) as (p & M & S). exists p.
  rewrite firstn_length_le in S by exact K. split; [apply M|]. split; [exact S|].
  destruct k as [|k]; [left; reflexivity|right].
  (* the last instruction of the prefix ends with ';' *)
  assert (FK : firstn (Datatypes.S k) l = firstn k l ++ [nth k l (ctx0 code, opcode0)]).
  { clear -K. revert l K. induction k as [|k IH]; intros [|z l] K; cbn in K; try lia; [reflexivity|].
    cbn [firstn nth app]. f_equal. apply IH. lia. }
  assert (E2 : l = firstn k l ++ (nth k l (ctx0 code, opcode0) :: skipn (Datatypes.S k) l)).
  { rewrite E at 1. rewrite FK, <- app_assoc. reflexivity. }
  rewrite E2 in D. apply decodes_app in D as (z & Dz & (p0 & M0 & _) & _ & Ez).
  remember (nth k l (ctx0 code, opcode0)) as g eqn:Eg. destruct g as (x', op).
  assert (PI : parse_instruction true ls z opcode0 = Ok (Some (x', op))) by (inversion Dz; assumption).
  apply instruction_semi in PI as ((q & Mq) & _).
  assert (L : last (map fst (firstn (Datatypes.S k) l)) (ctx0 code) = x').
  { rewrite FK, map_app. cbn [map fst]. apply last_last. }
  rewrite L in M. destruct M as (R & _). destruct M0 as (R0 & _). destruct Mq as (Rq & _).
  cbn in R, R0. rewrite R0, Rq in R. rewrite !app_assoc in R. apply app_inv_tail in R.
  exists (p0 ++ q). rewrite <- R. reflexivity.
Qed.

Lemma semis_prefix_le : forall p1 p2 x y, p1 ++ x = p2 ++ y -> (semis p2 < semis p1)%nat ->
  (List.length p2 < List.length p1)%nat.
Proof.
  intros p1 p2 x y E S. destruct (Nat.le_gt_cases (List.length p1) (List.length p2)) as [L|L]; [|exact L].
  destruct (prefix_split _ _ _ _ E L) as (z & -> & _). rewrite semis_app in S. lia.
Qed.

(** A label lies in the text of the instruction whose address it gets: after
    the ';' of the instruction before, before the ';' of its own. *)
Theorem label_span : forall code ls l y p name, program true code ls l y -> ~ In NUL code ->
  first_defines code p name ->
  exists k, find_label ls name = Some (addr k) /\ (k <= List.length l)%nat /\
    (List.length (left_after code l k) >= List.length code - List.length p)%nat /\
    ((k < List.length l)%nat ->
     (List.length (left_after code l (Datatypes.S k)) < List.length code - List.length p)%nat).
Proof.
  intros code ls l y p name P NN F. exists (semis p). pose proof P as (G & D & A). specialize (A eq_refl).
  destruct (generate_labels_spec code NN) as [(ls' & G' & _ & SPEC)|(G' & _)]; [|congruence].
  assert (ls' = ls) as -> by congruence.
  destruct F as (DF & FM). pose proof (defines_prefix _ _ _ DF) as (q & Eq).
  assert (K : (semis p <= List.length l)%nat).
  { rewrite A, Eq, semis_app. lia. }
  split; [apply SPEC; exists p; split; [split; auto|reflexivity]|]. split; [exact K|].
  split.
  - destruct (debug_prefix _ _ _ _ _ P K) as (p1 & E1 & S1 & T1).
    assert (List.length p1 <= List.length p)%nat.
    { destruct T1 as [T1|(q1 & T1)].
      - destruct (Nat.le_gt_cases (List.length p1) (List.length p)) as [L|L]; [exact L|].
        (* k = 0: p1 is the empty prefix *)
        rewrite T1 in *. unfold left_after in E1. cbn in E1. apply (f_equal (@List.length ascii)) in E1.
        rewrite app_length in E1. lia.
      - destruct (Nat.le_gt_cases (List.length p1) (List.length p)) as [L|L]; [exact L|].
        subst p1. rewrite app_length in L. cbn in L.
        assert (Q : p ++ q = q1 ++ (";"%char :: left_after code l (semis p))).
        { rewrite <- Eq, E1 at 1. rewrite <- app_assoc. reflexivity. }
        destruct (prefix_split _ _ _ _ Q) as (z & -> & _); [lia|].
        rewrite !semis_app in S1. cbn in S1. lia. }
    apply (f_equal (@List.length ascii)) in E1. rewrite app_length in E1. lia.
  - intros KL. destruct (debug_prefix _ _ _ _ (Datatypes.S (semis p)) P) as (p1 & E1 & S1 & _); [lia|].
    assert (List.length p < List.length p1)%nat.
    { apply (semis_prefix_le p1 p (left_after code l (Datatypes.S (semis p))) q); [congruence|lia]. }
    apply (f_equal (@List.length ascii)) in E1. rewrite app_length in E1. lia.
Qed.

(** ** Statements used by the properties *)

Theorem output_layout : forall a code w, assemble a code = Ok w ->
  exists ls l y, program a code ls l y /\
    (o_dksh (c_opts y) = false ->
     List.length w = (4 * ((List.length l + 2) / 3))%nat /\
     forall g j, (g < (List.length l + 2) / 3)%nat -> (j < 3)%nat ->
       nth (4 * g) w 0%N = control_word (recs (map snd l)) g /\
       nth (4 * g + 1 + j) w 0%N = nth (3 * g + j) (map (fun p => value (snd p)) l) NOP).
Proof.
  intros a code w H. pose proof H as H0. apply assemble_ok in H0 as (ls & l & y & P & _).
  exists ls, l, y. split; [exact P|]. intros D. rewrite (assemble_plain _ _ _ _ _ _ P D H).
  assert (E : words (map snd l) = map (fun p => value (snd p)) l) by (unfold words; rewrite map_map; reflexivity).
  rewrite E. assert (L : List.length (map (fun p : ctx * opcode => value (snd p)) l) = List.length l) by apply map_length.
  split; [rewrite layout_length, L; reflexivity|]. intros g j G J. apply layout_slots; [rewrite L; exact G|exact J].
Qed.

Theorem control_decodes : forall a code ls l y g j, program a code ls l y -> (j < 3)%nat ->
  (control_word (recs (map snd l)) g < 2 ^ 63)%N /\
  field (control_word (recs (map snd l)) g) (21 * N.of_nat j) 21 =
    match nth_error l (3 * g + j) with
    | Some (_, op) => (sched op + reuse op * 2 ^ 17)%N
    | None => 0x7E0%N
    end /\
  (forall x op, nth_error l (3 * g + j) = Some (x, op) -> (sched op < 2 ^ 17 /\ reuse op < 2 ^ 4)%N).
Proof.
  intros a code ls l y g j P J.
  destruct (control_slots (recs (map snd l)) g j (fun k => program_records _ _ _ _ _ k P) J) as (E & B).
  split; [exact B|]. split.
  - rewrite E. unfold record, recs. rewrite !nth_error_map. destruct (nth_error l (3 * g + j)) as [(x, op)|]; reflexivity.
  - intros x op N. destruct P as (_ & D & _). apply decodes_op_ok in D.
    assert (I : In op (map snd l)). { apply nth_error_In in N. change op with (snd (x, op)). apply in_map. exact N. }
    rewrite Forall_forall in D. destruct (D _ I) as (O1 & O2 & _). auto.
Qed.

Theorem label_address : forall code w ls l y p name, assemble true code = Ok w -> program true code ls l y ->
  ~ In NUL code -> first_defines code p name ->
  exists k, find_label ls name = Some (addr k) /\ (k <= List.length l)%nat /\
    (List.length (left_after code l k) >= List.length code - List.length p)%nat /\
    ((k < List.length l)%nat ->
     (List.length (left_after code l (Datatypes.S k)) < List.length code - List.length p)%nat /\
     (o_dksh (c_opts y) = false ->
      addr k mod 8 = 0 /\
      nth (Z.to_nat (addr k / 8)) w 0%N = value (snd (nth k l (ctx0 code, opcode0))))).
Proof.
  intros code w ls l y p name H P NN F.
  destruct (label_span _ _ _ _ _ _ P NN F) as (k & E & K & S1 & S2). exists k.
  split; [exact E|]. split; [exact K|]. split; [exact S1|]. intros KL. split; [apply S2; exact KL|].
  intros D. rewrite (assemble_plain _ _ _ _ _ _ P D H).
  assert (KW : (k < List.length (words (map snd l)))%nat) by (unfold words; rewrite !map_length; exact KL).
  destruct (layout_addr (recs (map snd l)) (words (map snd l)) k KW) as (-> & M). split; [exact M|].
  rewrite (nth_indep _ NOP (value (snd (ctx0 code, opcode0)))) by exact KW.
  unfold words. rewrite map_nth, (map_nth snd). reflexivity.
Qed.

Theorem debug_count : forall code ls l y, program true code ls l y ->
  List.length l = semis code /\
  forall k, (k <= List.length l)%nat -> exists p, code = p ++ left_after code l k /\ semis p = k.
Proof.
  intros code ls l y P. split; [apply P; reflexivity|]. intros k K.
  destruct (debug_prefix _ _ _ _ _ P K) as (p & E & S & _). eauto.
Qed.

Theorem first_definition : forall code ls, ~ In NUL code -> generate_labels code = Ok ls ->
  forall name v, find_label ls name = Some v <-> exists p, first_defines code p name /\ v = addr (semis p).
Proof.
  intros code ls NN G. destruct (generate_labels_spec code NN) as [(ls' & G' & _ & SPEC)|(G' & _)]; [|congruence].
  assert (ls' = ls) as -> by congruence. exact SPEC.
Qed.
Theorem undefined_label : forall e s name, s_kind s = TIdent name -> find_label (e_labels e) name = None ->
  run_operand e OLabel s = fail (s_tok s) (label_message name).
Proof. intros e s name K F. cbn [run_operand]. unfold run_label. rewrite K, F. reflexivity. Qed.
