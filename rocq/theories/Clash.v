(** * Clash: which forms can fail the asserts on overlapping bits. *)
From Verif Require Import Base Float Lexer Operand Catalogue Table Parse Assemble Spec SpecOperand SpecInsn Bits LexFacts
  SchedFuel Param Reach ParseFacts Outcomes Decode Program Footprint Encode Operands Quiet.
From Coq Require Import Lia.
Local Open Scope string_scope.
Local Open Scope list_scope.
Open Scope Z_scope.

(** Positions in the table of the forms that can. *)
Definition clash_at : list nat :=
  [139; 140; 141; 142;     (* IADD (3), IADD32I: .PO sets both negation bits *)
   145;                    (* IADD3 with an immediate: 0x100000 reaches bit 39 *)
   153; 154; 155;          (* ISCADD (3): .PO *)
   223; 224;               (* SUST.D (2): .BA sets bit 52, as the form does *)
   230; 231; 232; 233; 234; 235]%nat. (* VMAD, VMNMX, VSETP (2 each): selectors inside formats *)

(** The fields of a form: opcode, guard and operands, each with the bits it
    clears first. *)
Definition fields (i : insn) : list (N * N) :=
  (i_opcode i, 0%N) :: (range 16 4, 0%N) :: map (fun o => (mask o, clears o)) (i_operands i).
(** The second field does not touch the first, except for bits it clears. *)
Definition disjoint (f g : N * N) : Prop := N.ldiff (N.land (fst f) (fst g)) (snd g) = 0%N.

Fixpoint pairs_b {A} (r : A -> A -> bool) (l : list A) : bool :=
  match l with [] => true | x :: l' => forallb (r x) l' && pairs_b r l' end.
Lemma pairs_b_ok : forall A (r : A -> A -> bool) (P : A -> A -> Prop), (forall x y, r x y = true -> P x y) ->
  forall l, pairs_b r l = true -> ForallOrdPairs P l.
Proof.
  intros A r P H l. induction l as [|x l IH]; cbn; intros E; [constructor|].
  apply andb_true_iff in E as (E1 & E2). constructor; auto. rewrite forallb_forall in E1. apply Forall_forall. auto.
Qed.

(** Forms with their positions. *)
Fixpoint number {A} (n : nat) (l : list A) : list (nat * A) :=
  match l with [] => [] | x :: l' => (n, x) :: number (Datatypes.S n) l' end.
Lemma number_nth : forall A (l : list A) n k x, nth_error l k = Some x -> In ((n + k)%nat, x) (number n l).
Proof.
  intros A l. induction l as [|y l IH]; intros n [|k] x H; try discriminate; cbn [nth_error number] in *.
  - injection H as ->. left. f_equal. lia.
  - right. replace (n + Datatypes.S k)%nat with (Datatypes.S n + k)%nat by lia. apply IH. exact H.
Qed.
Definition listed (n : nat) : bool := existsb (Nat.eqb n) clash_at.
Lemma listed_in : forall n, listed n = true <-> In n clash_at.
Proof.
  intros n. unfold listed. rewrite existsb_exists. split.
  - intros (m & H & E). apply Nat.eqb_eq in E. congruence.
  - intros H. exists n. split; [exact H|apply Nat.eqb_refl].
Qed.

Lemma table_flow : forallb (fun p => listed (fst p) || form_ok (snd p)) (number 0 table) = true.
Proof. vm_compute. reflexivity. Qed.
Lemma table_pairs : forallb (fun p => listed (fst p) ||
  pairs_b (fun f g => N.eqb (N.ldiff (N.land (fst f) (fst g)) (snd g)) 0) (fields (snd p))) (number 0 table) = true.
Proof. vm_compute. reflexivity. Qed.

Lemma unlisted_false : forall n, ~ In n clash_at -> listed n = false.
Proof. intros n H. destruct (listed n) eqn:E; [apply listed_in in E; contradiction|reflexivity]. Qed.
Theorem fields_disjoint : forall n i, nth_error table n = Some i -> ~ In n clash_at ->
  ForallOrdPairs disjoint (fields i).
Proof.
  intros n i H N. pose proof (forallb_in _ _ _ _ table_pairs (number_nth _ _ 0 _ _ H)) as F. cbn [fst snd plus] in F.
  rewrite (unlisted_false n N) in F. cbn [orb] in F. revert F. apply pairs_b_ok. intros f g E. apply N.eqb_eq. exact E.
Qed.
Lemma unlisted_ok : forall n i, nth_error table n = Some i -> ~ In n clash_at -> form_ok i = true.
Proof.
  intros n i H N. pose proof (forallb_in _ _ _ _ table_flow (number_nth _ _ 0 _ _ H)) as F. cbn [fst snd plus] in F.
  rewrite (unlisted_false n N) in F. exact F.
Qed.

(** Only instructions of these forms can fail an assert. *)
Theorem unlisted_silent : forall n i ls pc a c gi gn w, nth_error table n = Some i -> ~ In n clash_at -> (gi <= 7)%N ->
  parse_insn (Env ls pc a) i c (Opcode (place (guard_field gi gn) 16) 0 0) <> Abort w.
Proof.
  intros n i ls pc a c gi gn w H N G. unfold place. rewrite <- N.shiftl_mul_pow2.
  apply (form_quiet _ i c gi gn); [eapply nth_error_In; eauto|eapply unlisted_ok; eauto|exact G].
Qed.

(** Which texts do: a mnemonic read somewhere in the text, after it a text on
    which one of its forms is one of those listed. *)
Lemma table_abort : forall e tbl t c op b w, parse_table e tbl t c op b = Abort w ->
  exists n i, nth_error tbl n = Some i /\ equal t (i_mnemonic i) = true /\ parse_insn e i c op = Abort w.
Proof.
  intros e tbl. induction tbl as [|i tbl IH]; intros t c op b w H; cbn [parse_table] in H.
  { destruct b as [(d, n)|]; discriminate. }
  destruct (equal t (i_mnemonic i)) eqn:E; cbn [negb] in H.
  - destruct (parse_insn e i c op) as [[s|d n]| | | | |] eqn:P; cbn [bind] in H; try discriminate.
    + apply IH in H as (m & j & H & K). exists (Datatypes.S m), j. auto.
    + injection H as ->. exists O, i. auto.
  - apply IH in H as (m & j & H & K). exists (Datatypes.S m), j. auto.
Qed.

(** A form is tried on the text after a mnemonic that was read from [c0]. *)
Definition tried (c0 : cursor) (i : insn) (c : cursor) : Prop :=
  exists c1 t, reached c0 c1 /\ tokenize c1 = Ok (t, c) /\ kind t = id (i_mnemonic i).

Lemma bind_abort : forall A B (m : res A) (k : A -> res B) w, bind m k = Abort w ->
  m = Abort w \/ exists a, m = Ok a /\ k a = Abort w.
Proof. intros A B [] k w H; cbn in H; try discriminate; eauto. injection H as ->. auto. Qed.
Lemma tokenize_no_abort : forall c w, tokenize c <> Abort w.
Proof. intros c w E. pose proof (tokenize_outcomes c) as H. rewrite E in H. exact H. Qed.
Lemma parse_options_no_abort : forall n t c o w, parse_options n t c o <> Abort w.
Proof. intros n t c o w E. pose proof (proj1 (parse_options_clean false n t c o)) as H. rewrite E in H. discriminate. Qed.

(** The last token read: from a reached place, leaving the cursor at [c]. *)
Definition last_read (c0 : cursor) (t : token) (c : cursor) : Prop :=
  exists c1, reached c0 c1 /\ tokenize c1 = Ok (t, c).
Lemma read_next : forall c0 c1 t c, reached c0 c1 -> tokenize c1 = Ok (t, c) -> last_read c0 t c.
Proof. intros c0 c1 t c H K. exists c1. auto. Qed.
Lemma last_reached : forall c0 t c, last_read c0 t c -> reached c0 c.
Proof. intros c0 t c (c1 & R & T). eapply reached_trans; [exact R|]. eapply tokenize_moves; exact T. Qed.
Lemma option_last : forall c0 t c o t' c' o', last_read c0 t c -> parse_option t c o = Ok (t', c', o') -> last_read c0 t' c'.
Proof.
  intros c0 t c o t' c' o' L H.
  unfold parse_option in H. apply bind_ok in H as (((t1 & c1) & o1) & H1 & H). 
  apply bind_ok in H as ((t2 & c2) & H2 & H). destruct (Z.eqb _ _); [discriminate|]. injection H as -> -> <-.
  exists c1. split; [|exact H2]. apply last_reached in L. eapply reached_trans; [exact L|]. clear - H1.
  destruct (equal t ".dksh"); [eapply parse_type_moves; exact H1|].
  destruct (equal t ".type"); [eapply parse_type_moves; exact H1|].
  destruct (equal t ".num_gprs").
  { apply bind_ok in H1 as ((t2 & c2) & _ & H). destruct (kind t2); discriminate. }
  destruct (equal t ".workgroup_size").
  { apply bind_ok in H1 as (((z1 & t2) & c2) & A & H). apply bind_ok in H as (((z2 & t3) & c3) & B & H).
    apply bind_ok in H as (((z3 & t4) & c4) & C & H). apply bind_ok in H as (u & _ & H). injection H as _ <- _.
    eapply reached_trans; [eapply option_int_moves; exact A|]. eapply reached_trans; [eapply option_int_moves; exact B|].
    eapply option_int_moves; exact C. }
  destruct (equal t ".shared_memory").
  { apply bind_ok in H1 as (((z1 & t2) & c2) & A & H). injection H as _ <- _. eapply option_int_moves; exact A. }
  destruct (equal t ".local_memory").
  { apply bind_ok in H1 as (((z1 & t2) & c2) & A & H). injection H as _ <- _. eapply option_int_moves; exact A. }
  injection H1 as _ <- _. apply reached_refl.
Qed.
Lemma options_last : forall n c0 t c o t' c' o', last_read c0 t c -> parse_options n t c o = Ok (t', c', o') -> last_read c0 t' c'.
Proof.
  induction n as [|n IH]; intros c0 t c o t' c' o' L H; cbn [parse_options] in H; [discriminate|].
  destruct (is_option t); [|injection H as <- <- <-; exact L].
  apply bind_ok in H as (((t1 & c1) & o1) & H1 & H). eapply IH; [|exact H]. eapply option_last; eauto.
Qed.

Theorem instruction_abort : forall ls x w, parse_instruction true ls x opcode0 = Abort w ->
  exists n i c gi gn, nth_error table n = Some i /\ tried (c_cur x) i c /\ (gi <= 7)%N /\
    parse_insn (Env ls (bump (c_pc x)) true) i c (Opcode (place (guard_field gi gn) 16) 0 0) = Abort w.
Proof.
  intros ls x w H. unfold parse_instruction in H. rewrite parse_instruction_eq in H.
  apply bind_abort in H as [H|((t & c) & T & H)]; [destruct (tokenize_no_abort _ _ H)|].
  destruct (ttype_eqb _ _); [discriminate|]. unfold rest_of_instruction in H.
  apply bind_abort in H as [H|(((t1 & c1) & o) & O & H)]; [destruct (parse_options_no_abort _ _ _ _ _ H)|].
  pose proof (token_kind_ok _ _ _ T) as K. pose proof (options_token _ _ _ _ _ _ _ K O) as K1.
  assert (L1 : last_read (c_cur x) t1 c1).
  { eapply options_last; [|exact O]. exists (c_cur x). split; [apply reached_refl|exact T]. }
  apply bind_abort in H as [H|(((t2 & c2) & op) & G & H)].
  { exfalso. destruct (ttype_eqb _ _).
    - apply bind_abort in H as [H|((tp & cp) & TP & H)]; [destruct (tokenize_no_abort _ _ H)|].
      apply bind_abort in H as [H|(op & P & H)].
      + unfold assemble_predicate in H. destruct (kind tp); try discriminate.
      + apply bind_abort in H as [H|((t3 & c3) & T3 & H)]; [destruct (tokenize_no_abort _ _ H)|discriminate].
    - cbn in H. discriminate. }
  assert (GP : guard_parsed true t1 c1 opcode0 t2 c2 op).
  { destruct (ttype_eqb _ _) eqn:E.
    - right. apply bind_ok in G as ((tp & cp) & A & G). apply bind_ok in G as (op1 & B & G).
      apply bind_ok in G as ((t3 & c3) & C & G). injection G as <- <- <-. exists tp, cp.
      apply ttype_eqb_eq in E. split; [destruct (kind t1); try discriminate; reflexivity|]. split; [exact A|]. split; [|exact C].
      unfold raise in B. destruct (assemble_predicate _ _ _ _ _); try discriminate; exact B.
    - left. apply bind_ok in G as (op1 & A & G). injection G as <- <- <-. repeat split; auto.
      intros Q. rewrite Q in E. discriminate. }
  assert (L2 : last_read (c_cur x) t2 c2).
  { destruct GP as [(_ & -> & -> & _)|(tp & cp & _ & A & _ & B)]; [exact L1|]. exists cp. split; [|exact B].
    eapply reached_trans; [eapply last_reached; exact L1|eapply tokenize_moves; exact A]. }
  apply guard_built in GP as (gi & gn & GI & -> & _); [|exact K1].
  destruct (kind t2) eqn:K2; try discriminate.
  apply bind_abort in H as [H|(s' & P & H)]; [|discriminate].
  apply table_abort in H as (n & i & I & M & H). exists n, i, c2, gi, gn. split; [exact I|]. split.
  - destruct L2 as (c3 & R & T3). exists c3, t2. split; [exact R|]. split; [exact T3|]. apply equal_iff in M. exact M.
  - split; [exact GI|]. unfold place. rewrite <- N.shiftl_mul_pow2. exact H.
Qed.

Lemma decode_abort : forall ls max n idx x acc w, decode_loop n true ls max idx x acc = Abort w ->
  w = "index == max_decode_instructions" \/
  exists x', reached (c_cur x) (c_cur x') /\ parse_instruction true ls x' opcode0 = Abort w.
Proof.
  intros ls max n. induction n as [|n IH]; intros idx x acc w H; cbn [decode_loop] in H; [discriminate|].
  destruct (Nat.leb max idx); [discriminate|].
  apply bind_abort in H as [H|([(x' & op)|] & P & H)].
  - right. exists x. split; [apply reached_refl|exact H].
  - apply IH in H as [H|(y & R & H)]; [auto|]. right. exists y. split; [|exact H].
    apply instruction_semi in P as ((p & M) & _). eapply reached_trans; [|exact R]. exists (p ++ [";"%char]). exact M.
  - cbn [andb] in H. destruct (negb _); [|discriminate]. left. congruence.
Qed.
Lemma generate_no_abort : forall code w, generate_labels code <> Abort w.
Proof. intros code w E. pose proof (generate_labels_outcomes code) as H. rewrite E in H. exact H. Qed.
Lemma binary_no_abort : forall ls o code w, binary ls o code <> Abort w.
Proof. intros ls o code w E. pose proof (binary_outcomes ls o code) as H. rewrite E in H. exact H. Qed.

Theorem assemble_abort : forall code w, assemble true code = Abort w ->
  w = "index == max_decode_instructions" \/
  exists n i ls pc c gi gn, In n clash_at /\ nth_error table n = Some i /\ tried (Cursor code 0 0) i c /\
    parse_insn (Env ls pc true) i c (Opcode (place (guard_field gi gn) 16) 0 0) = Abort w.
Proof.
  intros code w H. unfold assemble in H.
  apply bind_abort in H as [H|(ls & G & H)]; [destruct (generate_no_abort _ _ H)|].
  apply bind_abort in H as [H|((o & ops) & D & H)]; [|destruct (binary_no_abort _ _ _ _ H)].
  apply decode_abort in H as [H|(x & R & H)]; [auto|]. right.
  apply instruction_abort in H as (n & i & c & gi & gn & I & (c1 & t & R1 & T & K) & GI & H).
  exists n, i, ls, (bump (c_pc x)), c, gi, gn. split.
  - destruct (in_dec Nat.eq_dec n clash_at) as [A|A]; [exact A|]. exfalso. revert H. eapply unlisted_silent; eauto.
  - split; [exact I|]. split; [|exact H]. exists c1, t. split; [eapply reached_trans; [exact R|exact R1]|auto].
Qed.

(** Every listed form does: texts that fail the assert when they are written
    after the mnemonic. *)
Definition clash_text (n : nat) : string :=
  match n with
  | 139 => ".PO R0, -R1, R2;" | 140 => ".PO R0, -R1, c[0x1][0x4];" | 141 => ".PO R0, -R1, 0x5;"
  | 142 => ".PO R0, -R1, 0x5;"
  | 145 => " R0, R1, 0x100000, R3;"
  | 153 => ".PO R0, -R1, R2, 0x3;" | 154 => ".PO R0, -R1, c[0x1][0x4], 0x3;" | 155 => ".PO R0, -R1, 0x5, 0x3;"
  | 223 => ".D.BA.2D.32 [R1], R2, R3;" | 224 => ".D.BA.2D.32 [R1], R2, 0x4;"
  | 230 => " R0, R1.B2, R2, R3;" | 231 => " R0, R1.B2, 0x5, R3;"
  | 232 => " R0, R1.B2, R2, R3;" | 233 => " R0, R1.B2, 0x5, R3;"
  | 234 => ".EQ.AND P0, PT, R1.B2, R2, PT;" | 235 => ".EQ.AND P0, PT, R1.B2, 0x5, PT;"
  | _ => ""
  end%nat.
Definition overlap : string := "(value & bits) == 0".
Definition is_overlap {A} (m : res A) : bool := match m with Abort w => String.eqb w overlap | _ => false end.
Lemma is_overlap_eq : forall A (m : res A), is_overlap m = true -> m = Abort overlap.
Proof. intros A [] H; try discriminate. cbn in H. apply String.eqb_eq in H. congruence. Qed.
Lemma clash_checked : forallb (fun n =>
  match nth_error table n with
  | Some i => is_overlap (assemble true (lit (i_mnemonic i ++ clash_text n ++ String "010" ""))) &&
      is_overlap (parse_insn (Env [] 8 true) i (Cursor (lit (clash_text n ++ String "010" "")) 0 0)
        (Opcode (place 7 16) 0 0))
  | None => false
  end) clash_at = true.
Proof. vm_compute. reflexivity. Qed.
Theorem clash_witness : forall n, In n clash_at -> exists i txt, nth_error table n = Some i /\
  assemble true (lit (i_mnemonic i ++ txt)) = Abort overlap /\
  parse_insn (Env [] 8 true) i (Cursor (lit txt) 0 0) (Opcode (place 7 16) 0 0) = Abort overlap.
Proof.
  intros n H. pose proof (forallb_in _ _ _ _ clash_checked H) as C. cbn beta in C.
  destruct (nth_error table n) as [i|]; [|discriminate]. apply andb_true_iff in C as (C1 & C2).
  exists i, (clash_text n ++ String "010" "")%string. split; [reflexivity|]. split; apply is_overlap_eq; assumption.
Qed.
