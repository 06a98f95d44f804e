(** * Forms: which form of an instruction is taken, and which error is shown. *)
From Verif Require Import Base Float Lexer Operand Catalogue Table Parse Assemble LexFacts SchedFuel Param Reach ParseFacts Decode Program.
From Coq Require Import Lia.
Local Open Scope string_scope.
Local Open Scope list_scope.
Open Scope Z_scope.

(** ** C33 *)

Lemma table_single : forall e i t c op s, equal t (i_mnemonic i) = true -> parse_insn e i c op = Ok (Parsed s) ->
  parse_table e [i] t c op None = Ok s.
Proof. intros e i t c op s E P. cbn [parse_table]. rewrite E. cbn [negb]. rewrite P. reflexivity. Qed.
Lemma table_single_failed : forall e i t c op, (equal t (i_mnemonic i) = true -> exists d n, parse_insn e i c op = Ok (Failed d n)) ->
  exists d, parse_table e [i] t c op None = Fatal d.
Proof.
  intros e i t c op H. cbn [parse_table]. destruct (equal t (i_mnemonic i)); cbn [negb]; [|eexists; reflexivity].
  destruct (H eq_refl) as (d & n & ->). cbn [bind]. eexists; reflexivity.
Qed.
Lemma guard_eq : forall a t c op t' c' op', guard_parsed a t c op t' c' op' ->
  (if ttype_eqb (type_of (kind t)) ty_at then
     let* (t, c) := tokenize c in
     let* op := raise (assemble_predicate a t op 16 true) in
     let* (t, c) := tokenize c in
     Ok (t, c, op)
   else let* op := add_bits a op (shl64 7 16) in Ok (t, c, op)) = Ok (t', c', op').
Proof.
  intros a t c op t' c' op' [(N & -> & -> & A)|(tp & cp & K & T & P & T2)].
  - destruct (ttype_eqb _ _) eqn:Q; [apply ttype_eqb_eq in Q; contradiction|]. rewrite A. reflexivity.
  - rewrite K. cbn [ttype_eqb type_of]. change (ttype_eqb ty_at ty_at) with true. cbv iota. rewrite T. cbn [bind]. rewrite P. cbn [raise bind]. rewrite T2. reflexivity.
Qed.
(** The form taken gives the same result when it is the only one, and no
    earlier form would have accepted the instruction. *)
Theorem first_match : forall tbl a ls x op r, parse_instruction_with tbl a ls x op = Ok (Some r) ->
  exists pre i post, tbl = pre ++ i :: post /\
    parse_instruction_with [i] a ls x op = Ok (Some r) /\
    forall j, In j pre -> exists d, parse_instruction_with [j] a ls x op = Fatal d.
Proof.
  intros tbl a ls x op (x', op') H. apply parse_instruction_some in H as
    (t & c & t1 & c1 & o & t2 & c2 & op1 & s & H1 & H2 & H3 & H4 & (name & H5) & H6 & -> & ->).
  apply parse_table_ok in H6 as (pre & i & post & E & M & P & F).
  exists pre, i, post. split; [exact E|]. split.
  - apply parse_instruction_some. exists t, c, t1, c1, o, t2, c2, op1, s.
    repeat split; eauto. apply table_single; assumption.
  - intros j I. destruct (table_single_failed (Env ls (bump (c_pc x)) a) j t2 c2 op1) as (d & D); [intros Q; exact (F j I Q)|].
    exists d. rewrite parse_instruction_eq, H1. cbn [bind].
    assert (NT : ttype_eqb (type_of (kind t)) ty_none = false).
    { destruct (ttype_eqb _ _) eqn:Q; [|reflexivity]. apply none_type in Q. contradiction. }
    rewrite NT. unfold rest_of_instruction. rewrite H3. cbn [bind]. apply guard_eq in H4. rewrite H4. cbn [bind]. rewrite H5, D. reflexivity.
Qed.

(** At the level of programs. *)
Theorem program_forms : forall a code ls l y k x' op, program a code ls l y -> nth_error l k = Some (x', op) ->
  exists x pre i post, table = pre ++ i :: post /\
    nth_error (ctx0 code :: map fst l) k = Some x /\
    parse_instruction_with [i] a ls x opcode0 = Ok (Some (x', op)) /\
    forall j, In j pre -> exists d, parse_instruction_with [j] a ls x opcode0 = Fatal d.
Proof.
  intros a code ls l y k x' op (_ & D & _). revert k. generalize (ctx0 code) as x0, D. clear D. intros x0 D.
  induction D as [x0 E|x0 x1 op1 l y E D IH]; intros k H; [destruct k; discriminate|].
  destruct k as [|k].
  - injection H as <- <-. apply first_match in E as (pre & i & post & ET & P & F). exists x0, pre, i, post. auto.
  - destruct (IH k H) as (x & pre & i & post & A & B & C). exists x, pre, i, post. auto.
Qed.

(** ** C34 *)

(** Once the mnemonic [t'] is read, the table decides. *)
Theorem instruction_table : forall tbl a ls x op t c t1 c1 o t' c' op' name,
  tokenize (c_cur x) = Ok (t, c) -> kind t <> TNone ->
  parse_options (S (S (List.length (rest c)))) t c (c_opts x) = Ok (t1, c1, o) ->
  guard_parsed a t1 c1 op t' c' op' -> kind t' = TIdent name ->
  parse_instruction_with tbl a ls x op =
  let* s := parse_table (Env ls (bump (c_pc x)) a) tbl t' c' op' None in Ok (Some (Ctx (s_cur s) (bump (c_pc x) + 8) o, s_op s)).
Proof.
  intros tbl a ls x op t c t1 c1 o t' c' op' name H1 H2 H3 H4 H5. rewrite parse_instruction_eq, H1. cbn [bind].
  destruct (ttype_eqb (type_of (kind t)) ty_none) eqn:Q; [apply none_type in Q; contradiction|].
  unfold rest_of_instruction. rewrite H3. cbn [bind]. apply guard_eq in H4. rewrite H4. cbn [bind]. rewrite H5. reflexivity.
Qed.

(** The forms with the mnemonic [t]. *)
Definition forms_of (tbl : list insn) (t : token) : list insn := filter (fun i => equal t (i_mnemonic i)) tbl.
Definition outranked (e : env) (c : cursor) (op : opcode) (P : Z -> Prop) (j : insn) : Prop :=
  exists d n, parse_insn e j c op = Ok (Failed d n) /\ P n.

Lemma table_forms : forall e tbl t c op b, parse_table e tbl t c op b = parse_table e (forms_of tbl t) t c op b.
Proof.
  intros e tbl t c op. induction tbl as [|i tbl IH]; intros b; [reflexivity|]. unfold forms_of in *. cbn [filter parse_table].
  destruct (equal t (i_mnemonic i)) eqn:E; cbn [negb]; [|apply IH]. cbn [parse_table]. rewrite E. cbn [negb].
  destruct (parse_insn e i c op) as [[s|d n]| | | | |]; cbn [bind]; auto.
Qed.
Lemma forms_mnemonic : forall tbl t, Forall (fun i => equal t (i_mnemonic i) = true) (forms_of tbl t).
Proof. intros tbl t. apply Forall_forall. intros i I. apply filter_In in I. apply I. Qed.

(** The walk with a best error so far. *)
Definition best_of (e : env) (c : cursor) (op : opcode) (l : list insn) (b : option (diag * Z)) (d : diag) : Prop :=
  (exists n, b = Some (d, n) /\ Forall (outranked e c op (fun m => m <= n)) l) \/
  (exists pre i post n, l = pre ++ i :: post /\ parse_insn e i c op = Ok (Failed d n) /\
     (forall d0 n0, b = Some (d0, n0) -> n0 < n) /\
     Forall (outranked e c op (fun m => m < n)) pre /\ Forall (outranked e c op (fun m => m <= n)) post).
Lemma walk_fatal : forall e t c op d l b, Forall (fun i => equal t (i_mnemonic i) = true) l ->
  (parse_table e l t c op b = Fatal d <->
   (exists pre i post, l = pre ++ i :: post /\ Forall (outranked e c op (fun _ => True)) pre /\ parse_insn e i c op = Fatal d) \/
   (l = [] /\ b = None /\ d = diag_at t (mnemonic_message (token_view (kind t)))) \/ best_of e c op l b d).
Proof.
  intros e t c op d. induction l as [|i l IH]; intros b F.
  - cbn [parse_table]. split.
    + destruct b as [(d0, n0)|]; intros [= <-]; [right; right; left; eauto|right; left; auto].
    + intros [(pre & i & post & E & _)|[(_ & -> & ->)|[(n & -> & _)|(pre & i & post & n & E & _)]]];
        [destruct pre; discriminate|reflexivity|reflexivity|destruct pre; discriminate].
  - pose proof (Forall_inv F) as E. apply Forall_inv_tail in F. cbn [parse_table]. rewrite E. cbn [negb].
    destruct (parse_insn e i c op) as [[s|d1 n1]|d1|d1|w|u|] eqn:P; cbn [bind].
    2:{ rewrite (IH _ F). clear IH. split.
      - intros [(pre & j & post & -> & A & B)|[(-> & B & _)|A]].
        + left. exists (i :: pre), j, post. split; [reflexivity|]. split; [constructor; [exists d1, n1; auto|exact A]|exact B].
        + destruct b as [(d0, n0)|]; [destruct (n0 <? n1)|]; discriminate.
        + right. right. destruct A as [(n & B & A)|(pre & j & post & n & -> & Q & B & A1 & A2)].
          * destruct b as [(d0, n0)|]; [destruct (Z.ltb_spec n0 n1)|].
            -- injection B as -> ->. right. exists [], i, l, n. split; [reflexivity|]. split; [exact P|]. split; [intros ? ? [= <- <-]; exact H|]. split; [constructor|exact A].
            -- injection B as -> ->. left. exists n. split; [reflexivity|]. constructor; [exists d1, n1; auto|exact A].
            -- injection B as -> ->. right. exists [], i, l, n. split; [reflexivity|]. split; [exact P|]. split; [discriminate|]. split; [constructor|exact A].
          * right. exists (i :: pre), j, post, n. split; [reflexivity|]. split; [exact Q|].
            destruct b as [(d0, n0)|]; [destruct (Z.ltb_spec n0 n1)|].
            -- specialize (B _ _ eq_refl). split; [intros ? ? [= <- <-]; lia|]. split; [constructor; [exists d1, n1; split; [exact P|lia]|exact A1]|exact A2].
            -- specialize (B _ _ eq_refl). split; [intros ? ? [= <- <-]; lia|]. split; [constructor; [exists d1, n1; split; [exact P|lia]|exact A1]|exact A2].
            -- specialize (B _ _ eq_refl). split; [discriminate|]. split; [constructor; [exists d1, n1; split; [exact P|lia]|exact A1]|exact A2].
      - intros [(pre & j & post & EL & A & B)|[(EL & _)|A]]; [|discriminate|].
        + destruct pre as [|i' pre]; injection EL as <- ->; [congruence|]. left. exists pre, j, post. split; [reflexivity|]. split; [apply Forall_inv_tail in A; exact A|exact B].
        + right. right. destruct A as [(n & -> & A)|(pre & j & post & n & EL & Q & B & A1 & A2)].
          * left. pose proof (Forall_inv A) as (d2 & n2 & P2 & L). rewrite P in P2. injection P2 as <- <-. apply Forall_inv_tail in A.
            exists n. rewrite (proj2 (Z.ltb_ge n n1)) by exact L. auto.
          * destruct pre as [|i' pre]; injection EL as <- ->.
            -- left. rewrite P in Q. injection Q as -> ->. exists n. split; [|exact A2]. destruct b as [(d0, n0)|]; [|reflexivity]. rewrite (proj2 (Z.ltb_lt n0 n)) by (eapply B; reflexivity). reflexivity.
            -- right. pose proof (Forall_inv A1) as (d2 & n2 & P2 & L). rewrite P in P2. injection P2 as <- <-. apply Forall_inv_tail in A1.
               exists pre, j, post, n. split; [reflexivity|]. split; [exact Q|]. split; [|auto]. intros d0 n0 E0.
               destruct b as [(d3, n3)|]; [destruct (n3 <? n1)|]; injection E0 as <- <-; [exact L|eapply B; reflexivity|exact L]. }
    all: split; [intros H; try discriminate H|intros [(pre & j & post & EL & A & B)|[(EL & _)|[(n & _ & A)|(pre & j & post & n & EL & Q & _ & A & _)]]];
      try discriminate EL;
      try (destruct pre as [|i' pre]; injection EL as <- ->; [congruence|]);
      pose proof (Forall_inv A) as (d2 & n2 & P2 & _); congruence].
    injection H as <-. left. exists [], i, l. split; [reflexivity|]. split; [constructor|exact P].
Qed.
Theorem table_fatal : forall e tbl t c op d,
  parse_table e tbl t c op None = Fatal d <->
  (exists pre i post, forms_of tbl t = pre ++ i :: post /\ Forall (outranked e c op (fun _ => True)) pre /\ parse_insn e i c op = Fatal d) \/
  (forms_of tbl t = [] /\ d = diag_at t (mnemonic_message (token_view (kind t)))) \/
  (exists pre i post n, forms_of tbl t = pre ++ i :: post /\ parse_insn e i c op = Ok (Failed d n) /\
     Forall (outranked e c op (fun m => m < n)) pre /\ Forall (outranked e c op (fun m => m <= n)) post).
Proof.
  intros e tbl t c op d. rewrite table_forms, (walk_fatal e t c op d _ None (forms_mnemonic tbl t)).
  split; intros [A|[A|A]]; auto.
  - right. left. tauto.
  - right. right. destruct A as [(n & B & _)|(pre & i & post & n & H1 & H2 & _ & H3 & H4)]; [discriminate|]. exists pre, i, post, n. auto.
  - right. left. tauto.
  - right. right. right. destruct A as (pre & i & post & n & H1 & H2 & H3 & H4). exists pre, i, post, n. repeat split; auto. discriminate.
Qed.

(** What a score says: 0 if the guard is refused, else one more than the
    operands read, and 1000 on top if all of them were. *)
Definition operands_start (e : env) (i : insn) (c : cursor) (op : opcode) (s : st) : Prop :=
  exists op1 t c1, add_bits (e_asserts e) op (i_opcode i) = Ok op1 /\ tokenize c = Ok (t, c1) /\ s = St c1 t op1.
Definition refuses_guard (i : insn) (w : N) : Prop :=
  N.land (i_flags i) NO_PRED <> 0%N /\ andnot (shl64 7 16) w <> 0%N.
Lemma run_operands_failed : forall e ops n s k d m, run_operands e ops n s k = Ok (Failed d m) ->
  (exists pre o post s1, ops = pre ++ o :: post /\ run_ops e pre s = Ok s1 /\ run_operand e o s1 = Err d /\ m = n + Z.of_nat (List.length pre)) \/
  (exists s1, run_ops e ops s = Ok s1 /\ k (n + Z.of_nat (List.length ops)) s1 = Ok (Failed d m)).
Proof.
  induction ops as [|o ops IH]; intros n s k d m H; cbn [run_operands] in H.
  - right. exists s. split; [reflexivity|]. cbn [List.length]. rewrite Z.add_0_r. exact H.
  - unfold scored in H. destruct (run_operand e o s) as [s1|d1| | | |] eqn:R; try discriminate.
    + apply IH in H as [(pre & o' & post & s2 & -> & R2 & R3 & ->)|(s2 & R2 & K)].
      * left. exists (o :: pre), o', post, s2. split; [reflexivity|]. split; [cbn [run_ops]; rewrite R; exact R2|]. split; [exact R3|cbn [List.length]; lia].
      * right. exists s2. split; [cbn [run_ops]; rewrite R; exact R2|]. replace (n + Z.of_nat (List.length (o :: ops))) with (n + 1 + Z.of_nat (List.length ops)) by (cbn [List.length]; lia). exact K.
    + injection H as <- <-. left. exists [], o, ops, s. split; [reflexivity|]. split; [reflexivity|]. split; [exact R|cbn; lia].
Qed.
Theorem score_meaning : forall e i c op d n, parse_insn e i c op = Ok (Failed d n) ->
  exists s, operands_start e i c op s /\
  ((n = 0 /\ refuses_guard i (value (s_op s)) /\ d_pos d = Some (t_line (s_tok s), t_col (s_tok s))) \/
   (~ refuses_guard i (value (s_op s)) /\
    ((exists pre o post s1, i_operands i = pre ++ o :: post /\ run_ops e pre s = Ok s1 /\ run_operand e o s1 = Err d /\
        n = 1 + Z.of_nat (List.length pre)) \/
     (exists s1, run_ops e (i_operands i) s = Ok s1 /\ n = 1001 + Z.of_nat (List.length (i_operands i)) /\
        (assemble_sched s1 = Err d \/ exists s2, assemble_sched s1 = Ok s2 /\ s_kind s2 <> TSemi /\ d_pos d = Some (t_line (s_tok s2), t_col (s_tok s2))))))).
Proof.
  intros e i c op d n H. unfold parse_insn in H. inv_bind H. rename x into op1. inv_bind H. destruct x as (t, c1).
  exists (St c1 t op1). split; [exists op1, t, c1; auto|]. cbn [s_op s_tok]. destruct (_ && _) eqn:G.
  - injection H as <- <-. left. apply andb_true_iff in G as (G1 & G2). apply negb_true_iff, N.eqb_neq in G1, G2. split; [reflexivity|]. split; [split; assumption|reflexivity].
  - right. split.
    { intros (G1 & G2). apply andb_false_iff in G as [G|G]; apply negb_false_iff, N.eqb_eq in G; contradiction. }
    apply run_operands_failed in H as [H|(s1 & R & H)]; [left; exact H|]. right. exists s1. split; [exact R|].
    set (len := Z.of_nat (List.length (i_operands i))) in *. cbv zeta in H. set (total := 1 + len + 1000) in H. assert (TT : total = 1001 + len) by (unfold total; lia). clearbody total.
    unfold scored at 1 in H. destruct (assemble_sched s1) as [s2|d2| | | |] eqn:A; try discriminate.
    + unfold scored, confirm_type in H. destruct (ttype_eqb (type_of (s_kind s2)) ty_semi) eqn:T; [discriminate|]. injection H as <- <-.
      split; [exact TT|]. right. exists s2. split; [reflexivity|]. split; [|reflexivity]. intros K. rewrite K in T. discriminate.
    + injection H as <- <-. split; [exact TT|]. left. reflexivity.
Qed.
(** An unknown mnemonic is reported where it stands. *)
Theorem unknown_mnemonic : forall e tbl t c op, (forall i, In i tbl -> equal t (i_mnemonic i) = false) ->
  parse_table e tbl t c op None = Fatal (Diag (Some (t_line t, t_col t)) (mnemonic_message (token_view (kind t)))).
Proof.
  intros e tbl t c op H. apply table_fatal. right. left. split; [|reflexivity]. unfold forms_of.
  destruct (filter _ tbl) as [|i l] eqn:E; [reflexivity|]. assert (I : In i (filter (fun i => equal t (i_mnemonic i)) tbl)) by (rewrite E; left; reflexivity).
  apply filter_In in I as (I & Q). rewrite (H _ I) in Q. discriminate.
Qed.

(** How many operands a form reads from a text. *)
Fixpoint operands_read (e : env) (ops : list opnd) (s : st) : nat :=
  match ops with
  | [] => O
  | o :: ops' => match run_operand e o s with Ok s' => S (operands_read e ops' s') | _ => O end
  end.
Definition form_reads (e : env) (i : insn) (c : cursor) (op : opcode) (n : nat) : Prop :=
  exists s, operands_start e i c op s /\ n = operands_read e (i_operands i) s.
Lemma read_prefix : forall e pre o post s s1 d, run_ops e pre s = Ok s1 -> run_operand e o s1 = Err d ->
  operands_read e (pre ++ o :: post) s = List.length pre.
Proof.
  intros e pre o post. induction pre as [|p pre IH]; intros s s1 d R F; cbn [run_ops app operands_read] in *.
  - injection R as <-. rewrite F. reflexivity.
  - destruct (run_operand e p s) as [s2| | | | |]; try discriminate. cbn [List.length]. f_equal. eapply IH; eauto.
Qed.
Lemma read_all : forall e ops s s1, run_ops e ops s = Ok s1 -> operands_read e ops s = List.length ops.
Proof.
  intros e ops. induction ops as [|p ops IH]; intros s s1 R; cbn [run_ops operands_read] in *; [reflexivity|].
  destruct (run_operand e p s) as [s2| | | | |]; try discriminate. cbn [List.length]. f_equal. eapply IH; eauto.
Qed.
(** The score of a form that does not refuse the guard. *)
Lemma score_count : forall e i c op d n, parse_insn e i c op = Ok (Failed d n) -> n <> 0 ->
  exists m, form_reads e i c op m /\ (m <= List.length (i_operands i))%nat /\
    n = 1 + Z.of_nat m + (if Nat.eqb m (List.length (i_operands i)) then 1000 else 0).
Proof.
  intros e i c op d n H N. apply score_meaning in H as (s & S & [(-> & _)|(_ & [(pre & o & post & s1 & E & R & F & ->)|(s1 & R & -> & _)])]).
  - contradiction.
  - exists (List.length pre). rewrite E, app_length. cbn [List.length]. split; [|split; [lia|]].
    + exists s. split; [exact S|]. rewrite E. symmetry. eapply read_prefix; eauto.
    + rewrite (proj2 (Nat.eqb_neq _ _)) by lia. lia.
  - exists (List.length (i_operands i)). split; [|split; [lia|]].
    + exists s. split; [exact S|]. symmetry. eapply read_all; eauto.
    + rewrite Nat.eqb_refl. lia.
Qed.
Lemma form_reads_det : forall e i c op m m', form_reads e i c op m -> form_reads e i c op m' -> m = m'.
Proof.
  intros e i c op m m' (s & (op1 & t & c1 & A & T & ->) & ->) (s' & (op1' & t' & c1' & A' & T' & ->) & ->).
  rewrite A in A'. injection A' as <-. rewrite T in T'. injection T' as <- <-. reflexivity.
Qed.

(** If no form reads all of its operands, the error shown is that of the first
    form that reads the most. *)
Theorem furthest_shown : forall e tbl t c op d, parse_table e tbl t c op None = Fatal d -> forms_of tbl t <> [] ->
  (forall i, In i (forms_of tbl t) -> exists d' n m, parse_insn e i c op = Ok (Failed d' n) /\ n <> 0 /\
     form_reads e i c op m /\ (m < List.length (i_operands i))%nat) ->
  exists pre i post m n, forms_of tbl t = pre ++ i :: post /\ parse_insn e i c op = Ok (Failed d n) /\ form_reads e i c op m /\
    (forall j m', In j pre -> form_reads e j c op m' -> (m' < m)%nat) /\
    (forall j m', In j post -> form_reads e j c op m' -> (m' <= m)%nat).
Proof.
  intros e tbl t c op d H NE A.
  assert (SC : forall i d' n m, In i (forms_of tbl t) -> parse_insn e i c op = Ok (Failed d' n) -> form_reads e i c op m -> n = 1 + Z.of_nat m).
  { intros i d' n m I P R. destruct (A i I) as (d2 & n2 & m2 & P2 & N & R2 & L). rewrite P in P2. injection P2 as -> ->.
    destruct (score_count _ _ _ _ _ _ P N) as (m3 & R3 & _ & ->). rewrite (form_reads_det _ _ _ _ _ _ R3 R2) in *.
    rewrite (form_reads_det _ _ _ _ _ _ R R2). rewrite (proj2 (Nat.eqb_neq _ _)) by lia. lia. }
  apply table_fatal in H as [(pre & i & post & E & _ & P)|[(E & _)|(pre & i & post & n & E & P & F1 & F2)]].
  - exfalso. destruct (A i) as (d' & n & m & P' & _); [rewrite E; apply in_elt|]. congruence.
  - contradiction.
  - assert (I : In i (forms_of tbl t)) by (rewrite E; apply in_elt). destruct (A i I) as (d' & n' & m & P' & _ & R & _).
    exists pre, i, post, m, n. split; [exact E|]. split; [exact P|]. split; [exact R|]. rewrite (SC _ _ _ _ I P R) in *.
    rewrite Forall_forall in F1, F2. split; intros j m' J Rj.
    + assert (J' : In j (forms_of tbl t)) by (rewrite E; apply in_or_app; auto). destruct (F1 j J) as (dj & nj & Pj & L).
      rewrite (SC _ _ _ _ J' Pj Rj) in L. lia.
    + assert (J' : In j (forms_of tbl t)) by (rewrite E; apply in_or_app; right; right; auto). destruct (F2 j J) as (dj & nj & Pj & L).
      rewrite (SC _ _ _ _ J' Pj Rj) in L. lia.
Qed.
