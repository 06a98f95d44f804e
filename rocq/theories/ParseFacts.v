(** * ParseFacts: inversion of the instruction parser. *)
From Verif Require Import Base Float Lexer Operand Catalogue Table Parse LexFacts SchedFuel Param Reach.
From Coq Require Import Lia.
Local Open Scope char_scope.
Open Scope Z_scope.

(** Operands in sequence, without the error scores. *)
Fixpoint run_ops (e : env) (ops : list opnd) (s : st) : res st :=
  match ops with
  | [] => Ok s
  | o :: ops' => let* s := run_operand e o s in run_ops e ops' s
  end.

Lemma run_ops_app : forall e a b s, run_ops e (a ++ b) s = bind (run_ops e a s) (run_ops e b).
Proof.
  induction a as [|o a IH]; intros b s; [reflexivity|]. cbn [run_ops app].
  rewrite bind_assoc. destruct (run_operand e o s); cbn; auto.
Qed.

Lemma run_operands_parsed : forall e ops n s k s',
  run_operands e ops n s k = Ok (Parsed s') <->
  exists s1, run_ops e ops s = Ok s1 /\ k (n + Z.of_nat (List.length ops)) s1 = Ok (Parsed s').
Proof.
  induction ops as [|o ops IH]; intros n s k s'; cbn [run_operands run_ops].
  - cbn [List.length]. rewrite Z.add_0_r. split.
    + intros H. exists s; auto.
    + intros (s1 & [= <-] & H). exact H.
  - unfold scored. destruct (run_operand e o s) as [s1| | | | |]; cbn [bind];
      try (split; [discriminate|intros (x & H & _); discriminate]).
    rewrite IH. replace (n + 1 + Z.of_nat (List.length ops)) with
      (n + Z.of_nat (List.length (o :: ops))) by (cbn [List.length]; lia). reflexivity.
Qed.

(** A successful attempt, step by step. *)
Definition insn_parsed (e : env) (i : insn) (c : cursor) (op : opcode) (s : st) : Prop :=
  exists op1 t c1 s1,
    add_bits (e_asserts e) op (i_opcode i) = Ok op1 /\
    tokenize c = Ok (t, c1) /\
    negb (N.eqb (N.land (i_flags i) NO_PRED) 0)
      && negb (N.eqb (andnot (shl64 7 16) (value op1)) 0) = false /\
    run_ops e (i_operands i) (St c1 t op1) = Ok s1 /\
    assemble_sched s1 = Ok s /\
    s_kind s = TSemi.

Lemma ttype_eqb_eq : forall a b, ttype_eqb a b = true <-> a = b.
Proof. intros a b; destruct a, b; cbn; split; try discriminate; auto. Qed.

Lemma parse_insn_parsed : forall e i c op s,
  parse_insn e i c op = Ok (Parsed s) <-> insn_parsed e i c op s.
Proof.
  intros e i c op s. unfold parse_insn, insn_parsed. split.
  - intros H. inv_bind H. rename x into op1. inv_bind H. destruct x as (t, c1).
    destruct (_ && _) eqn:E; [discriminate|].
    apply run_operands_parsed in H as (s1 & R & H).
    unfold scored at 1 in H. destruct (assemble_sched s1) as [s2| | | | |] eqn:A; try discriminate.
    unfold scored, confirm_type in H.
    destruct (ttype_eqb (type_of (s_kind s2)) ty_semi) eqn:T; [|discriminate].
    injection H as <-. exists op1, t, c1, s1. repeat split; auto.
    apply ttype_eqb_eq in T. destruct (s_kind s2); try discriminate; reflexivity.
  - intros (op1 & t & c1 & s1 & H1 & H2 & H3 & H4 & H5 & H6).
    rewrite H1; cbn [bind]. rewrite H2; cbn [bind]. rewrite H3.
    apply run_operands_parsed. exists s1; split; [exact H4|].
    unfold scored at 1. rewrite H5. unfold scored, confirm_type. rewrite H6. reflexivity.
Qed.

(** The table walk: the first form that parses. *)
Lemma parse_table_ok : forall e tbl t c op b s, parse_table e tbl t c op b = Ok s <->
  exists pre i post, tbl = pre ++ i :: post /\ equal t (i_mnemonic i) = true /\
    parse_insn e i c op = Ok (Parsed s) /\
    (forall j, In j pre -> equal t (i_mnemonic j) = true ->
       exists d n, parse_insn e j c op = Ok (Failed d n)).
Proof.
  induction tbl as [|i tbl IH]; intros t c op b s; cbn [parse_table].
  - split.
    + destruct b as [(d, n)|]; discriminate.
    + intros (pre & i & post & H & _). destruct pre; discriminate.
  - split.
    + intros H. destruct (equal t (i_mnemonic i)) eqn:E; cbn [negb] in H.
      * inv_bind H. destruct x as [s1|d n].
        -- injection H as <-. exists [], i, tbl. repeat split; auto. intros j [].
        -- apply IH in H as (pre & j & post & -> & Ej & Pj & F).
           exists (i :: pre), j, post. repeat split; auto.
           intros k [<-|Hk] Ek; eauto.
      * apply IH in H as (pre & j & post & -> & Ej & Pj & F).
        exists (i :: pre), j, post. repeat split; auto.
        intros k [<-|Hk] Ek; [congruence|eauto].
    + intros (pre & j & post & H & Ej & Pj & F). destruct pre as [|k pre]; cbn in H; injection H as -> ->.
      * rewrite Ej; cbn [negb]. rewrite Pj. reflexivity.
      * destruct (equal t (i_mnemonic k)) eqn:E; cbn [negb].
        -- destruct (F k (or_introl eq_refl) E) as (d & n & Hf). rewrite Hf. cbn [bind].
           apply IH. exists pre, j, post. repeat split; auto. intros; apply F; cbn; auto.
        -- apply IH. exists pre, j, post. repeat split; auto. intros; apply F; cbn; auto.
Qed.

Lemma reached_refl : forall c, reached c c.
Proof. intros c; exists []; apply moves_refl. Qed.

(** Success consumes a ';' last. *)
Lemma insn_semi : forall e i c op s, parse_insn e i c op = Ok (Parsed s) ->
  exists p, moves c (p ++ [";"]) (s_cur s).
Proof.
  intros e i c op s H.
  pose proof (insn_inv c e i c op (reached_refl c)) as R. rewrite H in R.
  cbn in R. destruct R as ((_ & _ & c1 & (p & M) & T) & _).
  apply parse_insn_parsed in H as (op1 & t & c2 & s1 & _ & _ & _ & _ & _ & K).
  apply tokenize_spec in T as (q & cq & b & M1 & M2 & _ & _ & _ & _ & S1 & _).
  rewrite (S1 K) in M2. exists (p ++ q). rewrite <- app_assoc.
  eapply moves_trans; eauto. eapply moves_trans; eauto.
Qed.

Lemma table_semi : forall e tbl t c op b s, parse_table e tbl t c op b = Ok s ->
  exists p, moves c (p ++ [";"]) (s_cur s).
Proof.
  intros e tbl t c op b s H. apply parse_table_ok in H as (pre & i & post & _ & _ & H & _).
  eapply insn_semi; eauto.
Qed.

(** ** Options move the cursor *)

Lemma tokenize_moves : forall c t c', tokenize c = Ok (t, c') -> reached c c'.
Proof. intros c t c' H; apply tokenize_reach in H as (H & _); exact H. Qed.

Lemma option_int_moves : forall c m z t c', option_int c m = Ok (z, t, c') -> reached c c'.
Proof.
  intros c m z t c' H. unfold option_int in H. inv_bind H. destruct x as (t1, c1).
  apply tokenize_moves in Hx. destruct (kind t1); try discriminate. injection H as _ _ <-. exact Hx.
Qed.
Lemma parse_type_moves : forall l t c o t' c' o', parse_type l t c o = Ok (t', c', o') -> reached c c'.
Proof.
  intros l t c o t' c' o' H. unfold parse_type in H. destruct (o_type o); [discriminate|].
  inv_bind H. destruct x as (t1, c1). apply tokenize_moves in Hx. inv_bind H.
  destruct (program_type t1).
  - injection H as _ <- _. exact Hx.
  - destruct (string_is_active _); discriminate.
Qed.
Lemma parse_option_moves : forall t c o t' c' o', parse_option t c o = Ok (t', c', o') -> reached c c'.
Proof.
  intros t c o t' c' o' H. unfold parse_option in H. inv_bind H. destruct x as ((t1, c1), o1).
  assert (R1 : reached c c1).
  { destruct (equal t ".dksh"); [eapply parse_type_moves; eauto|].
    destruct (equal t ".type"); [eapply parse_type_moves; eauto|].
    destruct (equal t ".num_gprs").
    { inv_bind Hx. destruct x as (t2, c2). destruct (kind t2); discriminate. }
    destruct (equal t ".workgroup_size").
    { inv_bind Hx. destruct x as ((z1, t2), c2). apply option_int_moves in Hx0.
      inv_bind Hx. destruct x as ((z2, t3), c3). apply option_int_moves in Hx1.
      inv_bind Hx. destruct x as ((z3, t4), c4). apply option_int_moves in Hx2.
      inv_bind Hx. injection Hx as _ <- _. eauto using reached_trans. }
    destruct (equal t ".shared_memory").
    { inv_bind Hx. destruct x as ((z1, t2), c2). apply option_int_moves in Hx0.
      injection Hx as _ <- _. exact Hx0. }
    destruct (equal t ".local_memory").
    { inv_bind Hx. destruct x as ((z1, t2), c2). apply option_int_moves in Hx0.
      injection Hx as _ <- _. exact Hx0. }
    injection Hx as _ <- _. apply reached_refl. }
  inv_bind H. destruct x as (t2, c2). apply tokenize_moves in Hx0.
  destruct (_ =? _); [discriminate|]. injection H as _ <- _. eauto using reached_trans.
Qed.
Lemma parse_options_moves : forall n t c o t' c' o', parse_options n t c o = Ok (t', c', o') -> reached c c'.
Proof.
  induction n as [|n IH]; intros t c o t' c' o' H; [discriminate|]. cbn in H.
  destruct (is_option t).
  - inv_bind H. destruct x as ((t1, c1), o1). apply parse_option_moves in Hx. apply IH in H.
    eauto using reached_trans.
  - injection H as _ <- _. apply reached_refl.
Qed.

(** ** One instruction *)

(** The guard and mnemonic of an instruction, step by step. *)
Definition bump (pc : Z) : Z := if Z.rem pc 32 =? 0 then pc + 8 else pc.

Definition guard_parsed (a : bool) (t : token) (c : cursor) (op : opcode) (t' : token) (c' : cursor)
  (op' : opcode) : Prop :=
  (type_of (kind t) <> ty_at /\ t' = t /\ c' = c /\ add_bits a op (shl64 7 16) = Ok op') \/
  (exists tp cp, kind t = TAt /\ tokenize c = Ok (tp, cp) /\
     assemble_predicate a tp op 16 true = Ok op' /\ tokenize cp = Ok (t', c')).

(** An instruction after its first token [t]. *)
Definition rest_of_instruction (tbl : list insn) (a : bool) (ls : labels) (x : ctx) (op : opcode)
  (t : token) (c : cursor) : res (option (ctx * opcode)) :=
  let* (t, c, o) := parse_options (S (S (List.length (rest c)))) t c (c_opts x) in
  let* (t, c, op) :=
    (if ttype_eqb (type_of (kind t)) ty_at then
       let* (t, c) := tokenize c in
       let* op := raise (assemble_predicate a t op 16 true) in
       let* (t, c) := tokenize c in
       Ok (t, c, op)
     else
       let* op := add_bits a op (shl64 7 16) in
       Ok (t, c, op)) in
  match kind t with
  | TIdent _ =>
      let* s := parse_table (Env ls (bump (c_pc x)) a) tbl t c op None in
      Ok (Some (Ctx (s_cur s) (bump (c_pc x) + 8) o, s_op s))
  | _ => fatal_error t "expected mnemonic"
  end.
Lemma parse_instruction_eq : forall tbl a ls x op,
  parse_instruction_with tbl a ls x op =
  let* (t, c) := tokenize (c_cur x) in
  if ttype_eqb (type_of (kind t)) ty_none then Ok None
  else rest_of_instruction tbl a ls x op t c.
Proof.
  intros tbl a ls x op. unfold parse_instruction_with. destruct (tokenize (c_cur x)) as [(t, c)| | | | |];
    cbn [bind]; try reflexivity. destruct (kind t); reflexivity.
Qed.
Lemma none_type : forall k, ttype_eqb (type_of k) ty_none = true <-> k = TNone.
Proof. intros k; destruct k; cbn; split; try discriminate; auto. Qed.

Lemma parse_instruction_some : forall tbl a ls x op x' op',
  parse_instruction_with tbl a ls x op = Ok (Some (x', op')) <->
  exists t c t1 c1 o t2 c2 op1 s,
    tokenize (c_cur x) = Ok (t, c) /\ kind t <> TNone /\
    parse_options (S (S (List.length (rest c)))) t c (c_opts x) = Ok (t1, c1, o) /\
    guard_parsed a t1 c1 op t2 c2 op1 /\
    (exists name, kind t2 = TIdent name) /\
    parse_table (Env ls (bump (c_pc x)) a) tbl t2 c2 op1 None = Ok s /\
    x' = Ctx (s_cur s) (bump (c_pc x) + 8) o /\ op' = s_op s.
Proof.
  intros tbl a ls x op x' op'. rewrite parse_instruction_eq. split.
  - intros H. inv_bind H. destruct x0 as (t, c). exists t, c.
    destruct (ttype_eqb (type_of (kind t)) ty_none) eqn:NT; [discriminate|].
    assert (NK : kind t <> TNone) by (intros K; apply none_type in K; congruence).
    unfold rest_of_instruction in H. inv_bind H. destruct x0 as ((t1, c1), o).
    inv_bind H. destruct x0 as ((t2, c2), op1).
    exists t1, c1, o, t2, c2, op1.
    destruct (kind t2) as [| name | | | | | | | | | | | | |] eqn:K2; try discriminate.
    inv_bind H. rename x0 into s. injection H as <- <-.
    exists s. repeat split; auto; [|eauto].
    destruct (ttype_eqb (type_of (kind t1)) ty_at) eqn:T.
    + right. inv_bind Hx1. destruct x0 as (tp, cp). inv_bind Hx1. rename x0 into op2.
      inv_bind Hx1. destruct x0 as (t3, c3). injection Hx1 as <- <- <-.
      exists tp, cp. repeat split; auto.
      * apply ttype_eqb_eq in T. destruct (kind t1); try discriminate; reflexivity.
      * unfold raise in Hx4. destruct (assemble_predicate a tp op 16 true); try discriminate; exact Hx4.
    + left. inv_bind Hx1. injection Hx1 as <- <- <-. repeat split; auto.
      intros E. rewrite E in T. discriminate.
  - intros (t & c & t1 & c1 & o & t2 & c2 & op1 & s & H1 & H2 & H3 & H4 & (name & H5) & H6 & -> & ->).
    rewrite H1; cbn [bind].
    destruct (ttype_eqb (type_of (kind t)) ty_none) eqn:NT; [apply none_type in NT; contradiction|].
    unfold rest_of_instruction. rewrite H3; cbn [bind].
      assert (E : (if ttype_eqb (type_of (kind t1)) ty_at then
           let* (t, c) := tokenize c1 in
           let* op := raise (assemble_predicate a t op 16 true) in
           let* (t, c) := tokenize c in
           Ok (t, c, op)
         else
           let* op := add_bits a op (shl64 7 16) in
           Ok (t1, c1, op)) = Ok (t2, c2, op1)).
      { destruct H4 as [(NA & -> & -> & B)|(tp & cp & K & T & P & T2)].
        - destruct (ttype_eqb (type_of (kind t1)) ty_at) eqn:E; [apply ttype_eqb_eq in E; contradiction|].
          rewrite B. reflexivity.
        - rewrite K. cbn [type_of ttype_eqb]. rewrite T; cbn [bind]. rewrite P; cbn [raise bind].
          rewrite T2. reflexivity. }
      rewrite E; cbn [bind]. rewrite H5, H6. reflexivity.
Qed.

Lemma guard_moves : forall a t c op t' c' op', guard_parsed a t c op t' c' op' -> reached c c'.
Proof.
  intros a t c op t' c' op' [(_ & _ & -> & _)|(tp & cp & _ & T1 & _ & T2)]; [apply reached_refl|].
  eauto using reached_trans, tokenize_moves.
Qed.

Lemma instruction_semi : forall tbl a ls x op x' op',
  parse_instruction_with tbl a ls x op = Ok (Some (x', op')) ->
  (exists p, moves (c_cur x) (p ++ [";"]) (c_cur x')) /\ c_pc x' = bump (c_pc x) + 8.
Proof.
  intros tbl a ls x op x' op' H.
  apply parse_instruction_some in H as
    (t & c & t1 & c1 & o & t2 & c2 & op1 & s & H1 & H2 & H3 & H4 & _ & H6 & -> & ->).
  split; [|reflexivity]. cbn [c_cur].
  apply tokenize_moves in H1. apply parse_options_moves in H3. apply guard_moves in H4.
  apply table_semi in H6 as (p & M).
  destruct (reached_trans _ _ _ H1 (reached_trans _ _ _ H3 H4)) as (q & Q).
  exists (q ++ p). rewrite <- app_assoc. eapply moves_trans; eauto.
Qed.

Lemma parse_instruction_none : forall tbl a ls x op,
  parse_instruction_with tbl a ls x op = Ok None <->
  exists t c, tokenize (c_cur x) = Ok (t, c) /\ kind t = TNone.
Proof.
  intros tbl a ls x op. rewrite parse_instruction_eq. split.
  - intros H. inv_bind H. destruct x0 as (t, c). exists t, c. split; auto.
    destruct (ttype_eqb (type_of (kind t)) ty_none) eqn:NT; [apply none_type; auto|].
    exfalso. unfold rest_of_instruction in H.
    inv_bind H. destruct x0 as ((t1, c1), o). inv_bind H. destruct x0 as ((t2, c2), op1).
    destruct (kind t2); try discriminate. inv_bind H. discriminate.
  - intros (t & c & H & K). rewrite H; cbn [bind]. rewrite K. reflexivity.
Qed.
