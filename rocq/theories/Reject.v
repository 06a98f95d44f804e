(** * Reject: what operands accept, and that they report everything else. *)
From Verif Require Import Base Float Lexer Operand Catalogue Table Parse Assemble Spec SpecOperand SpecInsn Bits LexFacts
  SchedFuel Param Reach ParseFacts Outcomes Decode Program Footprint Encode Operands Operands3 Quiet Notes Insn Words Clash Recover.
From Coq Require Import Lia.
Local Open Scope string_scope.
Local Open Scope list_scope.
Open Scope Z_scope.

(** An operand succeeds exactly on the tokens that spell it; else it returns a
    diagnostic, unless reading a token fails first. *)
Theorem operand_accepts : forall ls pc i o c t w ru sc, In i table -> In o (i_operands i) -> kind_ok (kind t) ->
  match run_operand (Env ls pc false) o (St c t (Opcode w ru sc)) with
  | Ok s => exists ks b r, reads t c ks (s_tok s) (s_cur s) /\
      spells (find_label ls) pc o w ks (kind (s_tok s)) b r /\
      s_op s = Opcode (N.lor (N.ldiff w (clears o)) b) (N.lor ru r) sc
  | Err _ | Fatal _ | Undef _ =>
      ~ exists ks t' c' b r, reads t c ks t' c' /\ spells (find_label ls) pc o w ks (kind t') b r
  | Abort _ | OutOfFuel => False
  end.
Proof.
  intros ls pc i o c t w ru sc I O K. pose proof (forallb_in _ _ _ _ table_spec I) as TS. cbn beta in TS.
  pose proof (forallb_in _ _ _ _ TS O) as SO. pose proof (operand_meets ls pc o SO) as M.
  pose proof (operand_clean false (Env ls pc false) o (St c t (Opcode w ru sc))) as C.
  destruct (run_operand _ o _) as [s|d|d|x|u|] eqn:E.
  - destruct s as [c' t' op']. apply M in E as (ks & b & r & R & S & ->); [|exact K]. exists ks, b, r. cbn [s_tok s_cur s_op]. auto.
  - intros (ks & t' & c' & b & r & R & S). pose proof (proj2 (M c t w ru sc c' t' _ K) (ex_intro _ ks (ex_intro _ b (ex_intro _ r (conj R (conj S eq_refl)))))) as Q. rewrite Q in E. discriminate.
  - intros (ks & t' & c' & b & r & R & S). pose proof (proj2 (M c t w ru sc c' t' _ K) (ex_intro _ ks (ex_intro _ b (ex_intro _ r (conj R (conj S eq_refl)))))) as Q. rewrite Q in E. discriminate.
  - discriminate C.
  - intros (ks & t' & c' & b & r & R & S). pose proof (proj2 (M c t w ru sc c' t' _ K) (ex_intro _ ks (ex_intro _ b (ex_intro _ r (conj R (conj S eq_refl)))))) as Q. rewrite Q in E. discriminate.
  - discriminate C.
Qed.

(** ** Wrong tokens and values out of range are diagnosed *)

Lemma convert_rejects : forall s mn mx, ~ (exists z, s_kind s = TImm z /\ mn <= z <= mx) ->
  exists d, convert_integer s mn mx = Err d.
Proof.
  intros s mn mx H. unfold convert_integer, confirm_type, fail. destruct (s_kind s) eqn:E;
    try (cbn [type_of ttype_eqb bind]; eexists; reflexivity).
  cbn [type_of ttype_eqb bind]. rewrite E.
  destruct (Z.ltb_spec z mn); [eexists; reflexivity|]. destruct (Z.ltb_spec mx z); [cbn [orb]; eexists; reflexivity|].
  destruct H. exists z. split; [reflexivity|lia].
Qed.
Ltac by_convert H := let d := fresh "d" in let E := fresh "E" in
  edestruct (convert_rejects) as (d & E); [exact H|]; rewrite E; cbn [bind]; eexists; reflexivity.

Theorem uint_rejects : forall e mx ad s, ~ (exists z, s_kind s = TImm z /\ 0 <= z <= mx) ->
  exists d, run_operand e (OUint mx ad) s = Err d.
Proof. intros e mx ad s H. cbn [run_operand]. unfold assemble_uint. by_convert H. Qed.
Theorem int_rejects : forall e n ad s, ~ (exists z, s_kind s = TImm z /\ - 2 ^ (Z.of_N n - 1) <= z < 2 ^ (Z.of_N n - 1)) ->
  exists d, run_operand e (OInt n ad) s = Err d.
Proof.
  intros e n ad s H. cbn [run_operand]. unfold assemble_int. cbv zeta.
  destruct (convert_rejects s (- 2 ^ (Z.of_N n - 1)) (2 ^ (Z.of_N n - 1) - 1)) as (d & E).
  - intros (z & K & R). apply H. exists z. split; [exact K|lia].
  - rewrite E. eexists. reflexivity.
Qed.
Theorem imm20_rejects : forall e s, ~ (exists z, s_kind s = TImm z /\ - 2 ^ 19 <= z < 2 ^ 19) ->
  exists d, run_operand e OImm20 s = Err d.
Proof.
  intros e s H. cbn [run_operand]. unfold assemble_signed_20bit_immediate.
  destruct (convert_rejects s (- 2 ^ 19) (Z.of_N (max_bits 19))) as (d & E).
  - intros (z & K & R). apply H. exists z. split; [exact K|]. change (Z.of_N (max_bits 19)) with (2 ^ 19 - 1) in R. lia.
  - rewrite E. eexists. reflexivity.
Qed.
Theorem uimm_rejects : forall e s, ~ (exists z, s_kind s = TImm z /\ 0 <= z <= 2 ^ 20) ->
  exists d, run_operand e OUimmExtended s = Err d.
Proof. intros e s H. cbn [run_operand]. unfold run_uimm_extended. by_convert H. Qed.

(** The target of a branch. *)
Definition target_of (ls : labels) (k : tkind) : option Z :=
  match k with TIdent name => find_label ls name | TImm z => Some z | _ => None end.
(** Only a literal within 2^63 of the smallest integer overflows. *)
Theorem label_rejects : forall ls pc a s, 0 <= pc < 2 ^ 61 ->
  (forall t, target_of ls (s_kind s) = Some t -> - 2 ^ 62 <= t < 2 ^ 62) ->
  ~ (exists t, target_of ls (s_kind s) = Some t /\ - 2 ^ 23 <= t - (pc + 8) < 2 ^ 23) ->
  exists d, run_operand (Env ls pc a) OLabel s = Err d.
Proof.
  intros ls pc a s PC B H. cbn [run_operand]. unfold run_label, fail.
  assert (X : forall t, target_of ls (s_kind s) = Some t ->
    exists d, (let* d := sub64 t pc in let* value := sub64 d 8 in
      if (Z.of_N (max_bits 23) <? value) || (value <? - Z.of_N (max_bits 23) - 1)
      then Err (A := st) (diag_at (s_tok s) "label out of range")
      else let* s1 := put (Env ls pc a) (shl64 (N.land (u64_of_Z value) 8388607) 20) s in
           let* s2 := put (Env ls pc a) (shl64 (if value <? 0 then 1 else 0) 43) s1 in advance_tok s2) = Err d).
  { intros t T. specialize (B t T). unfold sub64.
    change (2 ^ 62) with 4611686018427387904 in *. change (2 ^ 61) with 2305843009213693952 in *. unfold INT64_MIN, INT64_MAX.
    destruct (Z.ltb_spec (t - pc) (-9223372036854775808)); [lia|].
    destruct (Z.ltb_spec 9223372036854775807 (t - pc)); [lia|]. cbn [orb bind].
    destruct (Z.ltb_spec (t - pc - 8) (-9223372036854775808)); [lia|].
    destruct (Z.ltb_spec 9223372036854775807 (t - pc - 8)); [lia|]. cbn [orb bind].
    change (Z.of_N (max_bits 23)) with 8388607.
    destruct (Z.ltb_spec 8388607 (t - pc - 8)); [cbn [orb]; eexists; reflexivity|].
    destruct (Z.ltb_spec (t - pc - 8) (- (8388607) - 1)); [cbn [orb]; eexists; reflexivity|].
    destruct H. exists t. split; [exact T|]. change (2 ^ 23) with 8388608. lia. }
  cbn [e_labels e_pc]. unfold target_of in X. destruct (s_kind s) as [|name| | |z| | | | | | | | | |] eqn:K; cbn [bind];
    try (eexists; reflexivity).
  - destruct (find_label ls name) as [t|]; [|eexists; reflexivity]. cbn [bind]. apply X. reflexivity.
  - apply X. reflexivity.
Qed.

Theorem gpr_rejects : forall e ad s, (forall n, s_kind s <> TReg n) -> exists d, run_operand e (OGpr ad) s = Err d.
Proof.
  intros e ad s H. cbn [run_operand]. unfold assemble_gpr, confirm_type, fail.
  destruct (s_kind s) as [| |n| | | | | | | | | | | |] eqn:K; try (eexists; reflexivity). destruct (H n). reflexivity.
Qed.
Theorem reuse_rejects : forall e ad s, kind (s_tok s) = id ".reuse" -> ad <> 8%N -> ad <> 20%N -> ad <> 39%N ->
  try_reuse e ad s = fail (s_tok s) "register cannot be reused".
Proof.
  intros e ad s K N8 N20 N39. unfold try_reuse.
  assert (E : equal (s_tok s) ".reuse" = true) by (apply equal_iff; exact K). rewrite E. cbn [negb].
  destruct (N.eqb_spec ad 8); [contradiction|]. destruct (N.eqb_spec ad 20); [contradiction|].
  destruct (N.eqb_spec ad 39); [contradiction|reflexivity].
Qed.
(** [.reuse] after a register in another position. *)
Theorem gpr_reuse_rejects : forall e ad c t w n t1 c1, kind t = TReg n -> tokenize c = Ok (t1, c1) ->
  kind t1 = id ".reuse" -> ad <> 8%N -> ad <> 20%N -> ad <> 39%N ->
  (exists d, run_operand e (OGpr ad) (St c t w) = Err d) \/
  (exists x, e_asserts e = true /\ run_operand e (OGpr ad) (St c t w) = Abort x).
Proof.
  intros e ad c t w n t1 c1 K T K1 N8 N20 N39. cbn [run_operand]. unfold assemble_gpr, confirm_type, s_kind. cbn [s_tok].
  rewrite K. cbn [type_of ttype_eqb bind s_tok]. rewrite K. unfold put. cbn [s_op]. unfold add_bits.
  destruct (e_asserts e); cbn [andb].
  - destruct (negb _); [right; eexists; split; reflexivity|]. cbn [bind]. unfold advance_tok. cbn [s_cur].
    rewrite T. cbn [bind]. left. rewrite reuse_rejects by (cbn [s_tok]; assumption). eexists. reflexivity.
  - cbn [bind]. unfold advance_tok. cbn [s_cur]. rewrite T. cbn [bind]. left.
    rewrite reuse_rejects by (cbn [s_tok]; assumption). eexists. reflexivity.
Qed.
Theorem pred_rejects : forall e ad negable s, (forall n neg, s_kind s = TPred n neg -> False) ->
  exists d, run_operand e (OPred ad negable) s = Err d.
Proof.
  intros e ad negable s H. cbn [run_operand]. unfold run_pred, confirm_type, fail.
  destruct (s_kind s) as [| | |n neg| | | | | | | | | | |] eqn:K; try (eexists; reflexivity). destruct (H n neg). reflexivity.
Qed.

(** ** Guards on instructions that are always executed *)

Definition NO_GUARD (name : string) : message := Message "%s does not support predicated execution" [AStr (lit name)].

Lemma guard_fits : forall a i gi gn, In i table -> always_executed (i_mnemonic i) -> (gi <= 7)%N ->
  add_bits a (Opcode (N.shiftl (guard_bits gi gn) 16) 0 0) (i_opcode i) = Ok (Opcode (bare_word i gi gn) 0 0).
Proof.
  intros a i gi gn I A G. unfold add_bits. cbn [value reuse sched]. rewrite bare_word_eq.
  assert (Z : N.land (N.shiftl (guard_bits gi gn) 16) (i_opcode i) = 0%N).
  { pose proof (forallb_in _ _ _ _ table_nopred I) as T. cbn beta in T. apply andb_true_iff in T as (_ & T).
    apply N.eqb_eq in T.
    assert (SG : sub (N.shiftl (guard_bits gi gn) 16) (range 16 4)).
    { rewrite N.shiftl_mul_pow2. apply place_sub. unfold guard_bits. change (2 ^ 4)%N with 16%N. destruct gn; lia. }
    rewrite <- (sub_land _ _ SG), <- N.land_assoc, (N.land_comm (range 16 4)), T. apply N.land_0_r. }
  rewrite Z. cbn [N.eqb negb]. rewrite andb_false_r. reflexivity.
Qed.

Theorem guard_rejects : forall ls pc a i c gi gn t1 c1, In i table -> (gi <= 7)%N -> tokenize c = Ok (t1, c1) ->
  always_executed (i_mnemonic i) -> gi <> 7%N ->
  parse_insn (Env ls pc a) i c (Opcode (N.shiftl (guard_bits gi gn) 16) 0 0) = Ok (Failed (diag_at t1 (NO_GUARD (i_mnemonic i))) 0).
Proof.
  intros ls pc a i c gi gn t1 c1 I G T A N7. unfold parse_insn. cbn [e_asserts]. rewrite (guard_fits a i gi gn I A G).
  cbn [bind value]. rewrite T. cbn [bind]. rewrite bare_word_eq.
  destruct (_ && _) eqn:E; [reflexivity|]. apply (proj1 (nopred_check i gi gn I G)) in E; [contradiction|exact A].
Qed.

Lemma guard_table : forall ls pc a tbl t c gi gn t1 c1 b name, (gi <= 7)%N -> tokenize c = Ok (t1, c1) ->
  kind t = id name -> always_executed name -> gi <> 7%N -> (forall i, In i tbl -> In i table) ->
  b = None \/ b = Some (diag_at t1 (NO_GUARD name), 0) -> (exists i, In i tbl /\ i_mnemonic i = name) \/ b <> None ->
  parse_table (Env ls pc a) tbl t c (Opcode (N.shiftl (guard_bits gi gn) 16) 0 0) b = Fatal (diag_at t1 (NO_GUARD name)).
Proof.
  intros ls pc a tbl t c gi gn t1 c1 b name G T K A N7. revert b.
  induction tbl as [|i tbl IH]; intros b IT B E; cbn [parse_table].
  - destruct B as [->| ->]; [destruct E as [(i & [] & _)|E]; contradiction|reflexivity].
  - destruct (equal t (i_mnemonic i)) eqn:Q; cbn [negb].
    + apply equal_iff in Q. rewrite K in Q. injection Q as Q. apply lit_inj in Q. subst name.
      rewrite (guard_rejects ls pc a i c gi gn t1 c1 (IT _ (or_introl eq_refl)) G T A N7). cbn [bind].
      destruct B as [->| ->]; apply IH; auto; try (intros; apply IT; right; assumption); right; discriminate.
    + apply IH; auto; [intros; apply IT; right; assumption|]. destruct E as [(j & [->|J] & M)|E]; [|left; eauto|right; exact E].
      exfalso. subst name. enough (X : equal t (i_mnemonic j) = true) by congruence. apply equal_iff. exact K.
Qed.
Lemma always_listed : forall name, always_executed name -> exists i, In i table /\ i_mnemonic i = name.
Proof.
  assert (H : forallb (fun name => existsb (fun i => String.eqb (i_mnemonic i) name) table) always_names = true)
    by (vm_compute; reflexivity).
  intros name A. pose proof (forallb_in _ _ _ _ H A) as Q. cbn beta in Q. apply existsb_exists in Q as (i & I & E).
  apply String.eqb_eq in E. eauto.
Qed.

(** A guard other than PT or !PT on one of them is fatal. *)
Theorem guarded_fatal : forall a ls x t c tg cg tm cm t1 c1 gi gn name,
  tokenize (c_cur x) = Ok (t, c) -> kind t = TAt -> tokenize c = Ok (tg, cg) -> kind tg = TPred gi gn -> gi <> 7%N ->
  tokenize cg = Ok (tm, cm) -> kind tm = id name -> always_executed name -> tokenize cm = Ok (t1, c1) ->
  parse_instruction a ls x opcode0 = Fatal (diag_at t1 (NO_GUARD name)).
Proof.
  intros a ls x t c tg cg tm cm t1 c1 gi gn name T K TG KG N7 TM KM A T1.
  unfold parse_instruction, parse_instruction_with. rewrite T. cbn [bind]. rewrite K. cbn iota.
  cbn [parse_options]. unfold is_option. rewrite K. cbn [bind]. rewrite K. cbn [type_of ttype_eqb].
  rewrite TG. cbn [bind].
  pose proof (token_kind_ok _ _ _ TG) as KO. rewrite KG in KO. change (gi <= 7)%N in KO.
  unfold assemble_predicate. rewrite KG. cbn [negb andb].
  assert (E : shl64 (N.lor gi (if gn then 8 else 0)) 16 = N.shiftl (guard_bits gi gn) 16).
  { apply (proj1 (guard_word gi gn KO)). }
  rewrite E. unfold add_bits, opcode0. cbn [value reuse sched]. rewrite N.land_0_l. cbn [N.eqb negb].
  rewrite andb_false_r. cbn [raise bind]. rewrite TM. cbn [bind]. rewrite KM. unfold id at 1. cbn iota.
  rewrite N.lor_0_l.
  rewrite (guard_table ls _ a table tm cm gi gn t1 c1 None name KO T1 KM A N7); auto.
  left. apply always_listed. exact A.
Qed.

(** ** Everything in range is accepted *)

Lemma put_release : forall ls pc b s, put (Env ls pc false) b s =
  Ok (St (s_cur s) (s_tok s) (Opcode (N.lor (value (s_op s)) b) (reuse (s_op s)) (sched (s_op s)))).
Proof. intros ls pc b [c t [w r sc]]. reflexivity. Qed.
Lemma convert_accepts : forall s mn mx z, s_kind s = TImm z -> mn <= z <= mx -> convert_integer s mn mx = Ok (u64_of_Z z).
Proof.
  intros s mn mx z K R. unfold convert_integer, confirm_type. rewrite K. cbn [type_of ttype_eqb bind]. rewrite K.
  destruct (Z.ltb_spec z mn); [lia|]. destruct (Z.ltb_spec mx z); [lia|]. reflexivity.
Qed.
Ltac by_accept K R T :=
  erewrite convert_accepts; [|exact K|exact R]; cbn [bind]; repeat (rewrite put_release; cbn [bind]);
  unfold advance_tok; cbn [s_cur]; rewrite T; cbn [bind]; eexists; reflexivity.

Theorem uint_accepts : forall ls pc mx ad c t op z t1 c1, kind t = TImm z -> 0 <= z <= mx -> tokenize c = Ok (t1, c1) ->
  exists op', run_operand (Env ls pc false) (OUint mx ad) (St c t op) = Ok (St c1 t1 op').
Proof. intros ls pc mx ad c t op z t1 c1 K R T. cbn [run_operand]. unfold assemble_uint. by_accept K R T. Qed.
Theorem int_accepts : forall ls pc n ad c t op z t1 c1, kind t = TImm z ->
  - 2 ^ (Z.of_N n - 1) <= z < 2 ^ (Z.of_N n - 1) -> tokenize c = Ok (t1, c1) ->
  exists op', run_operand (Env ls pc false) (OInt n ad) (St c t op) = Ok (St c1 t1 op').
Proof.
  intros ls pc n ad c t op z t1 c1 K R T. cbn [run_operand]. unfold assemble_int. cbv zeta.
  assert (R' : - 2 ^ (Z.of_N n - 1) <= z <= 2 ^ (Z.of_N n - 1) - 1) by lia. by_accept K R' T.
Qed.
Theorem imm20_accepts : forall ls pc c t op z t1 c1, kind t = TImm z -> - 2 ^ 19 <= z < 2 ^ 19 -> tokenize c = Ok (t1, c1) ->
  exists op', run_operand (Env ls pc false) OImm20 (St c t op) = Ok (St c1 t1 op').
Proof.
  intros ls pc c t op z t1 c1 K R T. cbn [run_operand]. unfold assemble_signed_20bit_immediate.
  assert (R' : - 2 ^ 19 <= z <= Z.of_N (max_bits 19)) by (change (Z.of_N (max_bits 19)) with (2 ^ 19 - 1); lia).
  by_accept K R' T.
Qed.
Theorem gpr_accepts : forall ls pc ad c t op n t1 c1, kind t = TReg n -> tokenize c = Ok (t1, c1) -> kind t1 <> id ".reuse" ->
  exists op', run_operand (Env ls pc false) (OGpr ad) (St c t op) = Ok (St c1 t1 op').
Proof.
  intros ls pc ad c t op n t1 c1 K T N1. cbn [run_operand]. unfold assemble_gpr, confirm_type, s_kind. cbn [s_tok].
  rewrite K. cbn [type_of ttype_eqb bind s_tok]. rewrite K, put_release. cbn [bind]. unfold advance_tok. cbn [s_cur].
  rewrite T. cbn [bind]. unfold try_reuse. cbn [s_tok].
  destruct (equal t1 ".reuse") eqn:E; [apply equal_iff in E; contradiction|]. cbn [negb]. eexists. reflexivity.
Qed.

(** A constant buffer operand with the right tokens is accepted exactly when
    its bank and its offset are right, and otherwise diagnosed. *)
Theorem cbuf_accepts : forall ls pc c t op bank off t1 c1,
  reads t c [id "c"; TLbrack; TImm bank; TRbrack; TLbrack; TImm off; TRbrack] t1 c1 ->
  (0 <= bank <= 31 /\ - 2 ^ 15 <= off < 2 ^ 15 /\ off mod 4 = 0 /\
   exists op', run_operand (Env ls pc false) OCbuf (St c t op) = Ok (St c1 t1 op')) \/
  (~ (0 <= bank <= 31 /\ - 2 ^ 15 <= off < 2 ^ 15 /\ off mod 4 = 0) /\
   exists d, run_operand (Env ls pc false) OCbuf (St c t op) = Err d).
Proof.
  intros ls pc c t op bank off t1 c1 R.
  repeat match goal with R : reads _ _ (_ :: _) _ _ |- _ => inversion R; clear R; subst end.
  match goal with R : reads _ _ [] _ _ |- _ => inversion R; clear R; subst end.
  cbn [run_operand]. unfold assemble_constant_buffer. cbn [s_tok].
  assert (E : equal t "c" = true) by (apply equal_iff; assumption). rewrite E. cbn [negb].
  assert (CT : forall ty s t' c', tokenize (s_cur s) = Ok (t', c') -> type_of (kind t') = ty ->
    confirm_type_next ty s = Ok (St c' t' (s_op s))).
  { intros ty s t' c' T K. unfold confirm_type_next, advance_tok, confirm_type, s_kind. rewrite T. cbn [bind s_tok].
    rewrite K. destruct ty; reflexivity. }
  assert (AD : forall s t' c', tokenize (s_cur s) = Ok (t', c') -> advance_tok s = Ok (St c' t' (s_op s))).
  { intros s t' c' T. unfold advance_tok. rewrite T. reflexivity. }
  Ltac step CT AD := repeat match goal with
  | K : kind ?t = _, T : tokenize ?c = Ok (?t, _) |- context [confirm_type_next _ (St ?c _ _)] =>
      erewrite (CT _ (St c _ _)); [|exact T|rewrite K; reflexivity]; cbn [bind s_op]
  | T : tokenize ?c = Ok (?t, _) |- context [advance_tok (St ?c _ _)] =>
      rewrite (AD (St c _ _) _ _ T); cbn [bind s_op]
  | |- context [put _ _ _] => rewrite put_release; cbn [bind s_cur s_tok s_op]
  end.
  step CT AD.
  assert (B : 0 <= bank <= Z.of_N (max_bits 5) \/ ~ 0 <= bank <= Z.of_N (max_bits 5)) by lia.
  change (Z.of_N (max_bits 5)) with 31 in *. destruct B as [B|B].
  - erewrite (convert_accepts _ 0 31 bank) by assumption. cbn [bind]. step CT AD.
    assert (O : -32768 <= off <= 32767 \/ ~ -32768 <= off <= 32767) by lia. destruct O as [O|O].
    + erewrite (convert_accepts _ (-32768) 32767 off) by assumption. cbn [bind]. rewrite s64_u64 by (unfold INT64_MIN, INT64_MAX; lia).
      assert (M : Z.rem off 4 = 0 <-> off mod 4 = 0).
      { rewrite Z.mod_divide, Z.rem_divide by discriminate. reflexivity. }
      destruct (Z.eqb_spec (Z.rem off 4) 0) as [Q|Q]; cbn [negb].
      * left. split; [exact B|]. split; [lia|]. split; [apply M; exact Q|]. step CT AD. eexists. reflexivity.
      * right. split; [intros (_ & _ & X); apply Q, M, X|]. unfold fail. eexists. reflexivity.
    + right. split; [lia|].
      destruct (convert_rejects (St c6 t6 (Opcode (N.lor (value op) (shl64 (u64_of_Z bank) 34)) (reuse op) (sched op))) (-32768) 32767) as (d & Q).
      { intros (z & K & R). unfold s_kind in K. cbn [s_tok] in K. assert (z = off) as -> by congruence. lia. }
      rewrite Q. eexists. reflexivity.
  - right. split; [lia|]. destruct (convert_rejects (St c3 t3 op) 0 31) as (d & Q).
    { intros (z & K & R). unfold s_kind in K. cbn [s_tok] in K. assert (z = bank) as -> by congruence. lia. }
    rewrite Q. eexists. reflexivity.
Qed.
