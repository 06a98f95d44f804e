(** * Demo: programs on which the hypotheses of the theorems hold. *)
From Verif Require Import Base Float Lexer Operand Catalogue Table Parse Assemble Spec SpecOperand SpecInsn Bits LexFacts
  SchedFuel Param Reach ParseFacts Outcomes Decode Program Footprint Encode Operands Operands3 Quiet Notes Insn Words Clash Recover Fields.
From Coq Require Import Lia.
Local Open Scope string_scope.
Local Open Scope list_scope.
Open Scope Z_scope.

(** Runs of the decoder, as a function. *)
Fixpoint trail (fuel : nat) (ls : labels) (x : ctx) : option (list (ctx * opcode) * ctx) :=
  match fuel with
  | O => None
  | S fuel' =>
      match parse_instruction true ls x opcode0 with
      | Ok None => Some ([], x)
      | Ok (Some (x', op)) =>
          match trail fuel' ls x' with Some (l, y) => Some ((x', op) :: l, y) | None => None end
      | _ => None
      end
  end.
Lemma trail_ok : forall fuel ls x l y, trail fuel ls x = Some (l, y) -> decodes true ls x l y.
Proof.
  induction fuel as [|fuel IH]; intros ls x l y H; [discriminate|]. cbn [trail] in H.
  destruct (parse_instruction true ls x opcode0) as [[(x', op)|]| | | | |] eqn:P; try discriminate.
  - destruct (trail fuel ls x') as [(l', y')|] eqn:T; [|discriminate]. injection H as <- <-.
    econstructor; [exact P|]. apply IH. exact T.
  - injection H as <- <-. constructor. exact P.
Qed.

Definition text_same (a b : text) : bool := if list_eq_dec ascii_dec a b then true else false.
Definition cursor_same (a b : cursor) : bool :=
  text_same (rest a) (rest b) && Z.eqb (line a) (line b) && Z.eqb (col a) (col b).
Lemma cursor_same_eq : forall a b, cursor_same a b = true -> a = b.
Proof.
  intros [r1 l1 c1] [r2 l2 c2] H. unfold cursor_same, text_same in H. cbn [rest line col] in H.
  apply andb_true_iff in H as (H & H3). apply andb_true_iff in H as (H1 & H2).
  destruct (list_eq_dec ascii_dec r1 r2) as [EQ|]; [|discriminate]. apply Z.eqb_eq in H2, H3. subst. reflexivity.
Qed.

(** The guard and the mnemonic at a cursor; the cursor after them. *)
Definition front (c : cursor) : option (N * bool * text * cursor) :=
  match tokenize c with
  | Ok (t, c1) =>
      match kind t with
      | TIdent m => Some (7%N, false, m, c1)
      | TAt =>
          match tokenize c1 with
          | Ok (t, c2) =>
              match kind t with
              | TPred gi gn =>
                  match tokenize c2 with
                  | Ok (t, c3) => match kind t with TIdent m => Some (gi, gn, m, c3) | _ => None end
                  | _ => None
                  end
              | _ => None
              end
          | _ => None
          end
      | _ => None
      end
  | _ => None
  end.
Lemma front_ok : forall c gi gn m c', front c = Some (gi, gn, m, c') ->
  exists kg, guard_tokens gi gn kg /\ scan c (kg ++ [TIdent m]) c' /\ (gi <= 7)%N.
Proof.
  intros c gi gn m c' H. unfold front in H.
  destruct (tokenize c) as [(t, c1)| | | | |] eqn:T; try discriminate.
  destruct (kind t) eqn:K; try discriminate.
  - injection H as <- <- <- <-. exists []. split; [left; auto|]. split; [|discriminate].
    cbn [app]. rewrite <- K. econstructor; [exact T|constructor].
  - destruct (tokenize c1) as [(t1, c2)| | | | |] eqn:T1; try discriminate.
    destruct (kind t1) eqn:K1; try discriminate.
    destruct (tokenize c2) as [(t2, c3)| | | | |] eqn:T2; try discriminate.
    destruct (kind t2) eqn:K2; try discriminate. injection H as <- <- <- <-.
    exists [TAt; TPred index negated]. split; [right; reflexivity|]. split.
    + cbn [app]. rewrite <- K, <- K1, <- K2. econstructor; [exact T|]. econstructor; [exact T1|]. econstructor; [exact T2|constructor].
    + apply token_kind_ok in T1. rewrite K1 in T1. exact T1.
Qed.

(** Instruction [k] is written as a form with an operand that meets [p]. *)
Definition shows (code : text) (k : nat) (p : insn -> opnd -> bool) : bool :=
  match generate_labels code with
  | Ok ls =>
      match trail (S (List.length code)) ls (ctx0 code) with
      | Some (l, y) =>
          Nat.eqb (List.length l) (semis code) &&
          match nth_error l k with
          | Some (x', op) =>
              let x := match k with O => ctx0 code | S k' => fst (nth k' l (ctx0 code, op)) end in
              match front (c_cur x) with
              | Some (gi, gn, m, cm) =>
                  existsb (fun i =>
                    text_same m (lit (i_mnemonic i)) && existsb (p i) (i_operands i) &&
                    match parse_insn (Env ls (addr k) false) i cm (Opcode (N.shiftl (guard_bits gi gn) 16) 0 0) with
                    | Ok (Parsed s) =>
                        cursor_same (s_cur s) (c_cur x') && N.eqb (value (s_op s)) (value op) &&
                        N.eqb (reuse (s_op s)) (reuse op) && N.eqb (sched (s_op s)) (sched op)
                    | _ => false
                    end) table
              | None => false
              end
          | None => false
          end
      | None => false
      end
  | _ => false
  end.
Lemma shows_ok : forall code k p, shows code k p = true ->
  exists ls i gi gn kf op pre o, assembled true code ls k i gi gn kf op /\ has i pre o /\ p i o = true.
Proof.
  intros code k p H. unfold shows in H. destruct (generate_labels code) as [ls| | | | |] eqn:GL; try discriminate.
  destruct (trail _ ls (ctx0 code)) as [(l, y)|] eqn:T; [|discriminate]. apply trail_ok in T.
  apply andb_true_iff in H as (HL & H). apply Nat.eqb_eq in HL.
  destruct (nth_error l k) as [(x', op)|] eqn:NK; [|discriminate]. cbv zeta in H.
  set (x := match k with O => ctx0 code | S k' => fst (nth k' l (ctx0 code, op)) end) in *.
  destruct (front (c_cur x)) as [(((gi, gn), m), cm)|] eqn:FR; [|discriminate].
  apply front_ok in FR as (kg & GT & S1 & G). apply existsb_exists in H as (i & I & H).
  apply andb_true_iff in H as (H & H2). apply andb_true_iff in H as (HM & HP).
  unfold text_same in HM. destruct (list_eq_dec ascii_dec m (lit (i_mnemonic i))) as [->|]; [|discriminate].
  apply existsb_exists in HP as (o & IO & PO). apply in_split in IO as (pre & post & E).
  destruct (parse_insn _ i cm _) as [[s|]| | | | |] eqn:PI; try discriminate.
  apply andb_true_iff in H2 as (H2 & Q4). apply andb_true_iff in H2 as (H2 & Q3). apply andb_true_iff in H2 as (Q1 & Q2).
  apply cursor_same_eq in Q1. apply N.eqb_eq in Q2, Q3, Q4. destruct s as [c' t' op']. cbn [s_cur s_op] in *. subst c'.
  assert (op' = op) as -> by (destruct op', op; cbn in *; subst; reflexivity).
  destruct (proj1 (form_meets ls (addr k) i cm gi gn (c_cur x') op I G)) as (kf & S2 & FS); [eauto|].
  exists ls, i, gi, gn, kf, op, pre, o. split; [|split; [exists post; left; exact E|exact PO]].
  exists l, y, x', (c_cur x), kg. split; [split; [exact GL|]; split; [exact T|intros _; exact HL]|].
  split; [exact NK|]. split; [exact I|]. split.
  - assert (D : Forall (fun p => reached (c_cur (ctx0 code)) (c_cur (fst p))) l) by (eapply decodes_reached; exact T).
    rewrite Forall_forall in D. subst x. destruct k as [|k']; [apply reached_refl|]. apply (D (nth k' l (ctx0 code, op))). apply nth_In.
    assert (Datatypes.S k' < List.length l)%nat by (apply nth_error_Some; congruence). lia.
  - split; [exact GT|]. split; [|exact FS].
    replace (kg ++ id (i_mnemonic i) :: kf) with ((kg ++ [id (i_mnemonic i)]) ++ kf) by (rewrite <- app_assoc; reflexivity).
    eapply scan_app; [exact S1|exact S2].
Qed.

(** One instruction for each kind of operand. *)
Definition samples : text := lit
"  BRA loop;
  @!P2 IADD R3, R0.reuse, -0x5 @WAIT 3;
loop:
  IADD3 R0, R1, 0x80001, R2;
  MOV R0, c[0x3][-0x20];
  LDC.U8.ISL R3, c[0x4][R1-0x7fff];
  FADD.FTZ R0, R0, 1.3;
  FFMA32I.FTZ R3.CC, R5, 456.5, -R3;
  DADD R0, -R2, -11;
  HADD2 R2, R1, -15, 32;
  HADD2_32I R0, R1, -5, 13;
  TEXS.LZ R2, R4, R6, R8, 0x28, 2D, RGBA;
  TLDS.LZ.AOFFI R4, R6, R8, R2, 0x28, 2D, RGBA;
  PSET.BF.AND.XOR R4.CC, !P2, !P3, !P4;
  ALD R0, a[0x70];
  ALD.P R0, a[R1+-0x70], R8;
  ALD.PHYS R0, a[R5], R8;
  MOV32I R0, 0xaaccddee;
  IADD32I R5.CC, -R2, -0xcccc;
  PBK loop;
  STG.64 [R4-0x8], R2;
  LDG.32 P3, R2, [0x8];
  ATOMS.ADD.U32 R0, [R1+0x7], R2;
".


Definition opnd_is (o' : opnd) (_ : insn) (o : opnd) : bool :=
  match o', o with
  | OUint m a, OUint m' a' => Z.eqb m m' && N.eqb a a'
  | OInt n a, OInt n' a' => N.eqb n n' && N.eqb a a'
  | OLabel, OLabel | OImm20, OImm20 | OUimmExtended, OUimmExtended | OCbuf, OCbuf | OLdcAddress, OLdcAddress
  | ODimm, ODimm | OImmAttr, OImmAttr | OPatchAttr, OPatchAttr | OPhysAttr, OPhysAttr => true
  | OFimm n, OFimm n' => N.eqb n n'
  | OHalf n a (Some s), OHalf n' a' (Some s') => N.eqb n n' && N.eqb a a' && N.eqb s s'
  | OHalf n a None, OHalf n' a' None => N.eqb n n' && N.eqb a a'
  | OGpr a, OGpr a' | OMirrorGpr a, OMirrorGpr a' | OInvPred a, OInvPred a' => N.eqb a a'
  | OTexsType a, OTexsType a' | OTldsType a, OTldsType a' => N.eqb a a'
  | OPred a b, OPred a' b' => N.eqb a a' && Bool.eqb b b'
  | OMemAddress x a n s, OMemAddress x' a' n' s' => Bool.eqb x x' && N.eqb a a' && N.eqb n n' && N.eqb s s'
  | _, _ => false
  end.
Lemma opnd_is_eq : forall o' i o, opnd_is o' i o = true -> o = o'.
Proof.
  intros o' i o H. destruct o', o; try discriminate; cbn [opnd_is] in H;
    repeat match goal with
    | X : option N |- _ => destruct X
    | H : _ && _ = true |- _ => apply andb_true_iff in H as (? & ?)
    | H : N.eqb _ _ = true |- _ => apply N.eqb_eq in H
    | H : Z.eqb _ _ = true |- _ => apply Z.eqb_eq in H
    | H : Bool.eqb _ _ = true |- _ => apply eqb_prop in H
    end; try discriminate; subst; reflexivity.
Qed.
Lemma sample_has : forall k o, shows samples k (opnd_is o) = true ->
  exists ls i gi gn kf op pre, assembled true samples ls k i gi gn kf op /\ has i pre o.
Proof.
  intros k o H. apply shows_ok in H as (ls & i & gi & gn & kf & op & pre & o' & A & H & P).
  apply opnd_is_eq in P. subst o'. exists ls, i, gi, gn, kf, op, pre. auto.
Qed.

(** The kinds of the first [n] tokens, as a function. *)
Fixpoint kinds (n : nat) (c : cursor) : option (list tkind * cursor) :=
  match n with
  | O => Some ([], c)
  | S n' =>
      match tokenize c with
      | Ok (t, c1) => match kinds n' c1 with Some (ks, c') => Some (kind t :: ks, c') | None => None end
      | _ => None
      end
  end.
Lemma kinds_scan : forall n c ks c', kinds n c = Some (ks, c') -> scan c ks c'.
Proof.
  induction n as [|n IH]; intros c ks c' H; cbn [kinds] in H; [injection H as <- <-; constructor|].
  destruct (tokenize c) as [(t, c1)| | | | |] eqn:T; try discriminate.
  destruct (kinds n c1) as [(ks1, c2)|] eqn:K; [|discriminate]. injection H as <- <-. econstructor; [exact T|]. apply IH, K.
Qed.
