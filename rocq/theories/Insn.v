(** * Insn: instructions against their description. *)
From Verif Require Import Base Float Lexer Operand Catalogue Table Parse Spec SpecOperand SpecInsn Bits LexFacts
  SchedFuel ParseFacts Outcomes Decode Program Modes Footprint Operands Operands3 Encode Notes.
From Coq Require Import Lia.
Local Open Scope string_scope.
Local Open Scope list_scope.
Open Scope Z_scope.

(** ** Token streams *)

Lemma scan_app : forall c ks1 c1 ks2 c2, scan c ks1 c1 -> scan c1 ks2 c2 -> scan c (ks1 ++ ks2) c2.
Proof. intros c ks1 c1 ks2 c2 H. induction H; intros K; cbn; [exact K|]. econstructor; eauto. Qed.
Lemma scan_split : forall ks1 c ks2 c2, scan c (ks1 ++ ks2) c2 -> exists c1, scan c ks1 c1 /\ scan c1 ks2 c2.
Proof.
  induction ks1 as [|k ks1 IH]; cbn; intros c ks2 c2 H; [exists c; split; [constructor|exact H]|].
  inversion H; subst. edestruct IH as (c3 & A & B); [eassumption|]. exists c3. split; [econstructor; eauto|exact B].
Qed.
Lemma scan_reads : forall ks k c c', scan c (ks ++ [k]) c' <->
  exists t c1 t', tokenize c = Ok (t, c1) /\ reads t c1 ks t' c' /\ kind t' = k.
Proof.
  induction ks as [|k0 ks IH]; intros k c c'; cbn [app].
  - split.
    + intros H. inversion H as [|? t c1 ? ? E H1]; subst. inversion H1; subst. exists t, c', t. repeat split; [exact E|constructor].
    + intros (t & c1 & t' & E & R & <-). inversion R; subst. econstructor; [exact E|constructor].
  - split.
    + intros H. inversion H as [|? t c1 ? ? E H1]; subst. apply IH in H1 as (t1 & c2 & t' & E1 & R & K).
      exists t, c1, t'. split; [exact E|]. split; [|exact K]. econstructor; eauto.
    + intros (t & c1 & t' & E & R & K). inversion R; subst. econstructor; [exact E|]. apply IH. eauto 6.
Qed.
Lemma scan_det : forall c ks1 c1, scan c ks1 c1 -> forall ks2 c2, scan c ks2 c2 ->
  (List.length ks1 <= List.length ks2)%nat -> exists ks, ks2 = ks1 ++ ks /\ scan c1 ks c2.
Proof.
  intros c ks1 c1 H. induction H as [|c t c1 ks c' E H IH]; intros ks2 c2 H2 L; [exists ks2; auto|].
  inversion H2 as [|? t2 c3 ks3 ? E2 H3]; subst; cbn in L; [lia|]. rewrite E in E2. injection E2 as <- <-.
  destruct (IH _ _ H3) as (k & -> & S); [lia|]. exists k. auto.
Qed.

(** ** Forms *)

Lemma guard_field_bits : forall gi gn, guard_field gi gn = guard_bits gi gn.
Proof. reflexivity. Qed.
Lemma bare_word_eq : forall i gi gn, bare_word i gi gn = N.lor (N.shiftl (guard_bits gi gn) 16) (i_opcode i).
Proof. intros. unfold bare_word, place. rewrite N.shiftl_mul_pow2. reflexivity. Qed.

Definition always_names : list string := ["PBK"; "SSY"; "CAL"; "PCNT"].
(** The flag is set for these four mnemonics only, and their opcodes leave the guard field free. *)
Lemma table_nopred : forallb (fun i =>
  Bool.eqb (negb (N.eqb (N.land (i_flags i) NO_PRED) 0)) (existsb (String.eqb (i_mnemonic i)) always_names)
  && N.eqb (N.land (i_opcode i) (range 16 4)) 0) table = true.
Proof. vm_compute. reflexivity. Qed.

Lemma nopred_check : forall i gi gn, In i table -> (gi <= 7)%N ->
  (negb (N.eqb (N.land (i_flags i) NO_PRED) 0)
     && negb (N.eqb (andnot (shl64 7 16) (N.lor (N.shiftl (guard_bits gi gn) 16) (i_opcode i))) 0) = false
   <-> (always_executed (i_mnemonic i) -> gi = 7%N)).
Proof.
  intros i gi gn I G. pose proof (forallb_in _ _ _ _ table_nopred I) as T. cbn beta in T.
  apply andb_true_iff in T as (T1 & T2). apply Bool.eqb_prop in T1. apply N.eqb_eq in T2.
  assert (A : existsb (String.eqb (i_mnemonic i)) always_names = true <-> always_executed (i_mnemonic i)).
  { rewrite existsb_exists. unfold always_executed. split.
    - intros (x & Ix & E). apply String.eqb_eq in E. rewrite E. exact Ix.
    - intros Ix. exists (i_mnemonic i). split; [exact Ix|apply String.eqb_refl]. }
  rewrite T1. clear T1.
  assert (B : N.eqb (andnot (shl64 7 16) (N.lor (N.shiftl (guard_bits gi gn) 16) (i_opcode i))) 0 = N.eqb gi 7).
  { assert (Z16 : N.ldiff (shl64 7 16) (i_opcode i) = shl64 7 16).
    { apply N.bits_inj. intros k. rewrite N.ldiff_spec.
      assert (Q : N.testbit (N.land (i_opcode i) (range 16 4)) k = false) by (rewrite T2; apply N.bits_0).
      rewrite N.land_spec, range_spec in Q.
      destruct (N.testbit (shl64 7 16) k) eqn:E; [|reflexivity].
      assert (Lk : N.testbit (range 16 3) k = true) by (replace (range 16 3) with (shl64 7 16) by reflexivity; exact E).
      rewrite range_spec in Lk. apply andb_true_iff in Lk as (L1 & L2). apply N.leb_le in L1. apply N.ltb_lt in L2.
      destruct (N.testbit (i_opcode i) k); [|reflexivity]. exfalso. cbn in Q.
      destruct (N.leb_spec 16 k); [|lia]. destruct (N.ltb_spec k 20); [|lia]. discriminate. }
    unfold andnot. replace (N.ldiff (shl64 7 16) (N.lor (N.shiftl (guard_bits gi gn) 16) (i_opcode i)))
      with (N.ldiff (N.ldiff (shl64 7 16) (i_opcode i)) (N.shiftl (guard_bits gi gn) 16)).
    2:{ apply N.bits_inj. intros k. rewrite !N.ldiff_spec, N.lor_spec. rewrite negb_orb.
        destruct (N.testbit (shl64 7 16) k), (N.testbit (N.shiftl _ _) k), (N.testbit (i_opcode i) k); reflexivity. }
    rewrite Z16. clear - G.
    assert (C : (gi = 0 \/ gi = 1 \/ gi = 2 \/ gi = 3 \/ gi = 4 \/ gi = 5 \/ gi = 6 \/ gi = 7)%N) by lia.
    repeat (destruct C as [->|C]; [destruct gn; reflexivity|]). subst; destruct gn; reflexivity. }
  rewrite B. destruct (existsb _ _) eqn:E.
  - cbn [andb]. destruct (N.eqb_spec gi 7) as [Q|Q]; cbn [negb].
    + split; [intros _ _; exact Q|reflexivity].
    + split; [discriminate|]. intros H. exfalso. apply Q, H, A. reflexivity.
  - cbn [andb]. split; [|reflexivity]. intros _ X. apply A in X. discriminate.
Qed.

(** A form accepts exactly what it is described to, with the described result. *)
Theorem form_meets : forall ls pc i c gi gn c' op', In i table -> (gi <= 7)%N ->
  ((exists t', parse_insn (Env ls pc false) i c (Opcode (N.shiftl (guard_bits gi gn) 16) 0 0) = Ok (Parsed (St c' t' op'))) <->
   exists ks, scan c ks c' /\ form_spells (find_label ls) pc i gi gn ks op').
Proof.
  intros ls pc i c gi gn c' op' I G.
  pose proof (forallb_in _ _ _ _ table_spec I) as TS. cbn beta in TS. split.
  - intros (t' & H). apply parse_insn_parsed in H as (op1 & t & c1 & [c2 t2 op2] & A & T & NP & R & SC & K).
    unfold add_bits in A. cbn [e_asserts andb value reuse sched] in A. injection A as <-. cbn [value] in NP.
    pose proof (proj1 (nopred_check i gi gn I G) NP) as NP2. clear NP. rename NP2 into NP.
    apply (run_ops_meets _ _ _ TS) in R as (ko & w & r & R1 & R2 & ->); [|eapply token_ok; exact T].
    apply sched_meets in SC as (l & kn & R3 & N1 & N2 & NK & ->). cbn [value reuse] in *.
    unfold s_kind in K. cbn [s_tok] in K.
    exists (ko ++ kn ++ [TSemi]). split.
    + rewrite app_assoc. apply scan_reads. exists t, c1, t'. split; [exact T|]. split; [eapply reads_app; eauto|exact K].
    + exists ko, kn, l, w, r. split; [reflexivity|]. split; [exact NP|]. split; [|rewrite N.lor_0_l; auto].
      rewrite bare_word_eq. rewrite <- K. rewrite <- (reads_hd _ _ _ _ _ R3). exact R2.
  - intros (ks & S & ko & kn & l & w & r & -> & NP & SP & N1 & N2 & ->).
    rewrite app_assoc in S. apply scan_reads in S as (t & c1 & t' & T & R & K).
    apply reads_split in R as (t2 & c2 & R1 & R2). exists t'.
    apply parse_insn_parsed. exists (Opcode (N.lor (N.shiftl (guard_bits gi gn) 16) (i_opcode i)) 0 0), t, c1, (St c2 t2 (Opcode w r 0)).
    split; [reflexivity|]. split; [exact T|]. split; [apply (proj2 (nopred_check i gi gn I G)); exact NP|]. split.
    { apply (run_ops_meets _ _ _ TS); [eapply token_ok; exact T|]. exists ko, w, r. split; [exact R1|].
      rewrite <- bare_word_eq. rewrite (reads_hd _ _ _ _ _ R2), K. auto. }
    split; [|exact K]. apply sched_meets. exists l, kn. split; [exact R2|]. split; [exact N1|]. split; [exact N2|].
    split; [rewrite K; discriminate|]. reflexivity.
Qed.

(** ** Instructions *)

Lemma ident_guard : forall t name, kind t = TIdent name -> type_of (kind t) <> ty_at.
Proof. intros t name ->. discriminate. Qed.

(** No earlier form of the same mnemonic can be meant by the text at [c]. *)
Definition first_form (ls : labels) (pc : Z) (gi : N) (gn : bool) (c : cursor) (i : insn) (pre : list insn) : Prop :=
  forall j, In j pre -> i_mnemonic j = i_mnemonic i ->
    ~ exists ks c' op, scan c ks c' /\ form_spells (find_label ls) pc j gi gn ks op.

(** Reading one instruction: options, then the tokens [ks] of an instruction of
    form [i], the first form that fits. *)
Definition instruction_read (ls : labels) (x x' : ctx) (op : opcode) : Prop :=
  exists t c t1 c1 o pre i post kg gi gn cm kf,
    tokenize (c_cur x) = Ok (t, c) /\ kind t <> TNone /\
    parse_options (Datatypes.S (Datatypes.S (List.length (rest c)))) t c (c_opts x) = Ok (t1, c1, o) /\
    table = pre ++ i :: post /\
    guard_tokens gi gn kg /\
    (exists k0 ks0, kg ++ [id (i_mnemonic i)] = k0 :: ks0 /\ kind t1 = k0 /\ scan c1 ks0 cm) /\
    scan cm kf (c_cur x') /\
    form_spells (find_label ls) (bump (c_pc x)) i gi gn kf op /\
    first_form ls (bump (c_pc x)) gi gn cm i pre /\
    x' = Ctx (c_cur x') (bump (c_pc x) + 8) o.

Lemma instruction_false : forall a ls x r, parse_instruction a ls x opcode0 = Ok r ->
  parse_instruction false ls x opcode0 = Ok r.
Proof.
  intros [] ls x r H; [|exact H]. destruct (agrees_instruction table ls x opcode0) as [E|(w & E)].
  - unfold parse_instruction in *. rewrite <- E. exact H.
  - unfold parse_instruction in H. rewrite E in H. discriminate.
Qed.

Theorem instruction_meets : forall a ls x x' op,
  parse_instruction a ls x opcode0 = Ok (Some (x', op)) -> instruction_read ls x x' op.
Proof.
  intros a ls x x' op H. apply instruction_false in H. apply parse_instruction_some in H as
    (t & c & t1 & c1 & o & t2 & c2 & op1 & s & H1 & H2 & H3 & H4 & (name & H5) & H6 & -> & ->).
  pose proof (token_kind_ok _ _ _ H1) as K. pose proof (options_token _ _ _ _ _ _ _ K H3) as K1.
  apply guard_built in H4 as (gi & gn & G & -> & GT); [|exact K1].
  apply parse_table_ok in H6 as (pre & i & post & E & M & P & F).
  assert (I : In i table) by (rewrite E; apply in_elt). apply equal_iff in M.
  destruct s as [c' t' op]. cbn [s_cur s_op].
  destruct (proj1 (form_meets ls (bump (c_pc x)) i c2 gi gn c' op I G)) as (kf & S & FS); [eauto|].
  assert (FF : first_form ls (bump (c_pc x)) gi gn c2 i pre).
  { intros j Ij Ej (ks & cj & oj & Sj & Fj).
    destruct (F j Ij) as (d & n & Q); [apply equal_iff; rewrite Ej; exact M|].
    assert (J : In j table) by (rewrite E; apply in_or_app; left; exact Ij).
    destruct (proj2 (form_meets ls (bump (c_pc x)) j c2 gi gn cj oj J G)) as (tj & Q2); [eauto|]. congruence. }
  destruct GT as [(NT & -> & -> & -> & ->)|(tp & cp & KA & T1 & KP & T2)].
  - exists t, c, t1, c1, o, pre, i, post, [], 7%N, false, c1, kf. do 4 (split; [assumption|]).
    split; [left; auto|]. split; [exists (id (i_mnemonic i)), []; repeat split; [exact M|constructor]|]. auto.
  - exists t, c, t1, c1, o, pre, i, post, [TAt; TPred gi gn], gi, gn, c2, kf. do 4 (split; [assumption|]).
    split; [right; reflexivity|].
    split; [|auto]. exists TAt, [TPred gi gn; id (i_mnemonic i)]. split; [reflexivity|]. split; [exact KA|].
    rewrite <- KP, <- M. econstructor; [exact T1|]. econstructor; [exact T2|constructor].
Qed.

(** Conversely, a text that can be read so is accepted with that result,
    unless an earlier form of the same mnemonic cannot be tried: the text has
    a token that cannot be read, or trying the form is undefined. *)
Definition untried (ls : labels) (pc : Z) (gi : N) (gn : bool) (c : cursor) (j : insn) : Prop :=
  (exists d, parse_insn (Env ls pc false) j c (Opcode (N.shiftl (guard_bits gi gn) 16) 0 0) = Fatal d) \/
  (exists u, parse_insn (Env ls pc false) j c (Opcode (N.shiftl (guard_bits gi gn) 16) 0 0) = Undef u).

Lemma insn_outcome : forall ls pc i c op,
  (exists s, parse_insn (Env ls pc false) i c op = Ok (Parsed s)) \/
  (exists d n, parse_insn (Env ls pc false) i c op = Ok (Failed d n)) \/
  (exists d, parse_insn (Env ls pc false) i c op = Fatal d) \/
  (exists u, parse_insn (Env ls pc false) i c op = Undef u).
Proof.
  intros ls pc i c op. pose proof (insn_clean false (Env ls pc false) i c op) as C.
  pose proof (insn_no_err (Env ls pc false) i c op) as N.
  destruct (parse_insn _ i c op) as [[s|d n]|d|d|w|u|]; eauto 8.
  - exfalso. eapply N. reflexivity.
  - discriminate C.
  - discriminate C.
Qed.

Theorem instruction_complete : forall ls x x' op t c t1 c1 o pre i post kg gi gn cm kf,
  tokenize (c_cur x) = Ok (t, c) -> kind t <> TNone ->
  parse_options (Datatypes.S (Datatypes.S (List.length (rest c)))) t c (c_opts x) = Ok (t1, c1, o) ->
  table = pre ++ i :: post ->
  guard_tokens gi gn kg ->
  (exists k0 ks0, kg ++ [id (i_mnemonic i)] = k0 :: ks0 /\ kind t1 = k0 /\ scan c1 ks0 cm) ->
  scan cm kf (c_cur x') ->
  form_spells (find_label ls) (bump (c_pc x)) i gi gn kf op ->
  first_form ls (bump (c_pc x)) gi gn cm i pre ->
  x' = Ctx (c_cur x') (bump (c_pc x) + 8) o ->
  parse_instruction false ls x opcode0 = Ok (Some (x', op)) \/
  exists j, In j pre /\ i_mnemonic j = i_mnemonic i /\ untried ls (bump (c_pc x)) gi gn cm j.
Proof.
  intros ls x x' op t c t1 c1 o pre i post kg gi gn cm kf H1 H2 H3 E GT (k0 & ks0 & GE & GK & GS) S FS FF XE.
  pose proof (token_kind_ok _ _ _ H1) as K. pose proof (options_token _ _ _ _ _ _ _ K H3) as K1.
  assert (G : exists t2, guard_parsed false t1 c1 opcode0 t2 cm (Opcode (N.shiftl (guard_bits gi gn) 16) 0 0) /\
    kind t2 = id (i_mnemonic i) /\ (gi <= 7)%N).
  { destruct GT as [(-> & -> & ->)| ->].
    - injection GE as <- <-. inversion GS; subst. exists t1. split; [|split; [exact GK|discriminate]].
      left. rewrite GK. split; [discriminate|]. auto.
    - injection GE as <- <-. inversion GS as [|? tp cp ? ? T1 GS1 Q1]; subst.
      inversion GS1 as [|? t2 c2 ? ? T2 GS2 Q2]; subst. inversion GS2; subst.
      match goal with Q : kind tp = TPred gi gn |- _ => rename Q into KP end.
      pose proof (token_ok _ _ _ T1) as KI. rewrite KP in KI. change (gi <= 7)%N in KI.
      exists t2. split; [|auto]. right. exists tp, cp. split; [exact GK|]. split; [exact T1|]. split; [|exact T2].
      unfold assemble_predicate. rewrite KP. cbn [negb andb]. unfold add_bits. cbn [value opcode0 andb reuse sched].
      rewrite (proj1 (guard_word gi gn KI)). reflexivity. }
  destruct G as (t2 & GP & K2 & GI).
  assert (I : In i table) by (rewrite E; apply in_elt).
  destruct (proj2 (form_meets ls (bump (c_pc x)) i cm gi gn (c_cur x') op I GI)) as (t' & P); [eauto|].
  assert (D : (forall j, In j pre -> i_mnemonic j = i_mnemonic i -> exists d n,
      parse_insn (Env ls (bump (c_pc x)) false) j cm (Opcode (N.shiftl (guard_bits gi gn) 16) 0 0) = Ok (Failed d n)) \/
    (exists j, In j pre /\ i_mnemonic j = i_mnemonic i /\ untried ls (bump (c_pc x)) gi gn cm j)).
  { assert (J : forall j, In j pre -> In j table) by (intros j Ij; rewrite E; apply in_or_app; left; exact Ij).
    clear E P. induction pre as [|j pre IH]; [left; intros ? []|].
    destruct IH as [IH|(j' & A & B & C)].
    - intros j' A B. apply FF; [right; exact A|exact B].
    - intros; apply J; now right.
    - destruct (string_dec (i_mnemonic j) (i_mnemonic i)) as [M|M].
      2:{ left. intros j' [<-|A] B; [contradiction|auto]. }
      destruct (insn_outcome ls (bump (c_pc x)) j cm (Opcode (N.shiftl (guard_bits gi gn) 16) 0 0)) as [([cj tj oj] & Q)|[(d & n & Q)|Q]].
      + exfalso. apply (FF j); [now left|exact M|].
        destruct (proj1 (form_meets ls (bump (c_pc x)) j cm gi gn cj oj (J j (or_introl eq_refl)) GI)) as (kj & Q2); eauto.
      + left. intros j' [<-|A] B; eauto.
      + right. exists j. split; [now left|]. split; [exact M|]. exact Q.
    - right. exists j'. split; [now right|]. auto. }
  destruct D as [D|D]; [left|right; exact D].
  apply parse_instruction_some. exists t, c, t1, c1, o, t2, cm, (Opcode (N.shiftl (guard_bits gi gn) 16) 0 0), (St (c_cur x') t' op).
  do 3 (split; [assumption|]). split; [exact GP|]. split; [rewrite K2; eexists; reflexivity|]. split; [|split; [exact XE|reflexivity]].
  apply parse_table_ok. exists pre, i, post. split; [exact E|]. split; [apply equal_iff; exact K2|]. split; [exact P|].
  intros j Ij Ej. apply D; [exact Ij|]. apply equal_iff in Ej. rewrite K2 in Ej. symmetry. apply id_inj. exact Ej.
Qed.

(** ** Programs *)

(** Every instruction of a program is one that is read where the previous one
    ended, at its address. *)
Theorem program_meets : forall a code ls l y k x' op, program a code ls l y ->
  nth_error l k = Some (x', op) ->
  exists x, (x = ctx0 code \/ exists op0, k <> O /\ nth_error l (pred k) = Some (x, op0)) /\
    (k = O -> x = ctx0 code) /\ bump (c_pc x) = addr k /\ instruction_read ls x x' op.
Proof.
  intros a code ls l y k x' op (_ & D & _) NK.
  assert (G : forall x l y, decodes a ls x l y -> forall m, pc_ok x m -> forall k x' op, nth_error l k = Some (x', op) ->
    exists x0, (k = O -> x0 = x) /\ (k <> O -> exists op0, nth_error l (pred k) = Some (x0, op0)) /\
      bump (c_pc x0) = addr (m + k) /\ instruction_read ls x0 x' op).
  { clear. intros x l y D. induction D as [x|x x1 op1 l y P D IH]; intros m PC k x' op NK; [destruct k; discriminate|].
    destruct k as [|k]; cbn [nth_error] in NK.
    - injection NK as <- <-. exists x. split; [auto|]. split; [congruence|]. rewrite Nat.add_0_r. split; [exact PC|].
      eapply instruction_meets; exact P.
    - destruct (IH (Datatypes.S m) (decodes_pc _ _ _ _ _ _ PC P) k x' op NK) as (x0 & A & B & C & R).
      exists x0. split; [discriminate|]. split.
      + intros _. destruct k as [|k]; cbn [pred nth_error].
        * rewrite (A eq_refl). eauto.
        * apply B. discriminate.
      + split; [|exact R]. rewrite C. f_equal. lia. }
  destruct (G _ _ _ D O) with (k := k) (x' := x') (op := op) as (x & A & B & C & R); [reflexivity|exact NK|].
  exists x. split; [|split; [exact A|]; split; [exact C|exact R]].
  destruct k as [|k]; [left; auto|right]. destruct (B ltac:(discriminate)) as (op0 & Q). exists op0. split; [discriminate|exact Q].
Qed.
