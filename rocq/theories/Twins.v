(** * Twins: pairs of instructions with the same word, by running the assembler. *)
From Verif Require Import Base Float Lexer Operand Catalogue Table Parse Assemble Spec SpecOperand SpecInsn SpecSame Bits LexFacts
  SchedFuel Param Reach ParseFacts Outcomes Decode Program Footprint Encode Operands Operands3 Quiet Notes Insn Words Clash Recover
  Sched Fields Demo Same Unique Kin.
From Coq Require Import Lia.
Local Open Scope string_scope.
Local Open Scope list_scope.
Open Scope Z_scope.

Fixpoint walk (a : bool) (fuel : nat) (ls : labels) (x : ctx) : option (list (ctx * opcode) * ctx) :=
  match fuel with
  | O => None
  | S fuel' =>
      match parse_instruction a ls x opcode0 with
      | Ok None => Some ([], x)
      | Ok (Some (x', op)) =>
          match walk a fuel' ls x' with Some (l, y) => Some ((x', op) :: l, y) | None => None end
      | _ => None
      end
  end.
Lemma walk_ok : forall a fuel ls x l y, walk a fuel ls x = Some (l, y) -> decodes a ls x l y.
Proof.
  intros a. induction fuel as [|fuel IH]; intros ls x l y H; [discriminate|]. cbn [walk] in H.
  destruct (parse_instruction a ls x opcode0) as [[(x', op)|]| | | | |] eqn:P; try discriminate.
  - destruct (walk a fuel ls x') as [(l', y')|] eqn:T; [|discriminate]. injection H as <- <-.
    econstructor; [exact P|]. apply IH. exact T.
  - injection H as <- <-. constructor. exact P.
Qed.

(** The tokens before the next ';' and the place after it. *)
Fixpoint to_semi (fuel : nat) (c : cursor) : option (list tkind * cursor) :=
  match fuel with
  | O => None
  | S fuel' =>
      match tokenize c with
      | Ok (t, c1) =>
          match kind t with
          | TSemi => Some ([], c1)
          | k => match to_semi fuel' c1 with Some (ks, c') => Some (k :: ks, c') | None => None end
          end
      | _ => None
      end
  end.
Lemma to_semi_ok : forall fuel c ks c', to_semi fuel c = Some (ks, c') -> scan c (ks ++ [TSemi]) c' /\ ~ In TSemi ks.
Proof.
  induction fuel as [|fuel IH]; intros c ks c' H; [discriminate|]. cbn [to_semi] in H.
  destruct (tokenize c) as [(t, c1)| | | | |] eqn:T; try discriminate.
  assert (D : kind t = TSemi \/ kind t <> TSemi) by (destruct (kind t); ((left; reflexivity) || (right; discriminate))).
  destruct D as [D|D].
  - rewrite D in H. injection H as <- <-. split; [|intros []]. cbn [app]. rewrite <- D. econstructor; [exact T|constructor].
  - assert (H' : match to_semi fuel c1 with Some (ks, c') => Some (kind t :: ks, c') | None => None end = Some (ks, c'))
      by (destruct (kind t); try exact H; contradiction).
    destruct (to_semi fuel c1) as [(ks1, c2)|] eqn:R; [|discriminate]. injection H' as <- <-. apply IH in R as (R1 & R2).
    split; [cbn [app]; econstructor; [exact T|exact R1]|]. intros [E|E]; auto.
Qed.

Definition shown (a : bool) (code : text) (k n : nat) : option (N * bool * list tkind * opcode) :=
  match generate_labels code with
  | Ok ls =>
      match walk a (S (List.length code)) ls (ctx0 code) with
      | Some (l, y) =>
          match nth_error l k with
          | Some (x', op) =>
              let x := match k with O => ctx0 code | S k' => fst (nth k' l (ctx0 code, op)) end in
              match front (c_cur x) with
              | Some (gi, gn, m, cm) =>
                  match to_semi (S (List.length code)) cm, parse_insn (Env ls (addr k) false) (form n) cm (Opcode (N.shiftl (guard_bits gi gn) 16) 0 0) with
                  | Some (ks, c'), Ok (Parsed s) =>
                      if Nat.ltb n (List.length table) && (negb a || Nat.eqb (List.length l) (semis code)) && text_same m (lit (i_mnemonic (form n))) &&
                        cursor_same (s_cur s) (c_cur x') && N.eqb (value (s_op s)) (value op) &&
                        N.eqb (reuse (s_op s)) (reuse op) && N.eqb (sched (s_op s)) (sched op)
                      then Some (gi, gn, ks, op) else None
                  | _, _ => None
                  end
              | None => None
              end
          | None => None
          end
      | None => None
      end
  | _ => None
  end.
Lemma shown_ok : forall a code k n gi gn ks op, shown a code k n = Some (gi, gn, ks, op) ->
  exists ls, generate_labels code = Ok ls /\ assembled a code ls k (form n) gi gn (ks ++ [TSemi]) op.
Proof.
  intros a code k n gi gn ks op H. unfold shown in H. destruct (generate_labels code) as [ls| | | | |] eqn:GL; try discriminate.
  destruct (walk _ _ ls (ctx0 code)) as [(l, y)|] eqn:T; [|discriminate]. apply walk_ok in T.
  destruct (nth_error l k) as [(x', op')|] eqn:NK; [|discriminate]. cbv zeta in H.
  set (x := match k with O => ctx0 code | S k' => fst (nth k' l (ctx0 code, op')) end) in *.
  destruct (front (c_cur x)) as [(((gi', gn'), m), cm)|] eqn:FR; [|discriminate].
  apply front_ok in FR as (kg & GT & S1 & G).
  destruct (to_semi _ cm) as [(ks', c')|] eqn:TS; [|discriminate]. apply to_semi_ok in TS as (TS & NS).
  destruct (parse_insn _ _ cm _) as [[s|]| | | | |] eqn:PI; try discriminate.
  destruct (_ && _) eqn:B in H; [|discriminate]. injection H as -> -> -> ->. rewrite !andb_true_iff in B.
  destruct B as ((((((B1 & B2) & B3) & Q1) & Q2) & Q3) & Q4). apply Nat.ltb_lt in B1.
  assert (I : In (form n) table) by (apply nth_In; exact B1). clear B1. generalize dependent (form n). intros i PI B3 I.
  unfold text_same in B3. destruct (list_eq_dec ascii_dec m (lit (i_mnemonic i))) as [->|]; [|discriminate].
  apply cursor_same_eq in Q1. apply N.eqb_eq in Q2, Q3, Q4. destruct s as [c2 t' op']. cbn [s_cur s_op] in *. subst c2.
  assert (op' = op) as -> by (destruct op', op; cbn in *; subst; reflexivity).
  destruct (proj1 (form_meets ls (addr k) i cm gi gn (c_cur x') op I G)) as (kf & S2 & FS); [eauto|].
  assert (kf = ks ++ [TSemi]) as ->.
  { pose proof FS as (ko & kn & notes & w & r & -> & _ & SP & NT & _). rewrite app_assoc in *.
    destruct (scan_same _ _ _ _ _ S2 TS) as (-> & _); [|exact NS|reflexivity].
    rewrite in_app_iff. intros [J|J]; [|exact (notes_no_semi _ _ NT J)].
    exact (unmarked_semi _ (spell_list_unmarked _ _ _ _ _ _ _ _ (form_free _ I) SP) J). }
  exists ls. split; [reflexivity|].
  exists l, y, x', (c_cur x), kg. split; [split; [exact GL|]; split; [exact T|]|].
  { intros ->. cbn [negb orb] in B2. apply Nat.eqb_eq in B2. exact B2. }
  split; [exact NK|]. split; [exact I|]. split.
  - assert (D : Forall (fun p => reached (c_cur (ctx0 code)) (c_cur (fst p))) l) by (eapply decodes_reached; exact T).
    rewrite Forall_forall in D. subst x. destruct k as [|k']; [apply reached_refl|]. apply (D (nth k' l (ctx0 code, op))). apply nth_In.
    assert (Datatypes.S k' < List.length l)%nat by (apply nth_error_Some; congruence). lia.
  - split; [exact GT|]. split; [|exact FS].
    replace (kg ++ id (i_mnemonic i) :: ks ++ [TSemi]) with ((kg ++ [id (i_mnemonic i)]) ++ ks ++ [TSemi]) by (rewrite <- app_assoc; reflexivity).
    eapply scan_app; [exact S1|exact S2].
Qed.

(** ** Telling operands apart *)

(** What [same] needs at least. *)
Definition regs (k k' : list tkind) : bool :=
  match k, k' with
  | TReg n :: r, TReg n' :: r' => N.eqb n n' && mem r [[]; [id ".reuse"]] && mem r' [[]; [id ".reuse"]]
  | _, _ => false
  end.
Definition opens (k : list tkind) : bool := match k with TLbrack :: _ => true | _ => false end.
Definition could (o : opnd) (k k' : list tkind) : bool :=
  match o with
  | OComma => mem k [[TComma]] && mem k' [[TComma]]
  | OFlag s _ => mem k [[]; [id s]] && mem k [k']
  | OReqText s _ _ => mem k [[id s]] && mem k' [[id s]]
  | OGpr _ | OMirrorGpr _ => regs k k'
  | OMemAddress _ _ _ _ => opens k && opens k'
  | ODotTable _ _ _ => (List.length k <=? 1)%nat && (List.length k' <=? 1)%nat && (mem k [k'] || mem k (defaults o) && mem k' (defaults o))
  | OLabel | OFimm _ | ODimm | OHalf _ _ _ | OLdcAddress | OPatchAttr | OPhysAttr | OAbs _ _ => true
  | _ => mem k [k'] || mem k (defaults o) && mem k' (defaults o)
  end.
Fixpoint could_all (ops : list opnd) (ks ks' : list tkind) : bool :=
  match ops with
  | [] => match ks, ks' with [], [] => true | _, _ => false end
  | o :: ops =>
      existsb (fun n => existsb (fun n' =>
        if could o (firstn n ks) (firstn n' ks') then could_all ops (skipn n ks) (skipn n' ks') else false) (seq 0 (S (List.length ks'))))
        (seq 0 (S (List.length ks)))
  end.
Lemma in_mem : forall k l, In k l -> mem k l = true.
Proof. intros k l I. apply existsb_exists. exists k. split; [exact I|]. destruct (list_eq_dec kind_dec k k); [reflexivity|contradiction]. Qed.
Lemma same_could : forall q lab lab' pc pc' o k k', written lab pc o k -> written lab' pc' o k' -> same q lab lab' pc pc' o k k' -> could o k k' = true.
Proof.
  intros q lab lab' pc pc' o k k' (w & nx & b & r & W) (w' & nx' & b' & r' & W') H.
  assert (R : same_register q k k' -> regs k k' = true).
  { intros (n & [->| ->] & [->| ->] & _); cbn [regs]; rewrite N.eqb_refl; reflexivity. }
  assert (D : k = k' \/ In k (defaults o) /\ In k' (defaults o) -> mem k [k'] || mem k (defaults o) && mem k' (defaults o) = true).
  { intros [->|(I & I')]; [rewrite in_mem; [reflexivity|left; reflexivity]|]. rewrite !(in_mem _ _ I), !(in_mem _ _ I'). apply orb_true_r. }
  destruct o; cbn [same could] in *; auto.
  - destruct W as (-> & _), W' as (-> & _). reflexivity.
  - apply andb_true_iff. split.
    + destruct W as (_ & [(-> & _)|(-> & _)]); apply in_mem; cbn [In]; auto.
    + destruct H as [->|([] & _)]. apply in_mem. left. reflexivity.
  - rewrite (D H), andb_true_r. apply andb_true_iff.
    split; [destruct W as (_ & [(? & ? & -> & _)|(? & -> & _)])|destruct W' as (_ & [(? & ? & -> & _)|(? & -> & _)])]; reflexivity.
  - destruct W as (-> & _), W' as (-> & _). apply andb_true_iff. split; apply in_mem; left; reflexivity.
  - destruct H as (kr & ki & z & kr' & ki' & z' & -> & -> & _). reflexivity.
Qed.
Lemma same_could_all : forall q lab lab' pc pc' ops ks ks', same_all q lab lab' pc pc' ops ks ks' -> could_all ops ks ks' = true.
Proof.
  intros q lab lab' pc pc' ops ks ks' H. induction H as [|o ops k k' ks ks' W W' S H IH]; [reflexivity|]. cbn [could_all].
  apply existsb_exists. exists (List.length k). split; [apply in_seq; rewrite app_length; lia|].
  apply existsb_exists. exists (List.length k'). split; [apply in_seq; rewrite app_length; lia|].
  rewrite !firstn_app, !skipn_app, !firstn_all, !skipn_all, !Nat.sub_diag. cbn [firstn skipn app]. rewrite !app_nil_r.
  rewrite (same_could _ _ _ _ _ _ _ _ W W' S). exact IH.
Qed.
Definition markless (ks : list tkind) : bool := forallb (fun k => match k with TAt => false | _ => true end) ks.
Lemma markless_in : forall ks, markless ks = true -> ~ In TAt ks.
Proof. intros ks H I. unfold markless in H. rewrite forallb_forall in H. specialize (H _ I). discriminate. Qed.
Lemma differ : forall q lab lab' pc pc' i ks ks', markless ks = true -> markless ks' = true -> could_all (i_operands i) ks ks' = false ->
  ~ same_operands q lab lab' pc pc' i (ks ++ [TSemi]) (ks' ++ [TSemi]).
Proof.
  intros q lab lab' pc pc' i ks ks' M M' C (ko & kn & ko' & kn' & notes & notes' & E & E' & NT & NT' & S).
  assert (X : forall ks ko kn notes, markless ks = true -> ks ++ [TSemi] = ko ++ kn ++ [TSemi] -> notes_tokens notes kn -> ks = ko).
  { clear. intros ks ko kn notes M E NT. rewrite app_assoc in E. apply app_inj_tail in E as (-> & _).
    inversion NT as [|x l' k kn' T N]; subst; [apply app_nil_r|]. apply note_hd in T as (k' & ->). exfalso.
    apply (markless_in _ M). apply in_or_app. right. left. reflexivity. }
  rewrite (X _ _ _ _ M E NT), (X _ _ _ _ M' E' NT') in C. apply same_could_all in S. congruence.
Qed.

(** ** Instructions with the same word that say different things *)

(** The first two instructions of the text have the form [i], the same word and
    the same reuse bits but not the same operands; the first has the token [k]. *)
Definition lost (a : bool) (s : string) (i : insn) (k : tkind) : Prop :=
  exists ls gi gn kf kf' op op', assembled a (lit s) ls 0 i gi gn kf op /\ assembled a (lit s) ls 1 i gi gn kf' op' /\
    value op = value op' /\ reuse op = reuse op' /\ In k kf /\
    ~ same_operands false (find_label ls) (find_label ls) (addr 0) (addr 1) i kf kf'.
Definition lost_b (a : bool) (s : string) (n : nat) (k : tkind) : bool :=
  match shown a (lit s) 0 n, shown a (lit s) 1 n with
  | Some (gi, gn, ks, op), Some (gi', gn', ks', op') =>
      N.eqb gi gi' && Bool.eqb gn gn' && N.eqb (value op) (value op') && N.eqb (reuse op) (reuse op') &&
      existsb (fun k' => if kind_dec k k' then true else false) ks &&
      markless ks && markless ks' && negb (could_all (i_operands (form n)) ks ks')
  | _, _ => false
  end.
Lemma lost_ok : forall a s n k, lost_b a s n k = true -> lost a s (form n) k.
Proof.
  intros a s n k H. unfold lost_b in H. destruct (shown a (lit s) 0 n) as [(((gi, gn), ks), op)|] eqn:A; [|discriminate].
  destruct (shown a (lit s) 1 n) as [(((gi', gn'), ks'), op')|] eqn:B; [|discriminate].
  apply shown_ok in A as (ls & G & A). apply shown_ok in B as (ls' & G' & B). rewrite G in G'. injection G' as <-.
  rewrite !andb_true_iff in H. destruct H as (((((((H1 & H2) & H3) & H4) & H5) & H6) & H7) & H8).
  apply N.eqb_eq in H1, H3, H4. apply eqb_prop in H2. subst gi' gn'.
  apply existsb_exists in H5 as (k' & I & E). destruct (kind_dec k k') as [<-|]; [|discriminate].
  apply negb_true_iff in H8. exists ls, gi, gn, (ks ++ [TSemi]), (ks' ++ [TSemi]), op, op'.
  split; [exact A|]. split; [exact B|]. split; [exact H3|]. split; [exact H4|]. split; [apply in_or_app; left; exact I|].
  apply differ; assumption.
Qed.

(** For each form and each of its unclear tokens. *)
Definition losses : list (nat * tkind * bool * string) :=
  [(139%nat, id ".PO", true, "IADD.PO R0, R1, R2; IADD R0, -R1, -R2;");
   (140%nat, id ".PO", true, "IADD.PO R0, R1, c[0x0][0x4]; IADD R0, -R1, -c[0x0][0x4];");
   (141%nat, id ".PO", false, "IADD.PO R0, R1, 5; IADD.PO R0, -R1, 5;");
   (142%nat, id ".PO", false, "IADD32I.PO R0, R1, 5; IADD32I.PO R0, -R1, 5;");
   (145%nat, TImm (2 ^ 20), true, "IADD3 R0, R1, 1048576, R2; IADD3 R0, R1, 524288, R3;");
   (153%nat, id ".PO", true, "ISCADD.PO R0, R1, R2, 3; ISCADD R0, -R1, -R2, 3;");
   (154%nat, id ".PO", true, "ISCADD.PO R0, R1, c[0x0][0x4], 3; ISCADD R0, -R1, -c[0x0][0x4], 3;");
   (155%nat, id ".PO", false, "ISCADD.PO R0, R1, 5, 3; ISCADD.PO R0, -R1, 5, 3;");
   (223%nat, id ".BA", false, "SUST.D.BA.2D [R0], R1, R2; SUST.D.2D [R0], R1, R2;");
   (224%nat, id ".BA", false, "SUST.D.BA.2D [R0], R1, 3; SUST.D.2D [R0], R1, 3;");
   (230%nat, id ".PO", true, "VMAD.PO R0, R1, R2, R3; VMAD R0, -R1, R2, -R3;");
   (230%nat, id ".B2", false, "VMAD R0, R1.B2, R2, R3; VMAD R0, R1, R2, R3;");
   (230%nat, id ".B3", false, "VMAD R0, R1.B3, R2, R3; VMAD R0, R1.B1, R2, R3;");
   (231%nat, id ".PO", true, "VMAD.PO R0, R1, 5, R3; VMAD R0, -R1, 5, -R3;");
   (231%nat, id ".B2", false, "VMAD R0, R1.B2, 5, R3; VMAD R0, R1, 5, R3;");
   (231%nat, id ".B3", false, "VMAD R0, R1.B3, 5, R3; VMAD R0, R1.B1, 5, R3;");
   (232%nat, id ".B2", false, "VMNMX R0, R1.B2, R2, R3; VMNMX R0, R1, R2, R3;");
   (232%nat, id ".B3", false, "VMNMX R0, R1.B3, R2, R3; VMNMX R0, R1.B1, R2, R3;");
   (233%nat, id ".B2", false, "VMNMX R0, R1.B2, 5, R3; VMNMX R0, R1, 5, R3;");
   (233%nat, id ".B3", false, "VMNMX R0, R1.B3, 5, R3; VMNMX R0, R1.B1, 5, R3;");
   (234%nat, id ".", true, "VSETP. .AND P0, PT, R1, R2, PT; VSETP.F.OR P0, PT, R1, R2, PT;");
   (234%nat, id ".B2", false, "VSETP.F.AND P0, PT, R1.B2, R2, PT; VSETP.F.AND P0, PT, R1, R2, PT;");
   (234%nat, id ".B3", false, "VSETP.F.AND P0, PT, R1.B3, R2, PT; VSETP.F.AND P0, PT, R1.B1, R2, PT;");
   (235%nat, id ".", true, "VSETP. .AND P0, PT, R1, 5, PT; VSETP.F.OR P0, PT, R1, 5, PT;");
   (235%nat, id ".B2", false, "VSETP.F.AND P0, PT, R1.B2, 5, PT; VSETP.F.AND P0, PT, R1, 5, PT;");
   (235%nat, id ".B3", false, "VSETP.F.AND P0, PT, R1.B3, 5, PT; VSETP.F.AND P0, PT, R1.B1, 5, PT;")].

Definition all_lost : bool :=
  forallb (fun n => forallb (fun k =>
    existsb (fun p => match p with (n', k', a, s) =>
      if Nat.eqb n n' then if kind_dec k k' then lost_b a s n k else false else false end) losses)
    (unclear_tokens (form n))) (seq 0 (List.length table)).
Lemma all_lost_true : all_lost = true.
Proof. vm_compute. reflexivity. Qed.
Theorem unclear_lost : forall i k, In i table -> In k (unclear_tokens i) -> exists a s, lost a s i k.
Proof.
  intros i k I K. apply (In_nth _ _ (Insn 0 0 "" [])) in I as (n & L & <-). fold (form n) in *.
  pose proof all_lost_true as A. unfold all_lost in A. rewrite forallb_forall in A.
  specialize (A n). rewrite forallb_forall in A. specialize (A (proj2 (in_seq _ _ _) (conj (Nat.le_0_l _) L)) k K).
  apply existsb_exists in A as ((((n', k'), a), s) & _ & A). destruct (Nat.eqb n n'); [|discriminate].
  destruct (kind_dec k k'); [|discriminate]. exists a, s. apply lost_ok. exact A.
Qed.

(** Two instructions of the forms [n] and [n'] in one text with the same word. *)
Definition twins_b (a : bool) (s : string) (n n' : nat) (ks ks' : list tkind) : bool :=
  match shown a (lit s) 0 n, shown a (lit s) 1 n' with
  | Some (gi, gn, k, op), Some (gi', gn', k', op') =>
      N.eqb gi gi' && Bool.eqb gn gn' && N.eqb (value op) (value op') && N.eqb (reuse op) (reuse op') && mem k [ks] && mem k' [ks']
  | _, _ => false
  end.
Lemma mem_one : forall k l, mem k [l] = true -> k = l.
Proof. intros k l H. apply existsb_exists in H as (x & [->|[]] & H). destruct (list_eq_dec kind_dec k x); [assumption|discriminate]. Qed.
Lemma twins_ok : forall a s n n' ks ks', twins_b a s n n' ks ks' = true ->
  exists ls gi gn op op', assembled a (lit s) ls 0 (form n) gi gn (ks ++ [TSemi]) op /\ assembled a (lit s) ls 1 (form n') gi gn (ks' ++ [TSemi]) op' /\
    value op = value op' /\ reuse op = reuse op'.
Proof.
  intros a s n n' ks ks' H. unfold twins_b in H. destruct (shown a (lit s) 0 n) as [(((gi, gn), k), op)|] eqn:A; [|discriminate].
  destruct (shown a (lit s) 1 n') as [(((gi', gn'), k'), op')|] eqn:B; [|discriminate].
  apply shown_ok in A as (ls & G & A). apply shown_ok in B as (ls' & G' & B). rewrite G in G'. injection G' as <-.
  rewrite !andb_true_iff in H. destruct H as (((((H1 & H2) & H3) & H4) & H5) & H6).
  apply N.eqb_eq in H1, H3, H4. apply eqb_prop in H2. apply mem_one in H5, H6. subst. exists ls, gi', gn', op, op'. auto.
Qed.
