(** * Writable: every form can be written, and every word of its operands. *)
From Verif Require Import Base Float Lexer Operand Catalogue Table Parse Assemble Spec LexFacts SchedFuel Param Reach ParseFacts
  Outcomes Decode Program Footprint Encode Emit Layout SpecOperand SpecInsn SpecOpts Operands Operands3 Notes Insn
  SpecLex Lexemes Stream SpecContainer SpecProgram Language SpecLink Link SpecWritable.
From Coq Require Import Lia.
Local Open Scope string_scope.
Local Open Scope list_scope.
Open Scope Z_scope.

(** ** A way to write every operand *)

Definition pick (k : nat) (l : list string) : string := nth (k mod S (List.length l)) ("" :: l) "".
Fixpoint sample (k : nat) (o : opnd) : string :=
  match o with
  | OComma => ", "
  | OFlag _ _ | OPo _ _ | OOptText _ | OOptType _ _ | OSelector _ _ _ _ | OF2fRounding | OXmadSigns | OLdgSize
  | OAtomicSize _ | ODefaultRz _ | OCcTests _ _ => ""
  | OTexsMode _ => pick k [".LZ"; ".LL"; ".DC"]
  | OSrcFormat _ _ => pick k [".S16"; ".U8"]
  | OUint _ _ | OInt _ _ | OImm20 | OUimmExtended | OZero => "0"
  | ODotTable (Some _) _ tbl => pick k (dot tbl)
  | ODotTable None _ tbl => nth k (dot tbl) ""
  | OReqTable p _ tbl _ => nth k (words_of o) ""
  | OReqText s _ _ | OReqTextAfter s _ _ _ => s
  | OLabel => "16"
  | OGpr _ | OMirrorGpr _ => if Nat.eqb k 0 then "RZ" else "R2"
  | OCbuf => "c[1][4]"
  | OFimm _ | ODimm | OHalf _ _ _ => "1.0"
  | OPred _ _ | OInvPred _ => "P1"
  | OAbs _ o => sample k o
  | OMemAddress _ _ _ _ => "[R1]"
  | OImmAttr => "a[0]" | OPatchAttr => "a[R1+4]" | OPhysAttr => "a[R1]"
  | OIntFormat _ _ _ _ _ => nth k (words_of o) ""
  | OLdcAddress => "c[1][R1]"
  | OS2r _ => "SR_TID.X"
  | OTexType _ | OTldsType _ | OTexsType _ => "2D"
  | OTexsSwizzle => if Nat.eqb k 0 then "G" else "RGB"
  end%string.
(** The operand written with the word [s]. *)
Definition one_of (s : string) (l : list string) : bool := existsb (String.eqb s) l.
Fixpoint shown (o : opnd) (s : string) : string :=
  match o with
  | OXmadSigns => ".S16 .U16"
  | OLdgSize => if String.eqb s ".U" then ".U.128" else s
  | OAtomicSize _ => if String.eqb s ".F16x2" then ".F16x2.RN" else if one_of s [".F32"; ".FTZ"; ".RN"] then ".F32.FTZ.RN" else s
  | OCcTests _ _ => if String.eqb s "CC" then "CC.T" else "CC" ++ s
  | OS2r _ => if String.eqb s "SR_CTAID" then "SR_CTAID.X" else if one_of s [".X"; ".Y"; ".Z"] then "SR_TID" ++ s else s
  | OAbs _ o => shown o s
  | OCbuf | OLdcAddress | OImmAttr | OPatchAttr | OPhysAttr => sample 0 o
  | _ => s
  end%string.
(** Operands at even and odd places are varied separately. *)
Fixpoint samples (k1 k2 : nat) (l : list opnd) : list string :=
  match l with [] => [] | o :: l => sample k1 o :: samples k2 k1 l end.
Definition with_words (i : insn) (l : list string) : text := lit (i_mnemonic i ++ " " ++ String.concat " " l ++ ";").
Definition variation : list (nat * nat) :=
  [(0, 0); (1, 1); (0, 1); (1, 0); (2, 2); (2, 0); (0, 2); (2, 1); (1, 2); (3, 3); (0, 3); (3, 0); (4, 4); (5, 5); (6, 6); (0, 4); (4, 0); (0, 5); (5, 0); (0, 6); (6, 0)]%nat.

(** ** The check *)

Definition env0 : env := Env [] 8 false.
Definition op7 : opcode := Opcode (N.shiftl (guard_bits 7 false) 16) 0 0.
Definition is_parsed (r : res attempt) : bool := match r with Ok (Parsed _) => true | _ => false end.
Definition no_nul (t : text) : bool := forallb (fun ch => negb (Ascii.eqb ch NUL)) t.
Definition gives (d : bool) (code : text) (v : N) : bool :=
  match assemble d code with Ok w => match nth_error w 1 with Some x => N.eqb x v | None => false end | _ => false end.
Definition ended (c : cursor) : bool :=
  match tokenize c with Ok (Token TNone _ _, _) => true | _ => false end.
Definition is_semi (t : token) : bool := match kind t with TSemi => true | _ => false end.
(** The tokens from [t] on, up to the cursor [c']. *)
Fixpoint between (n : nat) (t : token) (c c' : cursor) : list tkind :=
  match n with
  | O => []
  | S n => if Nat.eqb (List.length (rest c)) (List.length (rest c')) then []
           else match tokenize c with Ok (t1, c1) => kind t :: between n t1 c1 c' | _ => [] end
  end.
Definition is_word (s : string) (k : tkind) : bool := match k with TIdent t => text_eqb t (lit s) | _ => false end.

(** [tries both sibs i ok code]: the text is an instruction of the form [i], of none of [sibs], and [ok] accepts it. *)
Definition tries (both : bool) (sibs : list insn) (i : insn) (ok : cursor -> token -> N -> option st) (code : text) : bool :=
  match tokenize (Cursor code 0 0) with
  | Ok (t, c) =>
      if negb (is_word (i_mnemonic i) (kind t)) then false else
      match tokenize c with
      | Ok (t1, c1) =>
          match ok c1 t1 (bare_word i 7 false) with
          | Some s =>
              if negb (is_semi (s_tok s)) then false else
              if negb (ended (s_cur s)) then false else
              if negb (no_nul code) then false else
              if existsb (fun j => is_parsed (parse_insn env0 j c op7)) sibs then false else
              if negb (gives false code (value (s_op s))) then false else
              if both then gives true code (value (s_op s)) else true
          | None => false
          end
      | _ => false
      end
  | _ => false
  end.
Definition result (r : res st) : option st := match r with Ok s => Some s | _ => None end.
Definition whole (ops : list opnd) (c : cursor) (t : token) (w : N) : option st := result (run_ops env0 ops (St c t (Opcode w 0 0))).
Definition split_at (a : list opnd) (o : opnd) (b : list opnd) (s : string) (c : cursor) (t : token) (w : N) : option st :=
  match run_ops env0 a (St c t (Opcode w 0 0)) with
  | Ok s1 => match run_operand env0 o s1 with
      | Ok s2 => if existsb (is_word s) (between 9 (s_tok s1) (s_cur s1) (s_cur s2)) then result (run_ops env0 b s2) else None
      | _ => None end
  | _ => None
  end.
Fixpoint first_of {A} (f : A -> bool) (l : list A) : bool := match l with [] => false | x :: l => if f x then true else first_of f l end.
Definition check_form (sibs : list insn) (i : insn) : bool :=
  first_of (fun k => tries true sibs i (whole (i_operands i)) (with_words i (samples (fst k) (snd k) (i_operands i)))) variation.
Definition check_word (sibs : list insn) (i : insn) (a : list opnd) (o : opnd) (b : list opnd) (s : string) : bool :=
  if String.eqb s "R" then true else
  first_of (fun k => tries false sibs i (split_at a o b s)
    (with_words i (samples (fst k) (snd k) a ++ shown o s :: samples (fst k) (snd k) b))) variation.
Fixpoint check_words (sibs : list insn) (i : insn) (a b : list opnd) : bool :=
  match b with
  | [] => true
  | o :: b => if forallb (check_word sibs i a o b) (words_of o) then check_words sibs i (a ++ [o]) b else false
  end.
Definition siblings (pre : list insn) (i : insn) : list insn := filter (fun j => String.eqb (i_mnemonic j) (i_mnemonic i)) pre.
Fixpoint check_table (f : list insn -> insn -> bool) (pre l : list insn) : bool :=
  match l with
  | [] => true
  | i :: l => if f (siblings pre i) i then check_table f (pre ++ [i]) l else false
  end.

(** ** What it shows *)

Lemma first_of_some : forall A (f : A -> bool) l, first_of f l = true -> exists x, f x = true.
Proof. intros A f l. induction l as [|x l IH]; cbn [first_of]; [discriminate|]. destruct (f x) eqn:E; [eauto|exact IH]. Qed.
Lemma is_word_id : forall s k, is_word s k = true -> k = id s.
Proof. intros s k H. destruct k; try discriminate. apply text_eqb_eq in H. subst. reflexivity. Qed.
Lemma no_nul_in : forall t, no_nul t = true -> ~ In NUL t.
Proof. intros t H I. unfold no_nul in H. rewrite forallb_forall in H. apply H in I. rewrite Ascii.eqb_refl in I. discriminate. Qed.
Lemma gives_some : forall d code v, gives d code v = true -> exists w, assemble d code = Ok w /\ nth_error w 1 = Some v.
Proof.
  unfold gives. intros d code v H. destruct (assemble d code) as [w| | | | |]; try discriminate. exists w. split; [reflexivity|].
  destruct (nth_error w 1) as [x|]; [|discriminate]. apply N.eqb_eq in H. congruence.
Qed.
Lemma ended_end : forall c, ended c = true -> at_end c.
Proof. unfold ended. intros c H. destruct (tokenize c) as [([[] l k], c')| | | | |] eqn:E; try discriminate. eexists _, _. split; [exact E|reflexivity]. Qed.
Lemma is_semi_kind : forall t, is_semi t = true -> kind t = TSemi.
Proof. unfold is_semi. intros t H. destruct (kind t); try discriminate. reflexivity. Qed.
Lemma between_in : forall t c ks t' c', reads t c ks t' c' -> forall n k, In k (between n t c c') -> In k ks.
Proof.
  intros t c ks t' c' H. induction H as [t c|t c k t1 c1 ks t' c' K T H IH]; intros n x I.
  - destruct n; cbn [between] in I; [contradiction|]. rewrite Nat.eqb_refl in I. contradiction.
  - destruct n; cbn [between] in I; [contradiction|]. destruct (Nat.eqb _ _); [contradiction|]. rewrite T in I.
    destruct I as [<-|I]; [left; congruence|right; exact (IH _ _ I)].
Qed.
Lemma reads_hd : forall t c ks t' c', reads t c ks t' c' -> kind t = hd (kind t') ks.
Proof. intros t c ks t' c' H. destruct H; [reflexivity|assumption]. Qed.
Lemma reads_join : forall t c ks1 t1 c1, reads t c ks1 t1 c1 -> forall ks2 t2 c2, reads t1 c1 ks2 t2 c2 -> reads t c (ks1 ++ ks2) t2 c2.
Proof. intros t c ks1 t1 c1 H. induction H; intros; cbn [app]; [assumption|]. econstructor; eauto. Qed.
Lemma reads_ok : forall t c ks t' c', reads t c ks t' c' -> kind_ok (kind t) -> kind_ok (kind t').
Proof. intros t c ks t' c' H. induction H as [|t c k t1 c1 ks t' c' K T H IH]; intros O; [exact O|]. apply IH. eapply token_kind_ok; eassumption. Qed.
Lemma spell_list_join : forall lab pc nx b k2 w2 r2 a w k1 w1 r1, spell_list lab pc (hd nx k2) a w k1 w1 r1 -> spell_list lab pc nx b w1 k2 w2 r2 ->
  exists r, spell_list lab pc nx (a ++ b) w (k1 ++ k2) w2 r.
Proof.
  intros lab pc nx b k2 w2 r2 a w k1 w1 r1 H. induction H as [w|o ops w ks1 ks2 bb ra rb w' S H IH]; intros B; cbn [app]; [eauto|].
  destruct (IH B) as (r & X). rewrite <- app_assoc. eexists. econstructor; [|exact X].
  replace (hd nx (ks2 ++ k2)) with (hd (hd nx k2) ks2) by (destruct ks2; reflexivity). exact S.
Qed.

(** What [tries] finds, when [ok] reads the tokens of the operands. *)
Lemma tries_ok : forall (P : list tkind -> N -> Prop) both pre i ok code,
  In i table -> (forall j, In j pre -> In j table) ->
  (forall c t s, kind_ok (kind t) -> ok c t (bare_word i 7 false) = Some s -> kind (s_tok s) = TSemi ->
     exists ks, reads t c ks (s_tok s) (s_cur s) /\ P ks (value (s_op s))) ->
  tries both (siblings pre i) i ok code = true ->
  exists ks v ts w, P ks v /\ lexes code 0 ts /\ map fst ts = id (i_mnemonic i) :: ks ++ [TSemi] /\ no_earlier pre i (ks ++ [TSemi]) /\
    assemble false code = Ok w /\ nth_error w 1 = Some v /\ (both = true -> exists w', assemble true code = Ok w' /\ nth_error w' 1 = Some v).
Proof.
  intros P both pre i ok code II IP OK H. unfold tries in H.
  destruct (tokenize (Cursor code 0 0)) as [(t, c)| | | | |] eqn:T; try discriminate.
  destruct (is_word _ _) eqn:M; [|discriminate]. cbn [negb] in H. apply is_word_id in M.
  destruct (tokenize c) as [(t1, c1)| | | | |] eqn:T1; try discriminate.
  destruct (ok c1 t1 (bare_word i 7 false)) as [s|] eqn:K; [|discriminate].
  destruct (is_semi (s_tok s)) eqn:SE; [|discriminate]. apply is_semi_kind in SE.
  destruct (ended (s_cur s)) eqn:EN; [|discriminate]. apply ended_end in EN.
  destruct (no_nul code) eqn:NN; [|discriminate]. apply no_nul_in in NN. cbn [negb] in H.
  destruct (existsb _ _) eqn:X; [discriminate|].
  destruct (gives false code _) eqn:G; [|discriminate]. cbn [negb] in H. apply gives_some in G as (w & A & V).
  destruct (OK _ _ _ (token_kind_ok _ _ _ T1) K SE) as (ks & R & PP).
  assert (S : scan c (ks ++ [TSemi]) (s_cur s)) by (apply scan_reads; exists t1, c1, (s_tok s); auto).
  assert (S0 : scan (Cursor code 0 0) ((id (i_mnemonic i) :: ks) ++ [TSemi]) (s_cur s)).
  { cbn [app]. rewrite <- M. econstructor; eassumption. }
  pose proof (scan_not_end _ _ _ _ S0 ltac:(discriminate)) as NE. destruct (scan_tokens _ _ _ S0) as (tk & TK & MK).
  rewrite <- MK in NE. pose proof (tokens_lexes _ _ _ TK NN (kinds_some _ NE) EN) as L. cbn [rest line] in L.
  exists ks, (value (s_op s)), (map lined tk), w. split; [exact PP|]. split; [exact L|]. split.
  - rewrite map_map. rewrite <- (map_ext kind) by reflexivity. exact MK.
  - split; [|split; [exact A|]; split; [exact V|]; intros ->; exact (gives_some _ _ _ H)].
    intros j op Ij E F.
    assert (Y : is_parsed (parse_insn env0 j c op7) = true).
    { destruct (proj2 (form_meets [] 8 j c 7 false (s_cur s) op (IP _ Ij) ltac:(lia))) as (t' & Q); [exists (ks ++ [TSemi]); split; [exact S|exact F]|].
      unfold env0, op7. rewrite Q. reflexivity. }
    assert (Z : existsb (fun j => is_parsed (parse_insn env0 j c op7)) (siblings pre i) = true); [|rewrite Z in X; discriminate].
    apply existsb_exists. exists j. split; [|exact Y]. apply filter_In. split; [exact Ij|]. rewrite E. apply String.eqb_refl.
Qed.

Lemma ops_ok : forall i, In i table -> forallb spec_ok (i_operands i) = true.
Proof. intros i I. pose proof table_spec as H. rewrite forallb_forall in H. exact (H _ I). Qed.
Lemma whole_ok : forall i c t s, In i table -> kind_ok (kind t) -> whole (i_operands i) c t (bare_word i 7 false) = Some s -> kind (s_tok s) = TSemi ->
  exists ks, reads t c ks (s_tok s) (s_cur s) /\ exists op, form_spells unlabelled 8 i 7 false (ks ++ [TSemi]) op /\ value op = value (s_op s).
Proof.
  intros i c t s II K H E. unfold whole in H. destruct (run_ops _ _ _) as [s'| | | | |] eqn:R; try discriminate. injection H as ->.
  destruct s as [c' t' op']. apply (run_ops_meets [] 8 _ (ops_ok i II)) in R as (ks & w & r & RD & SP & ->); [|exact K]. cbn [s_tok s_cur s_op value] in *.
  exists ks. split; [exact RD|]. rewrite E in SP. exists (Opcode w r (notes_record [])). split; [|reflexivity]. exists ks, [], [], w, r. split; [reflexivity|]. split; [reflexivity|].
  split; [exact SP|]. split; [constructor|]. split; [constructor|reflexivity].
Qed.
Lemma split_ok : forall i a o b x c t s, In i table -> i_operands i = a ++ o :: b -> kind_ok (kind t) ->
  split_at a o b x c t (bare_word i 7 false) = Some s -> kind (s_tok s) = TSemi ->
  exists ks, reads t c ks (s_tok s) (s_cur s) /\
    exists ka ko kb, ks = ka ++ ko ++ kb /\ In (id x) ko /\ parts i a o b ka ko kb (value (s_op s)).
Proof.
  intros i a o b x c t s II IO K H E. unfold split_at in H. pose proof (ops_ok i II) as SO. rewrite IO, forallb_app in SO.
  apply andb_true_iff in SO as (SA & SO). cbn [forallb] in SO. apply andb_true_iff in SO as (SO & SB).
  destruct (run_ops env0 a _) as [[c1 t1 op1]| | | | |] eqn:R1; try discriminate.
  destruct (run_operand env0 o _) as [[c2 t2 op2]| | | | |] eqn:R2; try discriminate. cbn [s_tok s_cur] in H.
  destruct (existsb _ _) eqn:W; [|discriminate]. destruct (run_ops env0 b _) as [s3| | | | |] eqn:R3; try discriminate. injection H as ->.
  destruct s as [c3 t3 op3]. apply (run_ops_meets [] 8 _ SA) in R1 as (ka & wa & ra & RA & PA & ->); [|exact K].
  pose proof (reads_ok _ _ _ _ _ RA K) as K1.
  apply (operand_meets [] 8 _ SO) in R2; [|exact K1]. destruct R2 as (ko & bo & ro & RO & PO & ->).
  pose proof (reads_ok _ _ _ _ _ RO K1) as K2.
  apply (run_ops_meets [] 8 _ SB) in R3 as (kb & wb & rb & RB & PB & ->); [|exact K2]. cbn [s_tok s_cur s_op value] in *.
  exists (ka ++ ko ++ kb). split; [eapply reads_join; [exact RA|]; eapply reads_join; eassumption|].
  exists ka, ko, kb. split; [reflexivity|]. split.
  - apply existsb_exists in W as (k & I & Q). apply is_word_id in Q. subst. eapply between_in; eassumption.
  - exists wa, ra, bo, ro, rb. rewrite (reads_hd _ _ _ _ _ (reads_join _ _ _ _ _ RO _ _ _ RB)), E in PA.
    rewrite (reads_hd _ _ _ _ _ RB), E in PO. rewrite E in PB. auto.
Qed.

Lemma check_table_at : forall f l pre, check_table f pre l = true -> forall p i q, l = p ++ i :: q -> f (siblings (pre ++ p) i) i = true.
Proof.
  intros f. induction l as [|x l IH]; intros pre H p i q E; [destruct p; discriminate|]. cbn [check_table] in H.
  destruct (f (siblings pre x) x) eqn:F; [|discriminate]. destruct p as [|y p]; cbn [app] in E; injection E as -> E.
  - rewrite app_nil_r. exact F.
  - specialize (IH _ H p i q E). rewrite <- app_assoc in IH. exact IH.
Qed.
Lemma check_words_at : forall sibs i b a, check_words sibs i a b = true -> forall p o q s, b = p ++ o :: q -> In s (words_of o) ->
  check_word sibs i (a ++ p) o q s = true.
Proof.
  intros sibs i. induction b as [|x b IH]; intros a H p o q s E I; [destruct p; discriminate|]. cbn [check_words] in H.
  destruct (forallb _ _) eqn:F; [|discriminate]. destruct p as [|y p]; cbn [app] in E; injection E as -> E.
  - subst. rewrite app_nil_r. rewrite forallb_forall in F. exact (F _ I).
  - specialize (IH _ H p o q s E I). rewrite <- app_assoc in IH. exact IH.
Qed.
Lemma in_table : forall pre (i : insn) post, table = pre ++ i :: post -> In i table /\ forall j, In j pre -> In j table.
Proof. intros pre i post E. rewrite E. split; [apply in_elt|]. intros j I. apply in_or_app. auto. Qed.

Lemma forms_checked : check_table check_form [] table = true.
Proof. vm_compute. reflexivity. Qed.
Lemma words_checked : check_table (fun sibs i => check_words sibs i [] (i_operands i)) [] table = true.
Proof. vm_compute. reflexivity. Qed.

Theorem every_form : forall pre i post, table = pre ++ i :: post ->
  exists code ts kf op w w', lexes code 0 ts /\ map fst ts = id (i_mnemonic i) :: kf /\
    form_spells unlabelled 8 i 7 false kf op /\ no_earlier pre i kf /\
    assemble false code = Ok w /\ nth_error w 1 = Some (value op) /\ assemble true code = Ok w' /\ nth_error w' 1 = Some (value op).
Proof.
  intros pre i post E. destruct (in_table _ _ _ E) as (II & IP). pose proof (check_table_at _ _ _ forms_checked _ _ _ E) as H. cbn [app] in H.
  unfold check_form in H. apply first_of_some in H as (k & H).
  eapply (tries_ok (fun ks v => exists op, form_spells unlabelled 8 i 7 false (ks ++ [TSemi]) op /\ value op = v)) in H; [|exact II|exact IP|].
  - destruct H as (ks & v & ts & w & (op & F & <-) & L & M & NE & A & V & B). destruct (B eq_refl) as (w' & A' & V').
    eexists _, ts, _, op, w, w'. repeat (split; [eassumption|]). exact V'.
  - intros c t s K R SE. eapply whole_ok; eassumption.
Qed.
Theorem every_word : forall pre i post a o b s, table = pre ++ i :: post -> i_operands i = a ++ o :: b -> In s (words_of o) -> s <> "R" ->
  exists code ts ka ks kb v w, lexes code 0 ts /\ map fst ts = id (i_mnemonic i) :: ka ++ ks ++ kb ++ [TSemi] /\
    parts i a o b ka ks kb v /\ In (id s) ks /\ no_earlier pre i (ka ++ ks ++ kb ++ [TSemi]) /\
    assemble false code = Ok w /\ nth_error w 1 = Some v.
Proof.
  intros pre i post a o b s E IO IS NR. destruct (in_table _ _ _ E) as (II & IP).
  pose proof (check_table_at _ _ _ words_checked _ _ _ E) as H. cbn [app] in H.
  pose proof (check_words_at _ _ _ _ H _ _ _ _ IO IS) as W. cbn [app] in W. unfold check_word in W.
  destruct (String.eqb_spec s "R") as [X|_]; [contradiction|]. apply first_of_some in W as (k & W).
  eapply (tries_ok (fun ks v => exists ka ko kb, ks = ka ++ ko ++ kb /\ In (id s) ko /\ parts i a o b ka ko kb v)) in W; [|exact II|exact IP|].
  - destruct W as (ks & v & ts & w & (ka & ko & kb & -> & I & P) & L & M & NE & A & V & _). rewrite <- !app_assoc in M, NE.
    eexists _, ts, ka, ko, kb, v, w. repeat (split; [eassumption|]). exact V.
  - intros c t st K R SE. eapply split_ok; eassumption.
Qed.
(** No token is the word "R". *)
Theorem no_R : forall code n ts, lexes code n ts -> ~ In (id "R") (map fst ts).
Proof.
  intros code n ts H. induction H as [|g s k q n ts G L H IH]; [intros []|]. intros [X|X]; [|exact (IH X)]. cbn [fst] in X. subst k.
  inversion L as [ch k q0 I| | | | | | |w q0 N C EN]; subst; try discriminate.
  - cbn in I. repeat (destruct I as [I|I]; [discriminate|]). exact I.
  - destruct N as [(h & t & E & _ & _ & _ & _ & _ & _ & _ & _ & R)|(b & neg & p & x & t & E & [(-> & _)|(-> & _)] & _)].
    + injection E as <- <-. destruct (R eq_refl) as (_ & x & [] & _).
    + discriminate.
    + discriminate.
Qed.
