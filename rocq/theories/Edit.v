(** * Edit: what changes when one instruction of a program is written differently. *)
From Verif Require Import Base Float Lexer Operand Catalogue Table Parse Assemble Spec LexFacts SchedFuel Param Reach ParseFacts
  Outcomes Decode Program Footprint Encode Emit Layout SpecOperand SpecInsn SpecOpts SpecSafe Operands Operands3 Notes Insn Words Recover Fields2 Sched
  Position Literals SpecLex Lexemes Stream Opts SpecContainer Container Text Compose Safe SpecProgram Language SpecLink Link SpecEdit.
From Coq Require Import Lia Permutation.
Local Open Scope string_scope.
Local Open Scope list_scope.
Open Scope Z_scope.

(** ** Sentences around an instruction *)

Lemma sentence_of_instruction : forall lab n us ts ss op ops, instruction lab (addr n) (map fst us) op -> sentence lab (S n) ts ss ops ->
  sentence lab n (us ++ ts) ss (op :: ops).
Proof. intros lab n us ts ss op ops (pre & i & post & gi & gn & kg & kf & T & G & F & P & M) H. eapply sentence_instruction; eassumption. Qed.
Lemma instruction_some : forall lab pc (us : list (tkind * Z)) op, instruction lab pc (map fst us) op -> exists v vs, us = v :: vs.
Proof. intros lab pc [|v vs] op (pre & i & post & gi & gn & kg & kf & _ & _ & _ & _ & M); [destruct kg; discriminate|eauto]. Qed.

Lemma front_sentence : forall lab l n ts ss ops, front lab l n ts ss ops -> forall v us ss' ops', snd v = l ->
  sentence lab (n + List.length ops) (v :: us) ss' ops' -> sentence lab n (ts ++ v :: us) (ss ++ ss') (ops ++ ops').
Proof.
  intros lab l n ts ss ops F. induction F as [n|n s t us ts ss ops W O N F IH|n us ts ss op ops I F IH]; intros v vs ss' ops' L S.
  - cbn in *. rewrite Nat.add_0_r in S. exact S.
  - cbn [app]. rewrite <- app_assoc. specialize (IH v vs ss' ops' L S). destruct ts as [|x ts]; cbn [app] in *.
    + apply sentence_option; auto. cbn in N. congruence.
    + apply sentence_option; auto.
  - rewrite <- app_assoc. cbn [app]. apply sentence_of_instruction; [exact I|]. apply IH; [exact L|]. cbn [List.length] in S.
    rewrite <- plus_n_Sm in S. exact S.
Qed.
(** Every instruction of a sentence. *)
Lemma sentence_split : forall lab n ts ss ops, sentence lab n ts ss ops -> forall k op, nth_error ops k = Some op ->
  exists a us b ss1 ops1 ss2 ops2, ts = a ++ us ++ b /\ ss = ss1 ++ ss2 /\ ops = ops1 ++ op :: ops2 /\ List.length ops1 = k /\
    front lab (hd 0 (map snd us)) n a ss1 ops1 /\ instruction lab (addr (n + k)) (map fst us) op /\ sentence lab (S (n + k)) b ss2 ops2.
Proof.
  intros lab n ts ss ops H. induction H as [n|n s t us v ts ss ops W O N S IH|n pre i post gi gn kg kf us ts ss op ops T G F P M S IH]; intros k op0 E.
  - destruct k; discriminate.
  - destruct (IH k op0 E) as (a & vs & b & ss1 & ops1 & ss2 & ops2 & ET & -> & -> & L & FR & IN & SE).
    exists (t :: us ++ a), vs, b, (s :: ss1), ops1, ss2, ops2. rewrite ET. split; [cbn [app]; rewrite <- app_assoc; reflexivity|].
    split; [reflexivity|]. split; [reflexivity|]. split; [exact L|]. split; [|auto]. apply front_option; auto.
    destruct a as [|x a]; cbn [app] in ET.
    + destruct (instruction_some _ _ _ _ IN) as (x & xs & ->). cbn [app] in ET. injection ET as -> _. exact N.
    + injection ET as -> _. exact N.
  - assert (IN : instruction lab (addr n) (map fst us) op) by (exists pre, i, post, gi, gn, kg, kf; auto 8).
    destruct k as [|k].
    + cbn in E. injection E as <-. exists [], us, ts, [], [], ss, ops. rewrite Nat.add_0_r. repeat split; auto. constructor.
    + destruct (IH k op0 E) as (a & vs & b & ss1 & ops1 & ss2 & ops2 & -> & -> & -> & L & FR & IN' & SE).
      exists (us ++ a), vs, b, ss1, (op :: ops1), ss2, ops2. rewrite <- !app_assoc. rewrite <- plus_n_Sm. cbn [List.length].
      repeat split; auto. constructor; assumption.
Qed.

Definition is_semi (k : tkind) : bool := match k with TSemi => true | _ => false end.
Lemma no_semi_filter : forall ks, ~ In TSemi ks -> filter is_semi ks = [].
Proof.
  induction ks as [|k ks IH]; intros H; [reflexivity|]. cbn [filter]. destruct k; try (apply IH; intros I; apply H; right; exact I).
  destruct H. left. reflexivity.
Qed.
Lemma written_no_semi : forall s ks, written s ks -> ~ In TSemi ks.
Proof. intros s ks W I. destruct W; cbn in I; intuition discriminate. Qed.
Lemma guard_no_semi : forall gi gn kg, guard_tokens gi gn kg -> ~ In TSemi kg.
Proof. intros gi gn kg [(-> & _)| ->] I; cbn in I; intuition discriminate. Qed.
Lemma sentence_semis : forall lab n ts ss ops, sentence lab n ts ss ops -> List.length (filter is_semi (map fst ts)) = List.length ops.
Proof.
  intros lab n ts ss ops H. induction H as [n|n s t us v ts ss ops W O N S IH|n pre i post gi gn kg kf us ts ss op ops T G F P M S IH].
  - reflexivity.
  - change (t :: us ++ v :: ts) with ((t :: us) ++ v :: ts). rewrite map_app, filter_app, (no_semi_filter _ (written_no_semi _ _ W)). exact IH.
  - rewrite map_app, filter_app, app_length, IH, M. cbn [List.length]. f_equal.
    assert (IT : In i table) by (rewrite T; apply in_elt). destruct (form_tokens _ _ _ _ _ _ _ IT F) as (k0 & -> & NS).
    rewrite filter_app. rewrite (no_semi_filter _ (guard_no_semi _ _ _ G)). cbn [filter is_semi id app]. rewrite filter_app, (no_semi_filter _ NS). reflexivity.
Qed.

(** An accepted program has its instructions somewhere. *)
Theorem instruction_found : forall a code w ts n, ~ In NUL code -> assemble a code = Ok w -> lexes code 0 ts ->
  (n < List.length (filter is_semi (map fst ts)))%nat -> exists before us after, ts = before ++ us ++ after /\ instruction_at code w n before us after.
Proof.
  intros a code w ts n N A L B. destruct (accepted_means _ _ _ N A) as (ts' & lab & ss & ops & LX & LB & S & F).
  rewrite (lexes_same _ _ _ _ LX L) in *. rewrite (sentence_semis _ _ _ _ _ S) in B.
  destruct (nth_error ops n) as [op|] eqn:E; [|apply nth_error_None in E; lia].
  destruct (sentence_split _ _ _ _ _ S n op E) as (x & us & y & ss1 & ops1 & ss2 & ops2 & ET & -> & -> & LN & FR & IN & SE).
  exists x, us, y. split; [exact ET|]. exists lab, ss1, ops1, op, ss2, ops2. rewrite <- ET. auto 10.
Qed.

(** ** Files *)

Lemma packed_fixed : forall fs ws, packed fs ws -> (List.length fs = 2 * List.length ws)%nat.
Proof. intros fs ws P. induction P; cbn [List.length]; lia. Qed.
Lemma file_swap : forall code ss out w out', file code ss out w -> List.length out' = List.length out ->
  exists h t, (h = [] \/ List.length h = 32%nat) /\ w = h ++ out ++ t /\ file code ss out' (h ++ out' ++ t).
Proof.
  intros code ss out w out' F L. destruct F as [T|p head T C D M S P].
  - exists [], []. rewrite !app_nil_r. cbn [app]. split; [auto|]. split; [reflexivity|]. constructor. exact T.
  - exists head, (repeat 0%N (padding (List.length out))). split; [right|split; [reflexivity|]].
    + apply packed_fixed in P. rewrite app_length, repeat_length in P. unfold header_fields in P.
      destruct (latest group_of (1, 1, 1) ss) as ((x & y) & z). cbn [List.length] in P. lia.
    + rewrite <- L in P |- *. econstructor; eassumption.
Qed.

Lemma map_seq_change : forall (f g : nat -> N) len j, (j < len)%nat -> (forall i, i <> j -> f i = g i) ->
  exists p q, map f (seq 0 len) = p ++ f j :: q /\ map g (seq 0 len) = p ++ g j :: q /\ List.length p = j.
Proof.
  intros f g len j J E. exists (map f (seq 0 j)), (map f (seq (S j) (len - S j))).
  assert (S1 : seq 0 len = seq 0 j ++ j :: seq (S j) (len - S j)).
  { replace len with (j + S (len - S j))%nat at 1 by lia. rewrite seq_app. reflexivity. }
  rewrite S1, !map_app. cbn [map]. split; [reflexivity|]. split; [|rewrite map_length, seq_length; reflexivity].
  f_equal; [|f_equal]; apply map_ext_in; intros i I; apply in_seq in I; symmetry; apply E; lia.
Qed.
Lemma nth_change : forall A (l1 l2 : list A) x y i d, i <> List.length l1 -> nth i (l1 ++ x :: l2) d = nth i (l1 ++ y :: l2) d.
Proof. induction l1 as [|z l1 IH]; intros l2 x y [|i] d H; cbn in *; try reflexivity; try contradiction. apply IH. lia. Qed.
Lemma nth_error_change : forall A (l1 l2 : list A) x y i, i <> List.length l1 -> nth_error (l1 ++ x :: l2) i = nth_error (l1 ++ y :: l2) i.
Proof. induction l1 as [|z l1 IH]; intros l2 x y [|i] H; cbn in *; try reflexivity; try contradiction. apply IH. lia. Qed.
Lemma nth_error_here : forall A (l1 l2 : list A) x, nth_error (l1 ++ x :: l2) (List.length l1) = Some x.
Proof. induction l1 as [|z l1 IH]; intros l2 x; [reflexivity|]. cbn. apply IH. Qed.

Ltac Zify.zify_post_hook ::= Z.div_mod_to_equations.
(** Only the word changes. *)
Lemma code_words_word : forall ops1 op op' ops2, sched op' = sched op -> reuse op' = reuse op ->
  exists p q, code_words (ops1 ++ op :: ops2) = p ++ value op :: q /\ code_words (ops1 ++ op' :: ops2) = p ++ value op' :: q /\
    List.length p = word_at (List.length ops1).
Proof.
  intros ops1 op op' ops2 ES ER. set (n := List.length ops1).
  assert (RE : map (fun o => (sched o, reuse o)) (ops1 ++ op' :: ops2) = map (fun o => (sched o, reuse o)) (ops1 ++ op :: ops2)).
  { rewrite !map_app. cbn [map]. rewrite ES, ER. reflexivity. }
  unfold code_words, layout. rewrite RE, !map_length, !app_length. cbn [List.length]. fold n.
  set (rc := map (fun o => (sched o, reuse o)) (ops1 ++ op :: ops2)).
  assert (HERE : forall o, layout_word rc (map value (ops1 ++ o :: ops2)) (word_at n) = value o).
  { intros o. unfold layout_word, word_at. replace (Nat.eqb ((4 * (n / 3) + 1 + n mod 3) mod 4) 0) with false by (symmetry; apply Nat.eqb_neq; lia).
    replace (3 * ((4 * (n / 3) + 1 + n mod 3) / 4) + ((4 * (n / 3) + 1 + n mod 3) mod 4 - 1))%nat with (List.length (map value ops1)) by (rewrite map_length; fold n; lia).
    rewrite map_app. cbn [map]. rewrite app_nth2 by lia. rewrite Nat.sub_diag. reflexivity. }
  destruct (map_seq_change (layout_word rc (map value (ops1 ++ op :: ops2))) (layout_word rc (map value (ops1 ++ op' :: ops2)))
    (4 * ((n + S (List.length ops2) + 2) / 3)) (word_at n)) as (p & q & E1 & E2 & L).
  - unfold word_at. lia.
  - intros i I. unfold layout_word. destruct (Nat.eqb_spec (i mod 4) 0) as [_|NZ]; [reflexivity|]. rewrite !map_app. cbn [map]. apply nth_change.
    rewrite map_length. fold n. unfold word_at in I. lia.
  - rewrite !HERE in *. exists p, q. auto.
Qed.
(** Only the control word changes. *)
Lemma code_words_control : forall ops1 op op' ops2, value op' = value op -> reuse op' = reuse op ->
  exists p x q, code_words (ops1 ++ op :: ops2) = p ++ x :: q /\
    code_words (ops1 ++ op' :: ops2) = p ++ with_record (List.length ops1 mod 3) (sched op) (sched op') x :: q /\
    List.length p = control_at (List.length ops1).
Proof.
  intros ops1 op op' ops2 EV ER. set (n := List.length ops1).
  assert (RE : map value (ops1 ++ op' :: ops2) = map value (ops1 ++ op :: ops2)).
  { rewrite !map_app. cbn [map]. rewrite EV. reflexivity. }
  unfold code_words, layout. rewrite RE, !map_length, !app_length. cbn [List.length]. fold n.
  set (ws := map value (ops1 ++ op :: ops2)). set (rc o := map (fun o => (sched o, reuse o)) (ops1 ++ o :: ops2)).
  change (map (fun o => (sched o, reuse o)) (ops1 ++ op :: ops2)) with (rc op). change (map (fun o => (sched o, reuse o)) (ops1 ++ op' :: ops2)) with (rc op').
  assert (OUT : forall k, k <> n -> record (rc op') k = record (rc op) k).
  { intros k K. unfold record, rc. rewrite !map_app. cbn [map].
    rewrite (nth_error_change _ _ _ (sched op', reuse op') (sched op, reuse op)) by (rewrite map_length; exact K). reflexivity. }
  assert (IN : forall o, record (rc o) n = (sched o + reuse o * 2 ^ 17)%N).
  { intros o. unfold record, rc. rewrite map_app. cbn [map]. unfold n. rewrite <- (map_length (fun o => (sched o, reuse o)) ops1), nth_error_here. reflexivity. }
  destruct (map_seq_change (layout_word (rc op) ws) (layout_word (rc op') ws) (4 * ((n + S (List.length ops2) + 2) / 3)) (control_at n)) as (p & q & E1 & E2 & L).
  - unfold control_at. lia.
  - intros i I. unfold layout_word. destruct (Nat.eqb_spec (i mod 4) 0) as [Z|NZ]; [|reflexivity]. unfold control_word. unfold control_at in I.
    rewrite !OUT by lia. reflexivity.
  - rewrite E1, E2. exists p, (layout_word (rc op) ws (control_at n)), q. split; [reflexivity|]. split; [|exact L]. f_equal. f_equal.
    unfold layout_word, control_at. replace (Nat.eqb ((4 * (n / 3)) mod 4) 0) with true by (symmetry; apply Nat.eqb_eq; lia).
    replace (4 * (n / 3) / 4)%nat with (n / 3)%nat by lia. unfold control_word, with_record.
    pose proof (IN op) as I1. pose proof (IN op') as I2. rewrite ER in I2.
    assert (C : (n mod 3 = 0 \/ n mod 3 = 1 \/ n mod 3 = 2)%nat) by lia. destruct C as [C|[C|C]]; rewrite C.
    + replace (3 * (n / 3))%nat with n by lia. rewrite (OUT (n + 1)%nat), (OUT (n + 2)%nat) by lia. rewrite I1, I2.
      change (21 * N.of_nat 0)%N with 0%N. change (2 ^ 0)%N with 1%N. lia.
    + replace (3 * (n / 3) + 1)%nat with n by lia. rewrite (OUT (3 * (n / 3))%nat), (OUT (3 * (n / 3) + 2)%nat) by lia. rewrite I1, I2.
      change (21 * N.of_nat 1)%N with 21%N. change (2 ^ 21)%N with 2097152%N. lia.
    + replace (3 * (n / 3) + 2)%nat with n by lia. rewrite (OUT (3 * (n / 3))%nat), (OUT (3 * (n / 3) + 1)%nat) by lia. rewrite I1, I2.
      change (21 * N.of_nat 2)%N with 42%N. change (2 ^ 42)%N with 4398046511104%N. lia.
Qed.
Ltac Zify.zify_post_hook ::= idtac.

(** ** One instruction for another *)

Section Edit.
  Variables (code code' : text) (w : list N) (n : nat) (before us us' after : list (tkind * Z)).
  Hypothesis AT : instruction_at code w n before us after.
  Hypothesis RW : rewritten code code' before us us' after.
  Hypothesis NN : ~ In NUL code'.
  Hypothesis TM : tame code'.
  Hypothesis SH : Z.of_nat (List.length code') <= 2 ^ 57.

  Lemma replaced : forall ch : opcode -> opcode -> Prop,
    (forall lab op, labelled code lab -> instruction lab (addr n) (map fst us) op -> exists op', instruction lab (addr n) (map fst us') op' /\ ch op op') ->
    exists ops1 op op' ops2 h t, ch op op' /\ List.length ops1 = n /\ (h = [] \/ List.length h = 32%nat) /\
      w = h ++ code_words (ops1 ++ op :: ops2) ++ t /\ assemble false code' = Ok (h ++ code_words (ops1 ++ op' :: ops2) ++ t).
  Proof.
    intros ch H. destruct AT as (lab & ss1 & ops1 & op & ss2 & ops2 & LX & LB & FR & LN & IN & SE & FI). destruct RW as (LX' & HD & SP).
    destruct (H lab op LB IN) as (op' & IN' & CH).
    destruct (file_swap _ _ _ _ (code_words (ops1 ++ op' :: ops2)) FI) as (h & t & HH & EW & FI').
    { unfold code_words, layout. rewrite !map_length, !seq_length, !app_length. reflexivity. }
    exists ops1, op, op', ops2, h, t. split; [exact CH|]. split; [exact LN|]. split; [exact HH|]. split; [exact EW|].
    apply means_accepted; try assumption. exists (before ++ us' ++ after), lab, (ss1 ++ ss2), (ops1 ++ op' :: ops2).
    split; [exact LX'|]. split; [eapply same_places_labelled; eassumption|]. split; [|eapply same_places_file; eassumption].
    destruct (instruction_some _ _ _ _ IN') as (v & vs & E). rewrite E in *. cbn [app]. eapply front_sentence; [exact FR|cbn [map hd] in HD; exact HD|].
    rewrite LN. apply (sentence_of_instruction lab n (v :: vs)); assumption.
  Qed.
End Edit.

(** ** Kinds of the tokens of a text *)

Lemma lexes_ok : forall code n ts, lexes code n ts -> Forall kind_ok (map fst ts).
Proof.
  intros code n ts L. destruct (lexes_tokens ts (Cursor code n 0) L) as (tk & c' & TK & <- & _). rewrite fst_lined.
  clear L. induction TK as [c|c t c1 ts c' T TK IH]; [constructor|]. constructor; [eapply token_ok; eassumption|exact IH].
Qed.

(** ** The guard *)

Lemma guard_off : forall i gi gn gi' gn', (gi <= 7)%N -> (gi' <= 7)%N -> off (range 16 4) (bare_word i gi gn) (bare_word i gi' gn').
Proof.
  intros i gi gn gi' gn' G1 G2. unfold off, bare_word. rewrite !ldiff_lor.
  assert (X : forall gi gn, (gi <= 7)%N -> N.ldiff (place (guard_field gi gn) 16) (range 16 4) = 0%N).
  { intros g n0 Gg. apply place_sub. unfold guard_field. change (2 ^ 4)%N with 16%N. destruct n0; lia. }
  rewrite (X _ _ G1), (X _ _ G2). reflexivity.
Qed.
Lemma form_reguard : forall lab pc i gi gn gi' gn' kf op, In i table -> (gi <= 7)%N -> (gi' <= 7)%N ->
  (always_executed (i_mnemonic i) -> gi' = 7%N) -> form_spells lab pc i gi gn kf op ->
  exists op', form_spells lab pc i gi' gn' kf op' /\ off (range 16 4) (value op) (value op') /\ reuse op' = reuse op /\ sched op' = sched op.
Proof.
  intros lab pc i gi gn gi' gn' kf op I G1 G2 A (ko & kn & notes & w & r & E & _ & S & NT & NO & ->).
  destruct (spell_list_off _ _ _ _ _ _ _ _ (range 16 4) (bare_word i gi' gn') S) as (w' & S' & O').
  - intros o O. pose proof (forallb_in _ _ _ _ guard_unseen I) as Q. cbn beta in Q.
    pose proof (forallb_in _ _ _ _ Q O) as Q'. cbn beta in Q'. apply N.eqb_eq in Q'. exact Q'.
  - apply guard_off; assumption.
  - exists (Opcode w' r (notes_record notes)). split; [exists ko, kn, notes, w', r; auto 8|]. cbn [value reuse sched]. auto.
Qed.

Lemma guard_split : forall gi gn kg m kf gi' gn' kg' m' kf', guard_tokens gi gn kg -> guard_tokens gi' gn' kg' ->
  kg ++ id m :: kf = kg' ++ id m' :: kf' -> gi = gi' /\ gn = gn' /\ kg = kg' /\ m = m' /\ kf = kf'.
Proof.
  intros gi gn kg m kf gi' gn' kg' m' kf' [(-> & -> & ->)| ->] [(-> & -> & ->)| ->] E; cbn [app] in E; unfold id in E; try discriminate.
  - injection E as E ->. apply lit_inj in E as ->. auto.
  - injection E as -> -> E ->. apply lit_inj in E as ->. auto.
Qed.
Lemma guard_small : forall gi gn kg, guard_tokens gi gn kg -> Forall kind_ok kg -> (gi <= 7)%N.
Proof.
  intros gi gn kg [(_ & -> & _)| ->] F; [discriminate|]. inversion F as [|? ? _ F2]; subst. inversion F2; subst. assumption.
Qed.
Lemma guard_bits_of : forall lab pc i gi gn kf op, In i table -> (gi <= 7)%N -> Forall kind_ok kf -> form_spells lab pc i gi gn kf op ->
  N.land (value op) (range 16 4) = place (guard_field gi gn) 16.
Proof.
  intros lab pc i gi gn kf op I G K (ko & kn & notes & w & r & -> & _ & S & _ & _ & ->). cbn [value].
  pose proof (forallb_in _ _ _ _ table_spec I) as TS. cbn beta in TS. apply Forall_app in K as (K & _).
  destruct (list_keeps _ _ _ _ _ _ _ _ TS K S) as (A & B & _).
  pose proof (forallb_in _ _ _ _ guard_free I) as GF. cbn beta in GF. apply N.eqb_eq in GF.
  rewrite N.land_lor_distr_l in GF. apply N.lor_eq_0_iff in GF as (GF1 & GF2).
  rewrite (A _ GF2). unfold bare_word. rewrite N.land_lor_distr_l, GF1, N.lor_0_r. apply sub_land. apply place_sub.
  unfold guard_field; change (2 ^ 4)%N with 16%N; destruct gn; lia.
Qed.
Lemma with_guard_of : forall x x' g, off (range 16 4) x x' -> N.land x' (range 16 4) = place g 16 -> x' = with_guard g x.
Proof.
  intros x x' g O L. unfold with_guard. change (15 * 2 ^ 16)%N with (range 16 4). rewrite O. change (g * 2 ^ 16)%N with (place g 16). rewrite <- L.
  apply N.bits_inj. intros k. rewrite N.lor_spec, N.ldiff_spec, N.land_spec. destruct (N.testbit x' k), (N.testbit (range 16 4) k); reflexivity.
Qed.

Lemma instruction_reguard : forall lab pc ks op kg m kf gi gn kg' gi' gn', Forall kind_ok ks -> instruction lab pc ks op ->
  ks = kg ++ id m :: kf -> guard_tokens gi gn kg -> guard_tokens gi' gn' kg' -> (gi' <= 7)%N -> (always_executed m -> gi' = 7%N) ->
  exists op', instruction lab pc (kg' ++ id m :: kf) op' /\ value op' = with_guard (guard_field gi' gn') (value op) /\ sched op' = sched op /\ reuse op' = reuse op.
Proof.
  intros lab pc ks op kg m kf gi gn kg' gi' gn' K (pre & i & post & gi0 & gn0 & kg0 & kf0 & T & G0 & F & P & E) E' G G' L A.
  rewrite E in E'. destruct (guard_split _ _ _ _ _ _ _ _ _ _ G0 G E') as (-> & -> & -> & <- & ->). subst ks.
  apply Forall_app in K as (K1 & K2). pose proof (guard_small _ _ _ G K1) as L0. assert (K3 : Forall kind_ok kf) by (inversion K2; assumption).
  assert (I : In i table) by (rewrite T; apply in_elt).
  destruct (form_reguard lab pc i gi gn gi' gn' kf op I L0 L A F) as (op' & F' & O & R & S). exists op'. split; [|split; [|auto]].
  - exists pre, i, post, gi', gn', kg', kf. do 3 (split; [assumption|]). split; [|reflexivity]. intros j op2 J M F2.
    assert (JT : In j table) by (rewrite T; apply in_or_app; left; exact J).
    destruct (form_reguard lab pc j gi' gn' gi gn kf op2 JT L L0) as (op3 & F3 & _); [|exact F2|exact (P j op3 J M F3)].
    rewrite M. destruct F as (? & ? & ? & ? & ? & _ & X & _). exact X.
  - apply with_guard_of; [exact O|]. eapply guard_bits_of; eassumption.
Qed.

(** Another guard changes bits 16..19 of the word, and nothing else. *)
Theorem guard_edit : forall code code' w n before us us' after kg m kf gi gn kg' gi' gn',
  instruction_at code w n before us after -> rewritten code code' before us us' after ->
  ~ In NUL code' -> tame code' -> Z.of_nat (List.length code') <= 2 ^ 57 ->
  map fst us = kg ++ id m :: kf -> guard_tokens gi gn kg -> map fst us' = kg' ++ id m :: kf -> guard_tokens gi' gn' kg' ->
  (always_executed m -> gi' = 7%N) ->
  exists w', assemble false code' = Ok w' /\ changed_at (word_at n) (with_guard (guard_field gi' gn')) w w'.
Proof.
  intros code code' w n before us us' after kg m kf gi gn kg' gi' gn' AT RW NN TM SH E G E' G' A.
  assert (K : Forall kind_ok (map fst us)).
  { destruct AT as (? & ? & ? & ? & ? & ? & LX & _). apply lexes_ok in LX. rewrite !map_app, !Forall_app in LX. tauto. }
  assert (K' : (gi' <= 7)%N).
  { destruct RW as (LX & _). apply lexes_ok in LX. rewrite !map_app, !Forall_app, E', Forall_app in LX. eapply guard_small; [exact G'|tauto]. }
  destruct (replaced _ _ _ _ _ _ _ _ AT RW NN TM SH
    (fun op op' => value op' = with_guard (guard_field gi' gn') (value op) /\ sched op' = sched op /\ reuse op' = reuse op)) as (ops1 & op & op' & ops2 & h & t & (V & S & R) & LN & HH & EW & EA).
  - intros lab op _ IN. rewrite E'. eapply instruction_reguard; eassumption.
  - eexists. split; [exact EA|]. destruct (code_words_word ops1 op op' ops2 S R) as (p & q & E1 & E2 & LP).
    exists h, p, (value op), (q ++ t). rewrite EW, E1, E2, V, <- !app_assoc. cbn [app]. rewrite <- LN. auto.
Qed.

(** ** Annotations *)

Lemma notes_marked : forall notes kn, notes_tokens notes kn -> kn = [] \/ exists k, kn = TAt :: k.
Proof. intros notes kn H. destruct H as [|x l k ks N H]; [left; reflexivity|right]. apply note_hd in N as (k' & ->). eexists. reflexivity. Qed.
Lemma unmarked_at : forall ks, unmarked ks -> ~ In TAt ks /\ ~ In TSemi ks.
Proof. intros ks U. unfold unmarked in U. rewrite Forall_forall in U. split; intros I; apply (U _ I); [left|right]; reflexivity. Qed.
Lemma split_notes : forall ko ko' kn kn' notes notes', ~ In TAt ko -> ~ In TAt ko' -> ~ In TSemi ko -> ~ In TSemi ko' ->
  notes_tokens notes kn -> notes_tokens notes' kn' -> ko ++ kn ++ [TSemi] = ko' ++ kn' ++ [TSemi] -> ko = ko' /\ kn = kn'.
Proof.
  intros ko ko' kn kn' notes notes' A A' B B' N N' E. apply notes_marked in N, N'. revert ko' A' B' E.
  induction ko as [|k ko IH]; intros [|k' ko'] A' B' E; cbn [app] in E.
  - apply app_inv_tail in E. auto.
  - exfalso. destruct N as [-> |(x & ->)]; cbn [app] in E; injection E as <- E; [apply B'|apply A']; left; reflexivity.
  - exfalso. destruct N' as [-> |(x & ->)]; cbn [app] in E; injection E as -> E; [apply B|apply A]; left; reflexivity.
  - injection E as -> E. destruct (IH (fun I => A (or_intror I)) (fun I => B (or_intror I)) ko' (fun I => A' (or_intror I)) (fun I => B' (or_intror I)) E) as (-> & ->). auto.
Qed.
Lemma form_renote : forall lab pc i gi gn ko kn notes kn' notes' op, In i table -> ~ In TAt ko -> notes_tokens notes kn ->
  notes_tokens notes' kn' -> notes_ok notes' -> form_spells lab pc i gi gn (ko ++ kn ++ [TSemi]) op ->
  form_spells lab pc i gi gn (ko ++ kn' ++ [TSemi]) (Opcode (value op) (reuse op) (notes_record notes')) /\ sched op = notes_record notes.
Proof.
  intros lab pc i gi gn ko kn notes kn' notes' op I NA NT NT' NO' F. destruct (form_tokens _ _ _ _ _ _ _ I F) as (k0 & E0 & NS).
  rewrite app_assoc in E0. apply app_inj_tail in E0 as (<- & _).
  destruct F as (ko1 & kn1 & notes1 & w & r & E & A & S & NT1 & NO1 & ->).
  pose proof (forallb_in _ _ _ _ table_mark_free I) as M. cbv beta in M.
  destruct (unmarked_at _ (spell_list_unmarked _ _ _ _ _ _ _ _ M S)) as (U1 & U2).
  destruct (split_notes _ _ _ _ _ _ NA U1 (fun X => NS (in_or_app _ _ _ (or_introl X))) U2 NT NT1 E) as (-> & ->).
  rewrite (notes_det _ _ NT _ NT1). cbn [value reuse sched]. split; [|reflexivity]. exists ko1, kn', notes', w, r. split; [reflexivity|]. split; [exact A|].
  split; [|auto]. eapply spell_list_next; [exact M| | |exact S]; eapply notes_hd; eassumption.
Qed.
Lemma instruction_renote : forall lab pc ks op kg m ko kn notes gi gn kn' notes', instruction lab pc ks op ->
  ks = kg ++ id m :: ko ++ kn ++ [TSemi] -> guard_tokens gi gn kg -> ~ In TAt ko -> notes_tokens notes kn -> notes_tokens notes' kn' -> notes_ok notes' ->
  exists op', instruction lab pc (kg ++ id m :: ko ++ kn' ++ [TSemi]) op' /\ value op' = value op /\ reuse op' = reuse op /\
    sched op = notes_record notes /\ sched op' = notes_record notes'.
Proof.
  intros lab pc ks op kg m ko kn notes gi gn kn' notes' (pre & i & post & gi0 & gn0 & kg0 & kf0 & T & G0 & F & P & E) E' G NA NT NT' NO'.
  rewrite E in E'. destruct (guard_split _ _ _ _ _ _ _ _ _ _ G0 G E') as (-> & -> & -> & <- & ->). subst ks.
  assert (I : In i table) by (rewrite T; apply in_elt).
  destruct (form_renote lab pc i gi gn ko kn notes kn' notes' op I NA NT NT' NO' F) as (F' & SC).
  exists (Opcode (value op) (reuse op) (notes_record notes')). cbn [value reuse sched]. split; [|auto].
  exists pre, i, post, gi, gn, kg, (ko ++ kn' ++ [TSemi]). do 3 (split; [eassumption|]). split; [|reflexivity]. intros j op2 J M F2.
  assert (JT : In j table) by (rewrite T; apply in_or_app; left; exact J).
  assert (NO : notes_ok notes).
  { destruct F as (ko1 & kn1 & notes1 & w & r & E1 & A & S & NT1 & NO1 & _). 
    destruct (form_tokens _ _ _ _ _ _ _ JT F2) as (k0 & E0 & NS). rewrite app_assoc in E0. apply app_inj_tail in E0 as (<- & _).
    pose proof (forallb_in _ _ _ _ table_mark_free I) as MF. cbv beta in MF. destruct (unmarked_at _ (spell_list_unmarked _ _ _ _ _ _ _ _ MF S)) as (U1 & U2).
    destruct (split_notes _ _ _ _ _ _ NA U1 (fun X => NS (in_or_app _ _ _ (or_introl X))) U2 NT NT1 E1) as (-> & ->). rewrite (notes_det _ _ NT _ NT1). exact NO1. }
  destruct (form_renote lab pc j gi gn ko kn' notes' kn notes op2 JT NA NT' NT NO F2) as (F3 & _). exact (P j _ J M F3).
Qed.

(** Other annotations change the record in the control word, and nothing else. *)
Theorem note_edit : forall code code' w n before us us' after kg m ko kn notes gi gn kn' notes',
  instruction_at code w n before us after -> rewritten code code' before us us' after ->
  ~ In NUL code' -> tame code' -> Z.of_nat (List.length code') <= 2 ^ 57 ->
  guard_tokens gi gn kg -> ~ In TAt ko -> notes_tokens notes kn -> notes_tokens notes' kn' -> notes_ok notes' ->
  map fst us = kg ++ id m :: ko ++ kn ++ [TSemi] -> map fst us' = kg ++ id m :: ko ++ kn' ++ [TSemi] ->
  exists w', assemble false code' = Ok w' /\
    changed_at (control_at n) (with_record (n mod 3) (notes_record notes) (notes_record notes')) w w'.
Proof.
  intros code code' w n before us us' after kg m ko kn notes gi gn kn' notes' AT RW NN TM SH G NA NT NT' NO E E'.
  destruct (replaced _ _ _ _ _ _ _ _ AT RW NN TM SH
    (fun op op' => value op' = value op /\ reuse op' = reuse op /\ sched op = notes_record notes /\ sched op' = notes_record notes')) as (ops1 & op & op' & ops2 & h & t & (V & R & S & S') & LN & HH & EW & EA).
  - intros lab op _ IN. rewrite E'. eapply instruction_renote; eassumption.
  - eexists. split; [exact EA|]. destruct (code_words_control ops1 op op' ops2 V R) as (p & x & q & E1 & E2 & LP).
    exists h, p, x, (q ++ t). rewrite EW, E1, E2, S, S', <- !app_assoc. cbn [app]. rewrite <- LN. auto.
Qed.
(** Their order does not matter. *)
Theorem note_order : forall code code' w n before us us' after kg m ko kn notes gi gn kn' notes',
  instruction_at code w n before us after -> rewritten code code' before us us' after ->
  ~ In NUL code' -> tame code' -> Z.of_nat (List.length code') <= 2 ^ 57 ->
  guard_tokens gi gn kg -> ~ In TAt ko -> notes_tokens notes kn -> notes_tokens notes' kn' -> Permutation notes notes' ->
  map fst us = kg ++ id m :: ko ++ kn ++ [TSemi] -> map fst us' = kg ++ id m :: ko ++ kn' ++ [TSemi] ->
  assemble false code' = Ok w.
Proof.
  intros code code' w n before us us' after kg m ko kn notes gi gn kn' notes' AT RW NN TM SH G NA NT NT' PM E E'.
  destruct (replaced _ _ _ _ _ _ _ _ AT RW NN TM SH (fun op op' => op' = op)) as (ops1 & op & op' & ops2 & h & t & -> & LN & HH & EW & EA); [|rewrite EW; exact EA].
  intros lab op _ IN. assert (NO : notes_ok notes).
  { destruct IN as (pre & i & post & gi0 & gn0 & kg0 & kf0 & T & G0 & F & P & E0). rewrite E0 in E. destruct (guard_split _ _ _ _ _ _ _ _ _ _ G0 G E) as (-> & -> & -> & <- & ->).
    assert (I : In i table) by (rewrite T; apply in_elt). destruct (form_tokens _ _ _ _ _ _ _ I F) as (k0 & Ek & NS). rewrite app_assoc in Ek. apply app_inj_tail in Ek as (<- & _).
    destruct F as (ko1 & kn1 & notes1 & w1 & r & E1 & A & S & NT1 & NO1 & _).
    pose proof (forallb_in _ _ _ _ table_mark_free I) as MF. cbv beta in MF. destruct (unmarked_at _ (spell_list_unmarked _ _ _ _ _ _ _ _ MF S)) as (U1 & U2).
    destruct (split_notes _ _ _ _ _ _ NA U1 (fun X => NS (in_or_app _ _ _ (or_introl X))) U2 NT NT1 E1) as (-> & ->). rewrite (notes_det _ _ NT _ NT1). exact NO1. }
  destruct (notes_order _ _ PM NO) as (NO' & RE). exists op. split; [|reflexivity]. rewrite E'.
  destruct (instruction_renote _ _ _ _ _ _ _ _ _ _ _ _ _ IN E G NA NT NT' NO') as (op' & IN' & V & R & S & S').
  replace op with op'; [exact IN'|]. destruct op, op'; cbn in *. congruence.
Qed.

(** ** Targets of jumps *)

Definition points (lab : text -> option Z) (k : tkind) (z : Z) : Prop :=
  k = TImm z \/ exists name, k = TIdent name /\ plain name /\ lab name = Some z.
Lemma stands_points : forall code lab k z, labelled code lab -> stands_for code k z -> points lab k z.
Proof.
  intros code lab k z L [-> |(name & p & -> & PL & D & ->)]; [left; reflexivity|right]. exists name. split; [reflexivity|]. split; [exact PL|].
  apply L. exists p. auto.
Qed.
Definition dotted (o : opnd) : bool :=
  match o with OFlag (String c _) _ => Ascii.eqb c "."%char | OFlag EmptyString _ => false | _ => true end.
Lemma jump_shapes : forallb (fun i => if jump_name i then place_bound i && forallb dotted (i_operands i) else true) table = true.
Proof. vm_compute. reflexivity. Qed.
Lemma points_not_dot : forall lab k z s, points lab k z -> k <> TIdent ("."%char :: s).
Proof. intros lab k z s [-> |(name & -> & (_ & D) & _)] E; [discriminate|]. injection E as ->. apply D. reflexivity. Qed.
Lemma points_not_cc : forall lab k z, points lab k z -> k <> id "CC".
Proof. intros lab k z [-> |(name & -> & (D & _) & _)] E; [discriminate|]. injection E as ->. apply D. reflexivity. Qed.

Lemma cut_apart : forall (A : Type) (x y : list A) k1 t k2, x ++ y = k1 ++ t :: k2 ->
  (exists z, x = k1 ++ t :: z /\ k2 = z ++ y) \/ (exists z, k1 = x ++ z /\ y = z ++ t :: k2).
Proof.
  induction x as [|a x IH]; intros y k1 t k2 E; cbn [app] in E.
  - right. exists k1. auto.
  - destruct k1 as [|b k1]; cbn [app] in E; injection E as -> E.
    + left. exists x. auto.
    + destruct (IH _ _ _ _ E) as [(z & -> & ->)|(z & -> & ->)]; [left|right]; exists z; auto.
Qed.

Section Target.
  Variables (lab : text -> option Z) (z : Z) (t t' : tkind).
  Hypothesis P : points lab t z.
  Hypothesis P' : points lab t' z.

  Lemma target_next : forall pc o w ks b r, jump_operand o = true -> dotted o = true -> spells lab pc o w ks t b r -> spells lab pc o w ks t' b r.
  Proof.
    intros pc o w ks b r J D S. destruct o; try discriminate J; cbn [spells] in S |- *; try exact S.
    - destruct S as (R & [S|(K & _ & B)]); [auto|]. split; [exact R|]. right. split; [exact K|]. split; [|exact B].
      match goal with |- context [OFlag ?x _] => destruct x as [|c s] | D : dotted (OFlag ?x _) = true |- _ => destruct x as [|c s] end; [discriminate|]. cbn [dotted] in D. apply Ascii.eqb_eq in D as ->. exact (points_not_dot _ _ _ (lit s) P').
    - destruct S as (R & [S|(i & K & _ & X)]); [auto|]. split; [exact R|]. right. exists i. split; [exact K|]. split; [|exact X].
      intros s _. exact (points_not_dot _ _ _ (lit s) P').
    - destruct S as (R & [S|(K & _ & B)]); [auto|]. split; [exact R|]. right. split; [exact K|]. split; [|exact B]. exact (points_not_cc _ _ _ P').
  Qed.
  Lemma target_here : forall pc o w ks nx b r k1 k2, jump_operand o = true -> dotted o = true -> spells lab pc o w ks nx b r -> ks = k1 ++ t :: k2 ->
    k1 = [] /\ k2 = [] /\ spells lab pc o w [t'] nx b r.
  Proof.
    intros pc o w ks nx b r k1 k2 J D S ->.
    assert (ONE : forall k, k1 ++ t :: k2 = [k] -> k1 = [] /\ t = k /\ k2 = []).
    { intros k E. destruct k1 as [|x k1]; cbn [app] in E; [injection E as -> ->; auto|]. injection E as _ E. destruct k1; discriminate. }
    assert (NO : k1 ++ t :: k2 <> []) by (destruct k1; discriminate).
    destruct o; try discriminate J; cbn [spells] in S |- *.
    - destruct S as (E & _). apply ONE in E as (_ & E & _). destruct P as [Q|(? & Q & _)]; rewrite Q in E; discriminate.
    - destruct S as (_ & [(E & _)|(E & _)]); [|contradiction]. apply ONE in E as (_ & E & _). match goal with |- context [OFlag ?x _] => destruct x as [|c s] | D : dotted (OFlag ?x _) = true |- _ => destruct x as [|c s] end; [discriminate|].
      cbn [dotted] in D. apply Ascii.eqb_eq in D as ->. destruct (points_not_dot _ _ _ (lit s) P E).
    - destruct S as (_ & [(k & i & E & (s & _ & -> & _) & _)|(i & E & _)]); [|contradiction]. apply ONE in E as (_ & E & _).
      destruct (points_not_dot _ _ _ (lit s) P E).
    - destruct S as (g & K & B).
      assert (X : k1 = [] /\ k2 = [] /\ g = z).
      { destruct K as [(name & E & L)|E]; apply ONE in E as (-> & E & ->); (split; [reflexivity|]); (split; [reflexivity|]);
          destruct P as [Q|(nm & Q & _ & L')]; rewrite Q in E; try discriminate; injection E as <-; congruence. }
      destruct X as (-> & -> & ->). split; [reflexivity|]. split; [reflexivity|]. exists z. split; [|exact B].
      destruct P' as [-> |(nm & -> & _ & L')]; eauto.
    - destruct S as (_ & [(k & i & E & (s & _ & -> & _) & _)|(E & _)]); [|contradiction]. exfalso.
      destruct k1 as [|x k1]; cbn [app] in E; [injection E as E _; exact (points_not_cc _ _ _ P E)|]. injection E as _ E.
      destruct k1 as [|y k1]; cbn [app] in E; [injection E as E _; exact (points_not_dot _ _ _ (lit s) P E)|]. injection E as _ E. destruct k1; discriminate.
  Qed.
  Lemma target_list : forall pc nx ops w ks w' r, spell_list lab pc nx ops w ks w' r -> forall k1 k2, forallb jump_operand ops = true -> forallb dotted ops = true ->
    ks = k1 ++ t :: k2 -> spell_list lab pc nx ops w (k1 ++ t' :: k2) w' r.
  Proof.
    intros pc nx ops w ks w' r S. induction S as [w|o ops w ks1 ks2 b r1 r2 w' S H IH]; intros k1 k2 J D E; [destruct k1; discriminate|].
    cbn [forallb] in J, D. apply andb_true_iff in J as (J1 & J2). apply andb_true_iff in D as (D1 & D2).
    destruct (cut_apart _ _ _ _ _ _ E) as [(x & E1 & E2)|(x & E1 & E2)].
    - destruct (target_here _ _ _ _ _ _ _ _ _ J1 D1 S E1) as (-> & -> & S'). cbn [app] in E2. subst k2. cbn [app].
      change (t' :: ks2) with ([t'] ++ ks2). econstructor; [exact S'|exact H].
    - subst k1. rewrite <- app_assoc. econstructor; [|exact (IH x k2 J2 D2 E2)]. subst ks2.
      destruct x as [|y x]; cbn [app hd] in S |- *; [apply target_next; assumption|exact S].
  Qed.
End Target.

Lemma commas_bound : forall l seen, commas_tell seen l = true -> forall pre i post, l = pre ++ i :: post -> forall j, In j pre ->
  i_mnemonic j = i_mnemonic i -> place_bound i = true -> existsb is_comma (i_operands j) = true /\ forallb no_comma (i_operands i) = true.
Proof.
  assert (G : forall l seen, commas_tell seen l = true -> forall pre i post, l = pre ++ i :: post -> forall j, In j (rev pre ++ seen) ->
    i_mnemonic j = i_mnemonic i -> place_bound i = true -> existsb is_comma (i_operands j) = true /\ forallb no_comma (i_operands i) = true).
  { induction l as [|x l IH]; intros seen C pre i post E j J M B; [destruct pre; discriminate|].
    cbn [commas_tell] in C. apply andb_true_iff in C as (C1 & C2). destruct pre as [|y pre]; cbn [app] in E; injection E as -> ->.
    - cbn [rev app] in J. rewrite B in C1. pose proof (forallb_in _ _ _ _ C1 J) as X. cbv beta in X. rewrite M, text_eqb_refl in X.
      apply andb_true_iff in X. exact X.
    - apply (IH (y :: seen) C2 pre i post eq_refl); auto. cbn [rev] in J. rewrite <- app_assoc in J. exact J. }
  intros l seen C pre i post E j J. eapply G; eauto. apply in_or_app. left. apply in_rev. rewrite rev_involutive. exact J.
Qed.

Lemma instruction_target : forall lab pc ks op kg m gi gn k1 t t' k2 z, instruction lab pc ks op -> In m jumps ->
  ks = kg ++ id m :: k1 ++ t :: k2 -> guard_tokens gi gn kg -> ~ In TAt k1 -> points lab t z -> points lab t' z ->
  instruction lab pc (kg ++ id m :: k1 ++ t' :: k2) op.
Proof.
  intros lab pc ks op kg m gi gn k1 t t' k2 z (pre & i & post & gi0 & gn0 & kg0 & kf0 & T & G0 & F & P & E) MJ E' G NA PT PT'.
  rewrite E in E'. destruct (guard_split _ _ _ _ _ _ _ _ _ _ G0 G E') as (-> & -> & -> & <- & ->). subst ks.
  assert (I : In i table) by (rewrite T; apply in_elt).
  assert (JN : jump_name i = true) by (unfold jump_name; apply existsb_exists; exists (i_mnemonic i); split; [exact MJ|apply text_eqb_refl]).
  pose proof (forallb_in _ _ _ _ jump_shapes I) as X. cbv beta in X. rewrite JN in X. apply andb_true_iff in X as (PB & DT).
  pose proof (forallb_in _ _ _ _ jump_forms I) as X. cbv beta in X. rewrite PB in X. apply andb_true_iff in X as (_ & JO).
  assert (F' : form_spells lab pc i gi gn (k1 ++ t' :: k2) op).
  { destruct (form_tokens _ _ _ _ _ _ _ I F) as (k0 & EK & NS). destruct F as (ko & kn & notes & w & r & EF & A & S & NT & NO & ->). symmetry in EF.
    destruct (cut_apart _ _ _ _ _ _ EF) as [(x & -> & ->)|(x & -> & EX)].
    - exists (k1 ++ t' :: x), kn, notes, w, r. rewrite <- app_assoc. cbn [app]. split; [reflexivity|]. split; [exact A|]. split; [|auto].
      eapply target_list; [exact PT|exact PT'|exact S|exact JO|exact DT|reflexivity].
    - exfalso. apply notes_marked in NT. destruct x as [|y x].
      + cbn [app] in EX. destruct NT as [-> |(y & ->)]; cbn [app] in EX; injection EX as EX _; destruct PT as [Q|(? & Q & _)]; rewrite Q in EX; discriminate.
      + destruct NT as [-> |(v & ->)]; cbn [app] in EX; [injection EX as _ EX; destruct x; discriminate|]. injection EX as <- EX.
        apply NA, in_or_app. right. left. reflexivity. }
  exists pre, i, post, gi, gn, kg, (k1 ++ t' :: k2). do 3 (split; [assumption|]). split; [|reflexivity]. intros j op2 J M F2.
  destruct (commas_bound _ _ table_commas _ _ _ T _ J M PB) as (C1 & C2). eapply form_comma; eassumption.
Qed.

(** A label and its address give the same file. *)
Theorem target_edit : forall code code' w n before us us' after kg m gi gn k1 t t' k2 z,
  instruction_at code w n before us after -> rewritten code code' before us us' after ->
  ~ In NUL code' -> tame code' -> Z.of_nat (List.length code') <= 2 ^ 57 ->
  guard_tokens gi gn kg -> In m jumps -> ~ In TAt k1 -> stands_for code t z -> stands_for code t' z ->
  map fst us = kg ++ id m :: k1 ++ t :: k2 -> map fst us' = kg ++ id m :: k1 ++ t' :: k2 ->
  assemble false code' = Ok w.
Proof.
  intros code code' w n before us us' after kg m gi gn k1 t t' k2 z AT RW NN TM SH G MJ NA ST ST' E E'.
  destruct (replaced _ _ _ _ _ _ _ _ AT RW NN TM SH (fun op op' => op' = op)) as (ops1 & op & op' & ops2 & h & t0 & -> & LN & HH & EW & EA); [|rewrite EW; exact EA].
  intros lab op LB IN. exists op. split; [|reflexivity]. rewrite E'. eapply instruction_target; try eassumption; eapply stands_points; eassumption.
Qed.

(** ** Statements are instructions *)

Lemma count_app : forall a b, count_semis (a ++ b) = (count_semis a + count_semis b)%nat.
Proof. intros a b. unfold count_semis. rewrite filter_app, app_length. reflexivity. Qed.
Lemma count_kinds : forall ts, ~ In TSemi (map fst ts) -> count_semis ts = 0%nat.
Proof.
  induction ts as [|(k, l) ts IH]; intros H; [reflexivity|]. unfold count_semis. cbn [filter fst].
  assert (R : ~ In TSemi (map fst ts)) by (intros I; apply H; right; exact I). specialize (IH R). unfold count_semis in IH.
  destruct k; try exact IH. destruct H. left. reflexivity.
Qed.
Lemma instruction_close : forall lab pc us op, instruction lab pc (map fst us) op -> exists x l, us = x ++ [(TSemi, l)] /\ count_semis x = 0%nat.
Proof.
  intros lab pc us op (pre & i & post & gi & gn & kg & kf & T & G & F & _ & M).
  assert (I : In i table) by (rewrite T; apply in_elt). destruct (form_tokens _ _ _ _ _ _ _ I F) as (k0 & -> & NS).
  destruct us as [|u us] using rev_ind; [destruct kg; discriminate|]. clear IHus. rewrite map_app in M. cbn [map] in M.
  replace (kg ++ id (i_mnemonic i) :: k0 ++ [TSemi]) with ((kg ++ id (i_mnemonic i) :: k0) ++ [TSemi]) in M by (rewrite <- app_assoc; reflexivity).
  apply app_inj_tail in M as (M & E). destruct u as (k, l). cbn [fst] in E. subst k. exists us, l. split; [reflexivity|]. apply count_kinds.
  rewrite M. intros J. apply in_app_or in J as [J|[J|J]]; [exact (guard_no_semi _ _ _ G J)|discriminate|exact (NS J)].
Qed.
Lemma written_dot : forall s (t : tkind * Z) (us : list (tkind * Z)), written s (fst t :: map fst us) -> exists x, fst t = TIdent ("."%char :: x).
Proof. intros s (k, l) us W. cbn [fst] in W |- *. inversion W; subst; eexists; reflexivity. Qed.
Lemma front_cut : forall lab l n ts ss ops, front lab l n ts ss ops -> exists a1 a2, ts = a1 ++ a2 /\ count_semis a1 = List.length ops /\
  (a1 = [] \/ exists b l, a1 = b ++ [(TSemi, l)]) /\ (a2 = [] \/ exists s l us, a2 = (TIdent ("."%char :: s), l) :: us).
Proof.
  intros lab l n ts ss ops F. induction F as [n|n s t us ts ss ops W O N F IH|n us ts ss op ops I F IH].
  - exists [], []. cbn. auto.
  - destruct IH as (a1 & a2 & -> & C & E1 & E2). assert (C0 : count_semis (t :: us) = 0%nat) by (apply count_kinds; exact (written_no_semi _ _ W)).
    destruct E1 as [-> |(b & l' & ->)].
    + exists [], (t :: us ++ a2). split; [reflexivity|]. split; [exact C|]. split; [auto|]. right. destruct (written_dot _ _ _ W) as (x & X).
      destruct t as (k, l'). cbn [fst] in X. subst k. eauto.
    + exists ((t :: us) ++ b ++ [(TSemi, l')]), a2. split; [cbn [app]; rewrite <- !app_assoc; reflexivity|]. split; [rewrite count_app, C0; exact C|].
      split; [|exact E2]. right. exists ((t :: us) ++ b), l'. rewrite <- app_assoc. reflexivity.
  - destruct IH as (a1 & a2 & -> & C & E1 & E2). destruct (instruction_close _ _ _ _ I) as (x & l' & -> & CX).
    exists ((x ++ [(TSemi, l')]) ++ a1), a2. split; [rewrite <- !app_assoc; reflexivity|]. split; [rewrite !count_app, CX, C; reflexivity|]. split; [|exact E2].
    right. destruct E1 as [-> |(b & l2 & ->)]; [exists x, l'; rewrite app_nil_r; reflexivity|]. exists ((x ++ [(TSemi, l')]) ++ b), l2. rewrite <- !app_assoc. reflexivity.
Qed.
Lemma app_compare : forall (A : Type) (p s p' s' : list A), p ++ s = p' ++ s' -> (exists y, p' = p ++ y) \/ (exists y, p = p' ++ y).
Proof.
  induction p as [|a p IH]; intros s p' s' E; [left; exists p'; reflexivity|]. destruct p' as [|b p']; [right; exists (a :: p); reflexivity|].
  cbn [app] in E. injection E as -> E. destruct (IH _ _ _ E) as [(y & ->)|(y & ->)]; [left|right]; exists y; reflexivity.
Qed.
Lemma closed_more : forall p y, (p ++ y = [] \/ exists b l, p ++ y = b ++ [(TSemi, l)]) -> count_semis (p ++ y) = count_semis p -> y = [].
Proof.
  intros p y C E. destruct y as [|u y] using rev_ind; [reflexivity|]. clear IHy. exfalso.
  destruct C as [C|(b & l & C)]; [destruct p; [destruct y; discriminate|discriminate]|]. rewrite app_assoc in C. apply app_inj_tail in C as (_ & ->).
  rewrite !count_app in E. change (count_semis [(TSemi, l)]) with 1%nat in E. lia.
Qed.
Lemma semis_cut : forall p s p' s', (p = [] \/ exists b l, p = b ++ [(TSemi, l)]) -> (p' = [] \/ exists b l, p' = b ++ [(TSemi, l)]) ->
  count_semis p = count_semis p' -> p ++ s = p' ++ s' -> p = p' /\ s = s'.
Proof.
  intros p s p' s' C C' N E. enough (p = p') as <- by (split; [reflexivity|apply app_inv_head in E; exact E]).
  destruct (app_compare _ _ _ _ _ E) as [(y & ->)|(y & ->)].
  - rewrite (closed_more p y C' (eq_sym N)), app_nil_r. reflexivity.
  - rewrite (closed_more p' y C N), app_nil_r. reflexivity.
Qed.
Theorem statement_instruction : forall a code w n before us after, ~ In NUL code -> assemble a code = Ok w ->
  lexes code 0 (before ++ us ++ after) -> statement n before us -> instruction_at code w n before us after.
Proof.
  intros a code w n before us after N A L (CN & CB & ND & x & l & -> & CX).
  destruct (instruction_found _ _ _ _ n N A L) as (a0 & u & b & E & AT).
  { enough (X : forall ts, count_semis ts = List.length (filter is_semi (map fst ts))).
    - rewrite <- X, !count_app, CN. change (count_semis [(TSemi, l)]) with 1%nat. lia.
    - induction ts as [|(k, l') ts IH]; [reflexivity|]. unfold count_semis in *. cbn [filter map fst]. destruct k; try exact IH. cbn [is_semi List.length]. rewrite IH. reflexivity. }
  pose proof AT as (lab & ss1 & ops1 & op & ss2 & ops2 & _ & _ & FR & LN & IN & _).
  destruct (front_cut _ _ _ _ _ _ FR) as (a1 & a2 & -> & C1 & E1 & E2). rewrite <- (app_assoc a1 a2) in E.
  apply semis_cut in E as (-> & E); [|assumption|assumption|congruence].
  destruct E2 as [-> |(s & l' & us & ->)].
  - cbn [app] in E. destruct (instruction_close _ _ _ _ IN) as (y & l2 & -> & CY). rewrite <- !app_assoc in E. cbn [app] in E.
    assert (X : x = y /\ l = l2 /\ after = b).
    { clear - E CX CY. revert y CY E. induction x as [|(k, i) x IH]; intros [|(k', i') y] CY E; cbn [app] in E; injection E.
      - auto.
      - intros _ _ <-. discriminate.
      - intros _ _ ->. discriminate.
      - intros E' -> ->. assert (CX' : count_semis x = 0%nat) by (unfold count_semis in *; cbn [filter fst] in CX; destruct k'; cbn in CX; try discriminate; exact CX).
        assert (CY' : count_semis y = 0%nat) by (unfold count_semis in *; cbn [filter fst] in CY; destruct k'; cbn in CY; try discriminate; exact CY).
        destruct (IH CX' y CY' E') as (-> & -> & ->). auto. }
    destruct X as (-> & -> & ->). rewrite app_nil_r in AT. exact AT.
  - exfalso. cbn [app] in E. destruct x as [|v x]; cbn [app] in E; [discriminate|]. injection E as -> E.
    exact (ND s l' (x ++ [(TSemi, l)]) eq_refl).
Qed.
