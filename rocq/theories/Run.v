(** * Run: the command line tool, and rules on what diagnostics say. *)
From Verif Require Import Encode Base Float Lexer Operand Catalogue Table Parse Assemble Diag Spec LexFacts Reach Decode Insn Program
  SpecLex Lexemes Where SpecProgram SpecLink SpecCli Cli SpecDiag Message Told Report.
From Coq Require Import Lia.
Local Open Scope string_scope.
Local Open Scope list_scope.
Open Scope Z_scope.

(** ** Whole runs *)

Lemma before_small : forall data p, before_nul data p -> small data -> small p.
Proof. intros data p (_ & [->|(q & ->)]) S; [exact S|]. eapply small_prefix, S. Qed.
Lemma command_plain : forall args m, args_error args m -> plain_ok m = true.
Proof. intros args m []; vm_compute; reflexivity. Qed.
Lemma open_prints : forall o, printf false (open_message o) = Some (c_string o ++ lit ": failed to open") /\ printf true (open_message o) = Some (c_string o ++ lit ": failed to open").
Proof. intros o. split; (fmt_is (lit "%s" ++ lit ": failed to open"); unfold open_message; cbn [m_args]; rewrite format_s, format_end by reflexivity; reflexivity). Qed.

(** What is printed about the program [code] of the file [i]. *)
Inductive reported (i code : text) : text -> text -> Prop :=
| reported_program : forall s, In s program_sentences -> reported i code (lit s) (error_text (lit s))
| reported_place : forall b g q body p, about code b g q body -> place_text i (Where.newlines (b ++ g)) (width (last_line (b ++ g))) p ->
    reported i code body (p ++ error_text body).
Lemma reported_always : forall a code d i, assemble a code = Fatal d -> ~ In NUL code -> small code ->
  exists body err, reported i code body err /\ stderr_of false i d = Some err /\ stderr_of true i d = if miscast body then None else Some err.
Proof.
  intros a code d i A N S. destruct (assemble_says a code d A N S) as [(PN & s & IS & PR)|(b & g & q & body & AB & PS & PR)].
  - exists (lit s), (error_text (lit s)). split; [apply reported_program, IS|]. apply plain_stderr; assumption.
  - destruct (placed_stderr i d body _ _ PS PR) as (p & PT & S1 & S2). exists body, (p ++ error_text body). split; [eapply reported_place; eassumption|]. split; assumption.
Qed.
(** The runs of the tool: exit status, stderr and files; [None] when the run has
    no defined outcome. *)
Inductive run (strict asserts : bool) (args : list text) (w : world) : option (Z * text * world) -> Prop :=
| run_arguments : forall m, args_error args m -> run strict asserts args w (Some (1, error_text (lit m), w))
| run_no_input : forall i o, names args i o -> files w i = None -> run strict asserts args w None
| run_rejected : forall i o data code d body err, names args i o -> files w i = Some data -> before_nul data code ->
    assemble asserts code = Fatal d -> reported i code body err -> (strict = true -> miscast body = false) -> run strict asserts args w (Some (1, err, w))
| run_miscast : forall i o data code d body err, names args i o -> files w i = Some data -> before_nul data code ->
    assemble asserts code = Fatal d -> reported i code body err -> strict = true -> miscast body = true -> run strict asserts args w None
| run_undefined : forall i o data code, names args i o -> files w i = Some data -> before_nul data code ->
    (exists u, assemble asserts code = Undef u) \/ (exists x, assemble asserts code = Abort x) -> run strict asserts args w None
| run_no_output : forall i o data code bin s, names args i o -> files w i = Some data -> before_nul data code ->
    assemble asserts code = Ok bin -> writable w o = false -> shown o s -> run strict asserts args w (Some (1, error_text (s ++ lit ": failed to open"), w))
| run_written : forall i o data code bin out w', names args i o -> files w i = Some data -> before_nul data code ->
    assemble asserts code = Ok bin -> writable w o = true -> little_endian bin out -> files w' o = Some out ->
    (forall n, n <> o -> files w' n = files w n) -> (forall n, writable w' n = writable w n) -> run strict asserts args w (Some (0, [], w')).

Theorem cli_runs : forall strict a args w, (forall n data, files w n = Some data -> small data) -> run strict a args w (cli_run strict a args w).
Proof.
  intros strict a args w SM. unfold cli_run.
  destruct (args_cases args) as [(i & o & N & P)|(m & E & _)].
  2:{ rewrite (cli_rejects a args w m E). destruct (plain_stderr (match parse_args args None None with Ok (Some i, _) => i | _ => [] end) (Diag None m) (lit m) eq_refl (plain_prints _ (command_plain _ _ E))) as (S1 & S2).
      assert (MC : miscast (lit m) = false) by (destruct E; reflexivity). rewrite MC in S2. destruct strict; [rewrite S2|rewrite S1]; apply run_arguments, E. }
  rewrite P. cbv zeta. cbn iota. unfold cli_main. rewrite P. cbn [bind]. unfold read_file. destruct (files w i) as [data|] eqn:F; cbn [bind]; [|eapply run_no_input; eassumption].
  pose proof (c_string_before data) as B. set (code := c_string data) in *. clearbody code. pose proof (assemble_outcomes a code) as AO.
  destruct (assemble a code) as [bin|d|d|x|u|] eqn:A; cbn [bind]; try contradiction.
  - destruct (writable w o) eqn:W.
    + pose proof (words_little_endian bin) as LE. set (bytes := words_to_bytes bin) in *. clearbody bytes. eapply run_written; try eassumption; unfold write_file; cbn [files].
      * rewrite (proj2 (text_eqb_eq o o) eq_refl). reflexivity.
      * intros n NE. destruct (text_eqb n o) eqn:EQ; [apply text_eqb_eq in EQ; contradiction|reflexivity].
      * reflexivity.
    + cbn [fatal_plain]. unfold stderr_of, fatal_plain_output. cbn [d_pos d_msg]. rewrite error_prints. destruct (open_prints o) as (O1 & O2).
      assert (O : printf strict (open_message o) = Some (c_string o ++ lit ": failed to open")) by (destruct strict; assumption). rewrite O. cbn [append].
      pose proof (run_no_output strict a args w i o data code bin (c_string o) N F B A W (c_string_shown o)) as R. unfold error_text in R. rewrite <- app_assoc. exact R.
  - pose proof (reported_always a code d i A (proj1 B) (before_small _ _ B (SM _ _ F))) as R.
    destruct R as (body & err & R & S1 & S2). destruct strict; [rewrite S2|rewrite S1].
    + destruct (miscast body) eqn:MC; [eapply run_miscast; try eassumption; reflexivity|]. eapply run_rejected; try eassumption. intros _. exact MC.
    + eapply run_rejected; try eassumption. discriminate.
  - eapply run_undefined; try eassumption. right. eauto.
  - eapply run_undefined; try eassumption. left. eauto.
Qed.
Corollary exit_status : forall strict a args w st err w', (forall n data, files w n = Some data -> small data) ->
  cli_run strict a args w = Some (st, err, w') ->
  (st = 0 /\ err = [] /\ exists i o bin out, names args i o /\ little_endian bin out /\ files w' o = Some out /\ forall n, n <> o -> files w' n = files w n) \/
  (st = 1 /\ w' = w /\ exists p body, err = p ++ error_text body).
Proof.
  intros strict a args w st err w' SM H. pose proof (cli_runs strict a args w SM) as R. rewrite H in R. remember (Some (st, err, w')) as res eqn:ER.
  destruct R as [m E|i o N F|i o data code d body err' N F B A R M|i o data code d body err' N F B A R S M|i o data code N F B U|i o data code bin s N F B A W S|i o data code bin out w'' N F B A W L O K Q]; try discriminate;
    injection ER as <- <- <-.
  - right. split; [reflexivity|]. split; [reflexivity|]. exists [], (lit m). reflexivity.
  - right. split; [reflexivity|]. split; [reflexivity|]. destruct R as [s _|b g q body p _ _]; [exists [], (lit s)|exists p, body]; reflexivity.
  - right. split; [reflexivity|]. split; [reflexivity|]. exists [], (s ++ lit ": failed to open"). reflexivity.
  - left. split; [reflexivity|]. split; [reflexivity|]. exists i, o, bin, out. auto.
Qed.

(** ** Line breaks *)

Definition lined (s : text) : Prop := In "010"%char s.
Lemma lined_app : forall a b, lined (a ++ b) -> lined a \/ lined b.
Proof. intros a b H. apply in_app_or, H. Qed.
Lemma lined_strong : forall s, lined (strong s) -> lined s.
Proof. intros s H. unfold strong in H. apply lined_app in H as [H|H]; [cbn in H; intuition discriminate|]. apply lined_app in H as [H|H]; [exact H|cbn in H; intuition discriminate]. Qed.
Lemma lined_red : forall s, lined (red s) -> lined s.
Proof. intros s H. unfold red in H. apply lined_app in H as [H|H]; [cbn in H; intuition discriminate|]. apply lined_app in H as [H|H]; [exact H|cbn in H; intuition discriminate]. Qed.
Lemma lined_shown : forall w s, shown w s -> lined s -> lined w.
Proof. intros w s [(-> & _)|(r & -> & _)] H; [exact H|]. apply in_or_app. left. exact H. Qed.
Lemma lined_denotes : forall s z, denotes 10 s z -> ~ lined s.
Proof.
  intros s z D. induction D as [|s v ch d D IH G]; [intros []|]. intros H. apply lined_app in H as [H|[H|[]]]; [exact (IH H)|]. subst ch.
  destruct G as (_ & [G|G]); apply nth_error_In in G; vm_compute in G; intuition discriminate.
Qed.
Lemma lined_numeral : forall z s, numeral z s -> ~ lined s.
Proof.
  intros z s [(_ & D & _)|(_ & s' & -> & D & _)].
  - eapply lined_denotes, D.
  - intros [H|H]; [discriminate|]. eapply lined_denotes; [exact D|exact H].
Qed.
Lemma lined_sentences : forallb (fun x => negb (existsb (Ascii.eqb "010") (lit (fst x)))) sentences = true.
Proof. vm_compute. reflexivity. Qed.
Lemma lined_descriptions : forallb (fun x => negb (existsb (Ascii.eqb "010") (lit x))) descriptions = true.
Proof. vm_compute. reflexivity. Qed.
Lemma lined_no : forall s, negb (existsb (Ascii.eqb "010") s) = true -> ~ lined s.
Proof. intros s H I. assert (X : existsb (Ascii.eqb "010") s = true) by (apply existsb_exists; exists "010"%char; split; [exact I|reflexivity]). rewrite X in H. discriminate. Qed.
Lemma unlined : forall s, lined s -> negb (existsb (Ascii.eqb "010") s) = true -> False.
Proof. intros s L H. exact (lined_no _ H L). Qed.
Lemma lined_chunk : forall s, number_chunk s -> ~ lined s.
Proof.
  intros s (a & b & -> & F & B) H. apply lined_app in H as [H|H].
  - rewrite Forall_forall in F. apply F in H. vm_compute in H. intuition discriminate.
  - destruct B as [->|(f & -> & F')]; [destruct H|]. destruct H as [H|H]; [discriminate|]. rewrite Forall_forall in F'. apply F' in H. vm_compute in H. intuition discriminate.
Qed.
Lemma lined_says : forall known df k s, says known df k s -> lined s -> exists w, k = TIdent w /\ lined w.
Proof.
  assert (Q : forall k s, shown (quoted k) s -> lined s -> exists w, k = TIdent w /\ lined w).
  { intros k s S H. apply (lined_shown _ _ S) in H. destruct k; try destruct H. exists s0. split; [reflexivity|exact H]. }
  intros known df k s H L. destruct H as [k s p I _|ty I|k ty w I NK ND SH|v z lo hi dz dlo dhi R LH D1 D2 D3|w s ND SH|w s SH|k s QK SH|k s QK NT SH|w s NK SH].
  - exfalso. exact (lined_no _ (forallb_in _ _ _ _ lined_sentences I) L).
  - exfalso. apply lined_app in L as [L|L]; [exact (unlined _ L eq_refl)|]. apply lined_strong in L. exact (lined_no _ (forallb_in _ _ _ _ lined_descriptions I) L).
  - apply lined_app in L as [L|L]; [destruct (unlined _ L eq_refl)|]. apply lined_app in L as [L|L].
    { apply lined_strong in L. destruct (lined_no _ (forallb_in _ _ _ _ lined_descriptions I) L). }
    apply lined_app in L as [L|L]; [destruct (unlined _ L eq_refl)|]. apply lined_strong in L. apply lined_app in L as [L|L]; [destruct k; destruct (unlined _ L eq_refl)|].
    apply lined_app in L as [L|L]; [destruct (unlined _ L eq_refl)|]. exact (Q _ _ SH L).
  - exfalso. apply lined_app in L as [L|L]; [exact (unlined _ L eq_refl)|]. apply lined_app in L as [L|L]; [apply lined_strong in L; exact (lined_numeral _ _ D1 L)|].
    apply lined_app in L as [L|L]; [exact (unlined _ L eq_refl)|]. apply lined_app in L as [L|L]; [exact (lined_numeral _ _ D2 L)|].
    apply lined_app in L as [L|L]; [exact (unlined _ L eq_refl)|]. apply lined_app in L as [L|L]; [exact (lined_numeral _ _ D3 L)|exact (unlined _ L eq_refl)].
  - apply lined_app in L as [L|L]; [destruct (unlined _ L eq_refl)|]. apply lined_app in L as [L|L]; [apply lined_strong in L; exact (Q (TIdent w) _ SH L)|destruct (unlined _ L eq_refl)].
  - apply lined_app in L as [L|L]; [destruct (unlined _ L eq_refl)|]. exact (Q (TIdent w) _ SH L).
  - apply lined_app in L as [L|L]; [destruct (unlined _ L eq_refl)|]. apply lined_strong in L. exact (Q _ _ SH L).
  - apply lined_app in L as [L|L]; [destruct (unlined _ L eq_refl)|]. apply lined_strong in L. exact (Q _ _ SH L).
  - apply lined_app in L as [L|L]; [destruct (unlined _ L eq_refl)|]. apply lined_strong in L. exact (Q (TIdent w) _ SH L).
Qed.
Lemma lined_complains : forall q s, complains q s -> lined s -> exists r, q = "!"%char :: r.
Proof.
  intros q s H L. destruct H as [r _|s i neg r _ _ _ _|s r _ CH _ _|s r _ CH _|s r _ CH _|r _|s n r D _ _ _|r _ _]; try (exfalso; exact (unlined _ L eq_refl)).
  - eauto.
  - exfalso. apply lined_app in L as [L|L]; [exact (unlined _ L eq_refl)|]. apply lined_red in L. exact (lined_chunk _ CH L).
  - exfalso. apply lined_app in L as [L|L]; [exact (unlined _ L eq_refl)|]. apply lined_app in L as [L|L]; [|exact (unlined _ L eq_refl)].
    apply lined_red in L as [L|L]; [discriminate|]. exact (lined_denotes _ _ D L).
Qed.
(** A message of several lines is about a '!' or quotes a lone 'P' with the line
    break behind it. *)
Theorem message_lines : forall code b g q body, about code b g q body -> lined body ->
  (exists r, q = "!"%char :: r) \/
  (exists bg neg p t r, q = (bg ++ p :: "010"%char :: t) ++ r /\ bang bg neg /\ In p (lit "Pp")).
Proof.
  intros code b g q body (_ & _ & _ & [(w & k & r & E & TT & SY)|(_ & CM)]) L; [|left; eapply lined_complains; eassumption].
  right. destruct (lined_says _ _ _ _ SY L) as (w' & -> & LW). destruct TT as [TT|(_ & X & _)]; [|discriminate].
  inversion TT as [ch k q' IO _ E1 E2| | | | | | |w0 q' NM _ _ E1 E2]; subst.
  { cbn in IO. repeat (destruct IO as [IO|IO]; [discriminate|]). destruct IO. }
  destruct NM as [(h & t & E & F & NB & _)|(bg & neg & p & x & t & E & BG & IP & IX & F)]; subst w'.
  - exfalso. destruct LW as [->|LW]; [apply NB; cbn; tauto|]. rewrite Forall_forall in F. apply (F _ LW). cbn. tauto.
  - exists bg, neg, p, t, r. assert (x = "010"%char) as ->.
    { apply lined_app in LW as [LW|LW]; [destruct BG as [(-> & _)|(-> & _)]; cbn in LW; intuition discriminate|].
      destruct LW as [->|[E|LW]]; [cbn in IP; intuition discriminate|exact E|]. exfalso. rewrite Forall_forall in F. apply (F _ LW). cbn. tauto. }
    auto.
Qed.

(** ** What was expected *)

Lemma headed_app : forall p s, headed p (p ++ s) = true.
Proof. induction p as [|ch p IH]; intros s; [reflexivity|]. cbn. rewrite Ascii.eqb_refl. apply IH. Qed.
(** The texts with variable parts start differently. *)
Definition varied (s : text) : bool :=
  existsb (fun p => headed p s) [lit "expected " ++ escape "[1m"; lit "integer "; lit "label " ++ escape "[1m"; lit "unexpected test "; lit "invalid system register "; lit "invalid program type "; lit "unknown mnemonic "].
Lemma says_fixed : forall known df k s, says known df k s -> varied s = false -> exists x p, s = lit x /\ In (x, p) sentences /\ p k = true.
Proof.
  intros known df k s H V. destruct H as [k s p I P|ty I|k ty w I NK ND SH|v z lo hi dz dlo dhi R LH D1 D2 D3|w s ND SH|w s SH|k s QK SH|k s QK NT SH|w s NK SH]; [eauto| | | | | | | |]; exfalso; unfold varied in V; cbn in V; discriminate.
Qed.
Lemma lit_inj : forall a b, lit a = lit b -> a = b.
Proof. intros a b H. apply (f_equal string_of_list_ascii) in H. unfold lit in H. rewrite !string_of_list_ascii_of_string in H. exact H. Qed.
Lemma sentences_distinct : NoDup (map fst sentences).
Proof.
  assert (G : forall l : list string, (fix go l := match l with [] => true | x :: r => if existsb (String.eqb x) r then false else go r end) l = true -> NoDup l).
  { induction l as [|x l IH]; intros H; [constructor|]. destruct (existsb (String.eqb x) l) eqn:E; [discriminate|]. constructor; [|exact (IH H)].
    intros I. assert (X : existsb (String.eqb x) l = true) by (apply existsb_exists; exists x; split; [exact I|apply String.eqb_refl]). congruence. }
  apply G. vm_compute. reflexivity.
Qed.
Lemma sentence_unique : forall x p p', In (x, p) sentences -> In (x, p') sentences -> p = p'.
Proof.
  pose proof sentences_distinct as ND. induction sentences as [|(y, f) l IH]; intros x p p' I I'; [destruct I|]. cbn [map fst] in ND. inversion ND as [|? ? NI ND']; subst.
  destruct I as [I|I], I' as [I'|I'].
  - congruence.
  - exfalso. injection I as -> _. apply NI. exact (in_map fst _ _ I').
  - exfalso. injection I' as -> _. apply NI. exact (in_map fst _ _ I).
  - exact (IH ND' _ _ _ I I').
Qed.
Lemma said_once : forall known df k x p, says known df k (lit x) -> lookup x = Some p -> varied (lit x) = false -> p k = true.
Proof.
  intros known df k x p H L V. apply says_fixed in H as (x' & p' & E & I & P); [|exact V]. apply lit_inj in E. subst x'.
  rewrite (sentence_unique _ _ _ (lookup_in _ _ L) I). exact P.
Qed.
Lemma words_refused : forallb (fun e => if varied (lit (fst e)) then false else
  match lookup (fst e) with Some p => forallb (fun x => negb (p (TIdent (lit x)))) (snd e) | None => false end) named_words = true.
Proof. vm_compute. reflexivity. Qed.
Theorem word_not_expected : forall known df s l x, In (s, l) named_words -> In x l -> ~ says known df (TIdent (lit x)) (lit s).
Proof.
  intros known df s l x I IX H. pose proof (forallb_in _ _ _ _ words_refused I) as R. cbn [fst snd] in R. destruct (varied (lit s)) eqn:V; [discriminate|].
  destruct (lookup s) as [p|] eqn:L; [|discriminate]. pose proof (forallb_in _ _ _ _ R IX) as N. cbn beta in N. rewrite (said_once _ _ _ _ _ H L V) in N. discriminate.
Qed.
Theorem kind_not_expected : forall known df s f k, In (s, f) named_kinds -> f k = true -> ~ says known df k (lit s).
Proof.
  intros known df s f k I F H. cbn [named_kinds In] in I.
  repeat (destruct I as [I|I]; [injection I as <- <-; eapply said_once in H; [|reflexivity|reflexivity]; cbn [snd] in H; destruct k as [| | | |z| | | | | | | | | |]; try discriminate; destruct z; discriminate|]).
  destruct I.
Qed.

(** A text starts with one token. *)
Lemma token_here : forall q w k r, q = w ++ r -> token_text w k r -> exists t c', tokenize (Cursor q 0 0) = Ok (t, c') /\ kind t = k /\ rest c' = r.
Proof.
  intros q w k r E TT. pose (c' := Cursor r (lines w 0) (cols w 0)). exists (Token k 0 0), c'. split; [|split; reflexivity].
  apply tokenize_iff. exists [], w, (Cursor q 0 0). split; [apply moves_refl|]. split; [apply gap_blank; constructor|]. split; [repeat split; exact E|]. split; [exact TT|split; reflexivity].
Qed.
Lemma token_unique : forall q w k r w' k' r', q = w ++ r -> token_text w k r -> q = w' ++ r' -> token_text w' k' r' -> k = k' /\ r = r'.
Proof.
  intros q w k r w' k' r' E TT E' TT'. destruct (token_here _ _ _ _ E TT) as (t & c & T & K & R), (token_here _ _ _ _ E' TT') as (t' & c2 & T' & K' & R').
  rewrite T in T'. injection T' as <- <-. split; congruence.
Qed.
Lemma token_not_bad : forall q w k r, q = w ++ r -> token_text w k r -> ~ bad_text q.
Proof.
  intros q w k r E TT B. destruct (token_here _ _ _ _ E TT) as (t & c & T & _). assert (X : exists d, tokenize (Cursor q 0 0) = Fatal d).
  { apply tokenize_fatal_iff. exists [], (Cursor q 0 0). split; [apply moves_refl|]. split; [apply gap_blank; constructor|exact B]. }
  destruct X as (d & X). congruence.
Qed.
(** What is said where a token stands is said about that token. *)
Lemma about_token : forall code b g q body w k r, about code b g q body -> q = w ++ r -> token_text w k r -> says mnemonic (defined code) k body.
Proof.
  intros code b g q body w k r (_ & _ & _ & [(w' & k' & r' & E' & TT' & SY)|(BT & _)]) E TT.
  - destruct (token_unique _ _ _ _ _ _ _ E TT E' TT') as (-> & _). exact SY.
  - destruct (token_not_bad _ _ _ _ E TT BT).
Qed.
Theorem words_expected : forall code b g q s l w r x, about code b g q (lit s) -> In (s, l) named_words -> In x l -> q = w ++ r -> ~ token_text w (TIdent (lit x)) r.
Proof. intros code b g q s l w r x A I IX E TT. exact (word_not_expected _ _ _ _ _ I IX (about_token _ _ _ _ _ _ _ _ A E TT)). Qed.
Theorem kinds_expected : forall code b g q s f w k r, about code b g q (lit s) -> In (s, f) named_kinds -> q = w ++ r -> token_text w k r -> f k = false.
Proof.
  intros code b g q s f w k r A I E TT. destruct (f k) eqn:F; [|reflexivity]. destruct (kind_not_expected _ _ _ _ _ I F (about_token _ _ _ _ _ _ _ _ A E TT)).
Qed.

(** ** Numbers out of range *)

Lemma low_half_small : forall v z, low_half v z -> - 2 ^ 31 <= v < 2 ^ 31 -> z = v.
Proof. intros v z (B & q & ->) R. lia. Qed.
Lemma sentence_heads : forallb (fun x => negb (headed (lit "integer ") (lit (fst x)))) sentences = true.
Proof. vm_compute. reflexivity. Qed.
Theorem range_message_about : forall code b g q body, about code b g q body -> headed (lit "integer ") body = true ->
  exists w v r z lo hi dz dlo dhi, q = w ++ r /\ token_text w (TImm v) r /\ (v < lo \/ hi < v) /\ numeral z dz /\ numeral lo dlo /\ numeral hi dhi /\
    body = lit "integer " ++ strong dz ++ lit " is out of range, expected to be from " ++ dlo ++ lit " to " ++ dhi ++ lit " inclusively" /\
    low_half v z /\ (- 2 ^ 31 <= v < 2 ^ 31 -> z = v).
Proof.
  intros code b g q body (_ & _ & _ & [(w & k & r & E & TT & SY)|(_ & CM)]) H.
  - destruct SY as [k s p I _|ty I|k ty x I NK ND SH|v z lo hi dz dlo dhi R LH D1 D2 D3|x s ND SH|x s SH|k s QK SH|k s QK NT SH|x s NK SH]; try discriminate.
    + exfalso. pose proof (forallb_in _ _ _ _ sentence_heads I) as N. cbn beta in N. cbn [fst] in N. rewrite H in N. discriminate.
    + exists w, v, r, z, lo, hi, dz, dlo, dhi. repeat (split; [first [assumption|reflexivity]|]). intros B. exact (low_half_small _ _ LH B).
  - exfalso. destruct CM; discriminate.
Qed.

(** ** Named words *)

(** The labels and mnemonics a message calls unknown are so. *)
Theorem unknown_words : forall code b g q body, about code b g q body ->
  (headed (lit "label " ++ escape "[1m") body = true -> exists w r, q = w ++ r /\ token_text w (TIdent w) r /\ ~ defined code w) /\
  (headed (lit "unknown mnemonic ") body = true -> exists w r, q = w ++ r /\ token_text w (TIdent w) r /\ ~ mnemonic w).
Proof.
  assert (Z : forallb (fun x => if headed (lit "label " ++ escape "[1m") (lit (fst x)) then false else if headed (lit "unknown mnemonic ") (lit (fst x)) then false else true) sentences = true) by (vm_compute; reflexivity).
  assert (TI : forall w v r, token_text w (TIdent v) r -> w = v).
  { intros w v r [L|(_ & X & _)]; [|discriminate]. inversion L as [ch k q' IO _ E1 E2| | | | | | |w0 q' NM _ _ E1 E2]; [|reflexivity]. cbn in IO. repeat (destruct IO as [IO|IO]; [discriminate|]). destruct IO. }
  intros code b g q body (_ & _ & _ & [(w & k & r & E & TT & SY)|(_ & CM)]).
  - destruct SY as [k s p I _|ty I|k ty x I NK ND SH|v z lo hi dz dlo dhi R LH D1 D2 D3|x s ND SH|x s SH|k s QK SH|k s QK NT SH|x s NK SH];
      try (split; intros H; discriminate H).
    + pose proof (forallb_in _ _ _ _ Z I) as N. cbn beta in N. cbn [fst] in N. split; intros H; rewrite H in N; [discriminate|]. destruct (headed _ _); discriminate.
    + split; intros H; [|discriminate H]. pose proof (TI _ _ _ TT) as ->. eauto.
    + split; intros H; [discriminate H|]. pose proof (TI _ _ _ TT) as ->. eauto.
  - split; intros H; destruct CM; discriminate H.
Qed.

(** Tokens of given texts, decided by the tokenizer. *)
Lemma still : forall p l o, lines p l = l -> cols p o = o -> p = [].
Proof.
  intros p l o L C. rewrite lines_newlines in L. rewrite cols_width in C. assert (N : existsb (Ascii.eqb "010") p = false).
  { destruct (existsb (Ascii.eqb "010") p) eqn:E; [|reflexivity]. apply existsb_exists in E as (x & I & E). exfalso.
    assert (IF : In x (filter (Ascii.eqb "010") p)) by (apply filter_In; auto). unfold Where.newlines in L. destruct (filter (Ascii.eqb "010") p); [destruct IF|]. cbn [List.length] in L. lia. }
  rewrite N in C. destruct p as [|ch p]; [reflexivity|]. exfalso. assert (W : forall q, 0 <= width q) by (induction q as [|x q IH]; [cbn; lia|]; cbn [width fold_right]; fold (width q); destruct (Ascii.eqb x "009"); lia).
  cbn [width fold_right] in C. fold (width p) in C. specialize (W p). destruct (Ascii.eqb ch "009"); lia.
Qed.
Lemma token_decided : forall w k r, match tokenize (Cursor (w ++ r) 0 0) with Ok (Token k' 0 0, c') => k' = k /\ rest c' = r | _ => False end -> token_text w k r.
Proof.
  intros w k r H. destruct (tokenize (Cursor (w ++ r) 0 0)) as [([k' l o], c')| | | | |] eqn:T; try contradiction.
  destruct l; try contradiction. destruct o; try contradiction. apply tokenize_iff in T as (g & s & cs & M & _ & M2 & TT & L & C). cbn [kind t_line t_col] in *.
  destruct M as (E & ML & MC), M2 as (E2 & _). cbn [rest line col] in *. assert (G : g = []) by (apply (still g 0 0); congruence). subst g. cbn [app] in E. rewrite E2 in E.
  destruct H as (-> & HR). rewrite HR in *. apply app_inv_tail in E. subst w. exact TT.
Qed.
