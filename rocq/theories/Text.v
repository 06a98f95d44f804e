(** * Text: what the characters of a text are read as, in any surroundings. *)
From Verif Require Import Base Float Lexer Operand Catalogue Table Parse Assemble Spec LexFacts SchedFuel Param Reach ParseFacts
  Outcomes Decode Program Modes SpecInsn Insn Position Literals SpecLex Lexemes Stream Cut Where.
From Coq Require Import Lia.
Local Open Scope char_scope.
Local Open Scope list_scope.
Open Scope Z_scope.

(** The first token of [l] is [k], and [q] is left, wherever [l] stands. *)
Definition reads (l : text) (k : tkind) (q : text) : Prop :=
  forall a b, exists t c, tokenize (Cursor l a b) = Ok (t, c) /\ kind t = k /\ rest c = q.
(** The text is rejected at its first token, with a position. *)
Definition rejects (l : text) : Prop :=
  forall a b, exists d, tokenize (Cursor l a b) = Fatal d /\ d_pos d <> None.

Lemma moves_along : forall p q a b, exists c, moves (Cursor (p ++ q) a b) p c /\ rest c = q.
Proof. intros p q a b. exists (Cursor q (lines p a) (cols p b)). split; [|reflexivity]. split; [reflexivity|]. split; reflexivity. Qed.
Lemma reads_iff : forall l k q, reads l k q <-> exists g s, l = g ++ s ++ q /\ gap g (s ++ q) /\ token_text s k q.
Proof.
  intros l k q. split.
  - intros H. destruct (H 0 0) as (t & c & T & <- & <-). apply tokenize_iff in T as (g & s & cs & (M1 & _) & GP & (M2 & _) & TT & _).
    cbn [rest] in M1. exists g, s. rewrite <- M2. auto.
  - intros (g & s & -> & GP & TT) a b. destruct (moves_along g (s ++ q) a b) as (cs & M1 & R1). destruct cs as [r1 a1 b1]. cbn [rest] in R1. subst r1.
    destruct (moves_along s q a1 b1) as (c & M2 & R2). exists (Token k a1 b1), c. split; [|auto]. apply tokenize_iff.
    exists g, s, (Cursor (s ++ q) a1 b1). rewrite R2. auto 8.
Qed.
Lemma rejects_iff : forall l, rejects l <-> exists g q, l = g ++ q /\ gap g q /\ bad_text q.
Proof.
  intros l. split.
  - intros H. destruct (H 0 0) as (d & T & _). destruct (proj1 (tokenize_fatal_iff _) (ex_intro _ d T)) as (g & cs & (M & _) & GP & B). eauto.
  - intros (g & q & -> & GP & B) a b. destruct (moves_along g q a b) as (cs & M & R). 
    destruct (proj2 (tokenize_fatal_iff (Cursor (g ++ q) a b))) as (d & T); [exists g, cs; rewrite R; auto|].
    exists d. split; [exact T|]. apply tokenize_fatal_at in T as (? & ? & _ & _ & _ & ->). discriminate.
Qed.
Lemma reads_fun : forall l k q k' q', reads l k q -> reads l k' q' -> k = k' /\ q = q'.
Proof.
  intros l k q k' q' H H'. destruct (H 0 0) as (t & c & T & <- & <-). destruct (H' 0 0) as (t' & c' & T' & <- & <-).
  rewrite T in T'. injection T' as <- <-. auto.
Qed.
Lemma reads_lexeme : forall g s k q, gap g (s ++ q) -> lexeme s k q -> reads (g ++ s ++ q) k q.
Proof. intros g s k q GP L. apply reads_iff. exists g, s. split; [reflexivity|]. split; [exact GP|]. left. exact L. Qed.
Lemma reads_not_rejects : forall l k q, reads l k q -> ~ rejects l.
Proof. intros l k q H R. destruct (H 0 0) as (t & c & T & _). destruct (R 0 0) as (d & T' & _). congruence. Qed.

(** ** C28 *)
Theorem literal_value : forall g s v q, gap g (s ++ q) -> integer s v -> number_ends q ->
  reads (g ++ s ++ q) (TImm (saturate v)) q.
Proof. intros g s v q GP I E. apply reads_lexeme; [exact GP|]. constructor; assumption. Qed.
Theorem literal_fraction : forall g s neg v k q, gap g (s ++ q) -> fraction s neg v k -> ends q ->
  reads (g ++ s ++ q) (TFloat (f32_of_ratio neg v (10 ^ k))) q.
Proof. intros g s neg v k q GP I E. apply reads_lexeme; [exact GP|]. constructor; assumption. Qed.
Lemma sign_unique : forall sg neg sg' neg', sign sg neg -> sign sg' neg' -> sg = sg' -> neg = neg'.
Proof. intros sg neg sg' neg' [] [] E; try reflexivity; discriminate. Qed.
Theorem literal_source : forall l z q, reads l (TImm z) q ->
  exists g s v, l = g ++ s ++ q /\ gap g (s ++ q) /\ integer s v /\ number_ends q /\ z = saturate v.
Proof.
  intros l z q H. apply reads_iff in H as (g & s & -> & GP & [L|(_ & E & _)]); [|discriminate]. exists g, s.
  inversion L; subst; try discriminate; eauto 8.
  match goal with H : In (_, TImm _) operators |- _ => cbn in H; repeat (destruct H as [H|H]; [discriminate H|]); contradiction end.
Qed.
(** A text that starts like a number is a literal up to a separator, or it is
    rejected.  Dimensions ("2D") are names. *)
Theorem literal_whole : forall g l, gap g l -> number_start l -> ~ (exists d r, l = d :: "D" :: r /\ In d decimals) ->
  (exists s v q, l = s ++ q /\ integer s v /\ number_ends q /\ reads (g ++ l) (TImm (saturate v)) q) \/
  (exists s neg v k q, l = s ++ q /\ fraction s neg v k /\ ends q /\ reads (g ++ l) (TFloat (f32_of_ratio neg v (10 ^ k))) q) \/
  ((forall s v q, l = s ++ q -> integer s v -> ~ number_ends q) /\
   (forall s neg v k q, l = s ++ q -> fraction s neg v k -> ~ ends q) /\ rejects (g ++ l)).
Proof.
  intros g l GP NS ND. destruct (moves_along g l 0 0) as (cs & M & R).
  assert (F : is_blank (peek l) = false).
  { destruct NS as (sg & neg & ch & l' & -> & S & D). destruct S; try reflexivity. apply decimal_in in D. apply decimal_facts in D. apply D. }
  pose proof (gap_tokenize g l _ cs GP M R F) as T. pose proof (tokenize1_number cs) as TN. rewrite R in TN. specialize (TN NS ND).
  destruct (immediate_outcome (Token TNone (line cs) (col cs)) cs) as [(k & c' & E)|(m & E)]; [rewrite R; exact NS| |].
  - destruct (immediate_sound (Token TNone (line cs) (col cs)) cs k c') as (s & (MS & _) & A); [rewrite R; exact NS|exact E|]. rewrite R in MS.
    destruct A as [(v & IV & NE & ->)|(neg & v & n & FR & NE & ->)].
    + left. exists s, v, (rest c'). repeat split; try assumption; try apply NE. rewrite MS. apply literal_value; [rewrite <- MS; exact GP|assumption..].
    + right. left. exists s, neg, v, n, (rest c'). do 3 (split; [assumption|]). rewrite MS. apply literal_fraction; [rewrite <- MS; exact GP|assumption..].
  - right. right. assert (TF : exists d, tokenize (Cursor (g ++ l) 0 0) = Fatal d).
    { rewrite T, tokenize_step, TN, E. cbn [bind]. eauto. }
    split; [|split].
    + intros s v q EL IV NE. destruct TF as (d & TF). rewrite EL in GP, TF. destruct (literal_value g s v q GP IV NE 0 0) as (t & c & X & _). congruence.
    + intros s neg v k q EL IV NE. destruct TF as (d & TF). rewrite EL in GP, TF. destruct (literal_fraction g s neg v k q GP IV NE 0 0) as (t & c & X & _). congruence.
    + apply rejects_iff. destruct (proj1 (tokenize_fatal_iff _) TF) as (g' & cs' & (M' & _) & GP' & B). exists g', (rest cs'). cbn [rest] in M'. auto.
Qed.

(** ** C29 *)
Theorem register_value : forall g s n q, gap g ("R" :: s ++ q) -> denotes 10 s n -> s <> [] -> ends q ->
  (n <= 254 -> reads (g ++ "R" :: s ++ q) (TReg (Z.to_N n)) q) /\ (254 < n -> rejects (g ++ "R" :: s ++ q)).
Proof.
  intros g s n q GP D NE E. split; intros L.
  - apply (reads_lexeme g ("R" :: s)); [exact GP|]. apply lexeme_register; assumption.
  - apply rejects_iff. exists g, ("R" :: s ++ q). split; [reflexivity|]. split; [exact GP|]. apply (bad_register s n); assumption.
Qed.
Theorem register_zero : forall g q, gap g ("R" :: "Z" :: q) -> ends q -> reads (g ++ "R" :: "Z" :: q) (TReg 255) q.
Proof. intros g q GP E. apply (reads_lexeme g ["R"; "Z"]); [exact GP|]. constructor. exact E. Qed.
Theorem predicate_value : forall g s i neg q, gap g (s ++ q) -> predicate_name s i neg -> ends q ->
  ((i <= 6)%N \/ ~ digit_name s -> reads (g ++ s ++ q) (TPred i neg) q) /\ (digit_name s -> (6 < i)%N -> rejects (g ++ s ++ q)).
Proof.
  intros g s i neg q GP P E. split; intros L.
  - apply reads_lexeme; [exact GP|]. apply lexeme_predicate; assumption.
  - intros G. apply rejects_iff. exists g, (s ++ q). split; [reflexivity|]. split; [exact GP|]. apply (bad_predicate s i neg); assumption.
Qed.
(** Names that start like a register or a predicate. *)
Theorem register_like : forall g t q, gap g ("R" :: t ++ q) -> Forall inner t -> ~ begins ["Z"] t -> (exists x, In x t /\ ~ In x decimals) ->
  ~ colon_last ("R" :: t) -> ends q -> reads (g ++ "R" :: t ++ q) (TIdent ("R" :: t)) q.
Proof.
  intros g t q GP F NZ X NC E. apply (reads_lexeme g ("R" :: t)); [exact GP|]. apply lexeme_name; [|exact NC|exact E]. left. exists "R", t.
  split; [reflexivity|]. split; [exact F|]. split; [intros [H|[H|[H|[H|[]]]]]; discriminate|]. split; [discriminate|].
  split; [cbn; intros H; repeat (destruct H as [H|H]; [discriminate|]); contradiction|].
  split; [cbn; intros H; repeat (destruct H as [H|H]; [discriminate|]); contradiction|]. split; [discriminate|].
  assert (NP : forall b neg p t', bang b neg -> In p ["P"; "p"] -> "R" :: t = b ++ p :: t' -> False).
  { intros b neg p t' B P H. destruct B as [(-> & _)|(-> & _)]; cbn in H; [|discriminate]. injection H as <- _. destruct P as [P|[P|[]]]; discriminate. }
  split; [intros b neg p t' B P H; exfalso; eapply NP; eassumption|]. split; [intros i neg (b & p & x & H & B & P & _); eapply NP; eassumption|]. auto.
Qed.
Theorem predicate_like : forall g b neg p x t q, gap g (b ++ p :: x :: t ++ q) -> bang b neg -> In p ["P"; "p"] -> Forall inner (x :: t) ->
  t <> [] \/ ~ In x (["T"; "t"] ++ decimals) -> ~ colon_last (x :: t) -> ends q ->
  reads (g ++ b ++ p :: x :: t ++ q) (TIdent (b ++ p :: x :: t)) q.
Proof.
  intros g b neg p x t q GP B P F X NC E. replace (b ++ p :: x :: t ++ q) with ((b ++ p :: x :: t) ++ q) in * by (rewrite <- app_assoc; reflexivity).
  apply reads_lexeme; [exact GP|]. apply lexeme_name; [|intros (w & H)|exact E].
  - left. apply (predicate_word b neg); try assumption. intros IX. destruct X as [X|X]; [exact X|]. exfalso. apply X.
    apply index_char_in in IX. apply orb_true_iff in IX as [IX|IX].
    + apply in_or_app. left. destruct x as [[] [] [] [] [] [] [] []]; vm_compute in IX; try discriminate; cbn; auto.
    + apply in_or_app. right. apply decimal_in, IX.
  - apply NC. destruct (@exists_last _ (x :: t)) as (l' & y & H'); [discriminate|]. rewrite H' in H |- *.
    exists l'. replace (b ++ p :: l' ++ [y]) with ((b ++ p :: l') ++ [y]) in H by (rewrite <- app_assoc; reflexivity).
    apply app_inj_tail in H as (_ & ->). reflexivity.
Qed.

(** ** C36 *)
Theorem consumes : forall c t c', tokenize c = Ok (t, c') ->
  exists g s, rest c = g ++ s ++ rest c' /\ gap g (s ++ rest c') /\
    (kind t <> TNone -> s <> []) /\ (kind t = TNone -> s = [] /\ (rest c' = [] \/ begins [NUL] (rest c'))).
Proof.
  intros c t c' T. apply tokenize_iff in T as (g & s & cs & (M1 & _) & GP & (M2 & _) & TT & _). exists g, s. rewrite <- M2.
  split; [exact M1|]. split; [exact GP|]. destruct TT as [L|(-> & -> & E)].
  - destruct (lexeme_first _ _ _ L) as (ch & r & -> & _). split; [discriminate|]. intros K. exfalso. clear - L K. inversion L; subst; try congruence.
    match goal with H : In _ operators |- _ => rewrite K in H; cbn in H; repeat (destruct H as [H|H]; [discriminate H|]); contradiction end.
  - split; [contradiction|auto].
Qed.

(** ** C30, C32 *)
Definition all_blank (ws : text) : Prop := Forall (fun ch => In ch blanks) ws.
Lemma same_rest_stream : forall c1 c2, same_text c1 c2 -> same_stream false c1 c2.
Proof.
  intros c1 c2 H n. revert c1 c2 H. induction n as [|n IH]; intros c1 c2 H; [reflexivity|]. cbn [stream].
  pose proof (tokenize_text _ _ H) as T. destruct (tokenize c1) as [(t1, b1)| | | | |], (tokenize c2) as [(t2, b2)| | | | |]; cbn in T; try contradiction; try discriminate T; try reflexivity.
  - destruct T as (K & S). cbn [fst snd] in *. unfold view. rewrite K. f_equal. apply IH, same_rest_text, S.
  - unfold dview. unfold same_msg in T. rewrite T. reflexivity.
  - rewrite T; reflexivity.
Qed.
Lemma blank_bool : forall ws, all_blank ws -> forallb is_blank ws = true.
Proof. intros ws F. apply forallb_forall. intros ch I. unfold all_blank in F. rewrite Forall_forall in F. rewrite blank_mem. apply mem_in, F, I. Qed.
Theorem blanks_skipped : forall ws l a b a' b', all_blank ws -> same_stream false (Cursor (ws ++ l) a b) (Cursor l a' b').
Proof. intros ws l a b a' b' F. apply same_rest_stream. apply skip_blanks, blank_bool, F. Qed.
Lemma same_stream_trans : forall ex c1 c2 c3, same_stream ex c1 c2 -> same_stream ex c2 c3 -> same_stream ex c1 c3.
Proof. intros ex c1 c2 c3 H1 H2 n. rewrite H1. apply H2. Qed.
Lemma same_stream_sym : forall ex c1 c2, same_stream ex c1 c2 -> same_stream ex c2 c1.
Proof. intros ex c1 c2 H n. symmetry. apply H. Qed.
Theorem gap_skipped : forall g q a b a' b', gap g q -> same_stream false (Cursor (g ++ q) a b) (Cursor q a' b').
Proof.
  intros g q a b a' b' GP. revert a b. induction GP as [ws q W|ws w g q W LT GP IH]; intros a b.
  - apply blanks_skipped, W.
  - rewrite <- !app_assoc. eapply same_stream_trans; [apply (blanks_skipped ws _ a b 0 0 W)|].
    destruct (moves_along w (g ++ q) 0 0) as (c & M & R). apply same_stream_trans with c.
    + intros [|n]; [reflexivity|]. cbn [stream]. rewrite (tokenize_step (Cursor (w ++ g ++ q) 0 0)), (label_complete _ w c M) by (rewrite R; exact LT). reflexivity.
    + destruct c as [r x y]. cbn [rest] in R. subst r. apply IH.
Qed.
Theorem labels_skipped : forall ws w q a b a' b', all_blank ws -> name w -> colon_last w -> ends q ->
  same_stream false (Cursor (ws ++ w ++ q) a b) (Cursor q a' b').
Proof.
  intros ws w q a b a' b' F N C E. replace (ws ++ w ++ q) with ((ws ++ w ++ []) ++ q) by (rewrite app_nil_r, <- app_assoc; reflexivity).
  apply gap_skipped. apply gap_label; [exact F| |constructor; constructor]. split; [exact N|]. split; [exact C|exact E].
Qed.

(** White space anywhere between tokens. *)
Lemma ends_ext : forall p q q', (ends q -> ends q') -> ends (p ++ q) -> ends (p ++ q').
Proof.
  intros [|ch p] q q' H E; [exact (H E)|]. right. destruct E as [E|(x & r & E & I)]; [discriminate|]. injection E as <- _. exists ch, (p ++ q'). auto.
Qed.
Lemma gap_ext : forall g q q', gap g q -> (ends q -> ends q') -> gap g q'.
Proof.
  intros g q q' GP H. induction GP as [ws q W|ws w g q W (N & C & E) GP IH]; [constructor; exact W|].
  apply gap_label; [exact W| |apply IH, H]. split; [exact N|]. split; [exact C|]. eapply ends_ext; eassumption.
Qed.
Lemma gap_app : forall g g' q, gap g (g' ++ q) -> gap g' q -> gap (g ++ g') q.
Proof.
  intros g g' q GP. remember (g' ++ q) as l eqn:EL. revert EL. induction GP as [ws l W|ws w g l W LT GP IH]; intros EL GP'; subst l.
  - destruct GP' as [ws' q W'|ws' w g' q W' LT GP'].
    + constructor. apply Forall_app. auto.
    + rewrite app_assoc. apply gap_label; [apply Forall_app; auto|exact LT|exact GP'].
  - rewrite <- !app_assoc. apply gap_label; [exact W|rewrite <- app_assoc; exact LT|]. apply IH; auto.
Qed.
Lemma blank_ends : forall ws q, all_blank ws -> ws <> [] -> number_ends (ws ++ q) /\ ~ begins decimals (ws ++ q).
Proof.
  intros [|ch ws] q F N; [contradiction|]. apply Forall_inv in F. split; [split|].
  - right. exists ch, (ws ++ q). split; [reflexivity|]. unfold separators. apply in_or_app. auto.
  - intros (x & r & E & I). injection E as <- _. destruct F as [<-|[<-|[<-|[<-|[]]]]]; cbn in I; repeat (destruct I as [I|I]; [discriminate|]); contradiction.
  - intros (x & r & E & I). injection E as <- _. destruct F as [<-|[<-|[<-|[<-|[]]]]]; cbn in I; repeat (destruct I as [I|I]; [discriminate|]); contradiction.
Qed.
Lemma begins_first : forall set ch q q', begins set (ch :: q) -> begins set (ch :: q').
Proof. intros set ch q q' (x & r & E & I). injection E as <- _. exists ch, q'. auto. Qed.
Lemma numeric_blank : forall ws q, all_blank ws -> numeric (ws ++ q) -> numeric q.
Proof.
  intros ws q F. induction ws as [|ch ws IH]; [auto|]. intros (sp & sg & neg & d & r & E & S & SG & D). apply IH; [apply Forall_inv_tail in F; exact F|].
  apply Forall_inv in F. destruct sp as [|x sp].
  - exfalso. cbn in E. destruct SG; injection E as -> _; destruct F as [F|[F|[F|[F|[]]]]]; try discriminate; subst d; cbn in D; repeat (destruct D as [D|D]; [discriminate|]); contradiction.
  - injection E as <- E. exists sp, sg, neg, d, r. apply Forall_inv_tail in S. auto.
Qed.
Lemma numeric_insert : forall p ws q, all_blank ws -> ws <> [] -> numeric (p ++ ws ++ q) -> numeric (p ++ q).
Proof.
  induction p as [|ch p IH]; intros ws q F NW H; [eapply numeric_blank; eassumption|].
  assert (BD : forall d l, In d decimals -> ws ++ q = d :: l -> False).
  { intros d l D E. apply (proj2 (blank_ends ws q F NW)). exists d, l. auto. }
  destruct H as (sp & sg & neg & d & r & E & S & SG & D). destruct sp as [|x sp].
  - destruct SG; injection E as -> E.
    + exists [], [], false, d, (p ++ q). split; [reflexivity|]. split; [constructor|]. split; [constructor|exact D].
    + destruct p as [|y p]; cbn [app] in E; [exfalso; exact (BD _ _ D E)|]. injection E as -> E.
      exists [], ["+"], false, d, (p ++ q). split; [reflexivity|]. split; [constructor|]. split; [constructor|exact D].
    + destruct p as [|y p]; cbn [app] in E; [exfalso; exact (BD _ _ D E)|]. injection E as -> E.
      exists [], ["-"], true, d, (p ++ q). split; [reflexivity|]. split; [constructor|]. split; [constructor|exact D].
  - injection E as <- E. destruct (IH ws q F NW) as (sp' & sg' & neg' & d' & r' & E' & S' & SG' & D').
    { exists sp, sg, neg, d, r. apply Forall_inv_tail in S. auto. }
    exists (ch :: sp'), sg', neg', d', r'. split; [cbn; rewrite E'; reflexivity|]. split; [constructor; [apply Forall_inv in S; exact S|exact S']|]. auto.
Qed.
Lemma lexeme_insert : forall s k p ws q, all_blank ws -> ws <> [] -> lexeme s k (p ++ q) -> lexeme s k (p ++ ws ++ q).
Proof.
  intros s k p ws q F NW L. destruct (blank_ends ws q F NW) as ((BE & BN) & BD).
  assert (EE : ends (p ++ q) -> ends (p ++ ws ++ q)) by (apply ends_ext; auto).
  assert (BB : forall set, ~ begins set (ws ++ q) -> ~ begins set (p ++ q) -> ~ begins set (p ++ ws ++ q)).
  { intros set B1 B2. destruct p as [|ch p]; [exact B1|]. intros B. apply B2. eapply begins_first, B. }
  inversion L; subst.
  - constructor; [assumption|]. auto.
  - constructor; auto.
  - match goal with H : number_ends _ |- _ => destruct H as (NE & NB) end. constructor; [assumption|]. split; auto.
  - constructor; auto.
  - constructor; auto.
  - constructor; auto.
  - apply lexeme_lone_register; [auto|]. intros NU. apply numeric_insert in NU; auto.
  - constructor; auto.
Qed.
Theorem blanks_anywhere : forall c p ws q a b, boundary c (Cursor q a b) -> rest c = p ++ q -> all_blank ws ->
  forall a' b', same_stream false c (Cursor (p ++ ws ++ q) a' b').
Proof.
  intros c p ws q a b (ks & S) E F. destruct ws as [|w0 ws0] eqn:EW.
  { intros a' b'. apply same_rest_stream, same_rest_text. exact E. }
  rewrite <- EW in *. assert (NW : ws <> []) by (subst; discriminate). clear EW.
  remember (Cursor q a b) as cq eqn:EC. revert p E. induction S as [c|c t c1 ks c' T S IH]; intros p E a' b'.
  - subst c. cbn [rest] in E. assert (p = []) as -> by (apply (f_equal (@List.length ascii)) in E; rewrite app_length in E; destruct p; [reflexivity|cbn in E; lia]).
    cbn [app]. apply same_stream_sym, blanks_skipped, F.
  - specialize (IH EC). destruct (boundary_moves c1 c') as (p1 & (M1 & _)); [exists ks; exact S|]. subst c'. cbn [rest] in M1. specialize (IH p1 M1).
    assert (B : exists p', p = p' ++ p1 /\ forall x y, exists t' c2, tokenize (Cursor (p ++ ws ++ q) x y) = Ok (t', c2) /\ kind t' = kind t /\ same_stream false c1 c2).
    { apply tokenize_iff in T as (g & s & cs & (N1 & _) & GP & (N2 & _) & TT & _). rewrite N1, N2, M1 in E.
      assert (EP : p = g ++ s ++ p1) by (rewrite !app_assoc in E; apply app_inv_tail in E; rewrite app_assoc; congruence). exists (g ++ s). split; [rewrite EP, <- app_assoc; reflexivity|].
      rewrite N2, M1 in GP. rewrite M1 in TT. rewrite EP, <- !app_assoc. destruct TT as [L|(-> & K & EN)].
      - intros x y. destruct (reads_lexeme g s (kind t) (p1 ++ ws ++ q)) with (a := x) (b := y) as (t' & c2 & T' & K' & R').
        + apply (gap_ext g (s ++ p1 ++ q)); [exact GP|]. rewrite !(app_assoc s). apply ends_ext. intros _. apply (blank_ends ws q F NW).
        + apply lexeme_insert; assumption.
        + exists t', c2. split; [exact T'|]. split; [exact K'|]. destruct c2 as [r2 x2 y2]. cbn [rest] in R'. subst r2. apply IH.
      - intros x y. cbn [app] in *. destruct p1 as [|ch p1].
        + cbn [app] in *. assert (R : reads (g ++ ws ++ q) TNone q).
          { apply reads_iff. exists (g ++ ws), []. cbn [app]. split; [rewrite app_assoc; reflexivity|]. split; [|right; auto].
            apply gap_app; [|constructor; exact F]. apply (gap_ext g q); [exact GP|]. intros _. apply (blank_ends ws q F NW). }
          destruct (R x y) as (t' & c2 & T' & K' & R'). exists t', c2. split; [exact T'|]. split; [congruence|]. apply same_rest_stream, same_rest_text.
          unfold same_rest. congruence.
        + assert (R : reads (g ++ (ch :: p1) ++ ws ++ q) TNone ((ch :: p1) ++ ws ++ q)).
          { apply reads_iff. exists g, []. cbn [app]. split; [reflexivity|]. split; [apply (gap_ext g _ _ GP), (ends_ext (ch :: p1)); intros _; apply (blank_ends ws q F NW)|].
            right. split; [reflexivity|]. split; [reflexivity|]. right. destruct EN as [EN|EN]; [discriminate|]. eapply begins_first, EN. }
          destruct (R x y) as (t' & c2 & T' & K' & R'). exists t', c2. split; [exact T'|]. split; [congruence|]. destruct c2 as [r2 x2 y2]. cbn [rest] in R'. subst r2. apply IH. }
    destruct B as (p' & _ & B). destruct (B a' b') as (t' & c2 & T' & K' & SS). intros [|n]; [reflexivity|]. cbn [stream]. rewrite T, T'. unfold view. rewrite K'. f_equal. apply SS.
Qed.

(** Any white space can take the place of other white space. *)
Lemma numeric_change : forall p ws ws' q, all_blank ws -> all_blank ws' -> ws <> [] -> ws' <> [] -> numeric (p ++ ws ++ q) -> numeric (p ++ ws' ++ q).
Proof.
  assert (SP : forall ch, In ch blanks -> In ch spaces).
  { intros ch [<-|[<-|[<-|[<-|[]]]]]; cbn; auto 8. }
  intros p ws ws' q F F' NW NW'. induction p as [|ch p IH]; intros H; cbn [app] in *.
  - apply numeric_blank in H; [|exact F]. clear NW'. induction ws' as [|x ws' IH]; [exact H|]. cbn [app].
    destruct (IH (Forall_inv_tail F')) as (sp & sg & neg & d & r & E & S & SG & D). exists (x :: sp), sg, neg, d, r.
    split; [cbn; now rewrite E|]. split; [constructor; [apply SP, (Forall_inv F')|exact S]|]. auto.
  - assert (BD : forall d l, In d decimals -> ws ++ q = d :: l -> False).
    { intros d l D E. apply (proj2 (blank_ends ws q F NW)). exists d, l. auto. }
    destruct H as (sp & sg & neg & d & r & E & S & SG & D). destruct sp as [|x sp].
    + destruct SG; injection E as -> E.
      * exists [], [], false, d, (p ++ ws' ++ q). split; [reflexivity|]. split; [constructor|]. split; [constructor|exact D].
      * destruct p as [|y p]; cbn [app] in E; [exfalso; exact (BD _ _ D E)|]. injection E as -> E.
        exists [], ["+"], false, d, (p ++ ws' ++ q). split; [reflexivity|]. split; [constructor|]. split; [constructor|exact D].
      * destruct p as [|y p]; cbn [app] in E; [exfalso; exact (BD _ _ D E)|]. injection E as -> E.
        exists [], ["-"], true, d, (p ++ ws' ++ q). split; [reflexivity|]. split; [constructor|]. split; [constructor|exact D].
    + injection E as <- E. destruct IH as (sp' & sg' & neg' & d' & r' & E' & S' & SG' & D').
      { exists sp, sg, neg, d, r. apply Forall_inv_tail in S. auto. }
      exists (ch :: sp'), sg', neg', d', r'. split; [cbn; rewrite E'; reflexivity|]. split; [constructor; [apply Forall_inv in S; exact S|exact S']|]. auto.
Qed.
Lemma lexeme_change : forall s k p ws ws' q, all_blank ws -> all_blank ws' -> ws <> [] -> ws' <> [] ->
  lexeme s k (p ++ ws ++ q) -> lexeme s k (p ++ ws' ++ q).
Proof.
  intros s k p ws ws' q F F' NW NW' L. destruct (blank_ends ws' q F' NW') as ((BE & BN) & BD).
  assert (EE : ends (p ++ ws ++ q) -> ends (p ++ ws' ++ q)) by (apply ends_ext; auto).
  assert (BB : forall set, ~ begins set (ws' ++ q) -> ~ begins set (p ++ ws ++ q) -> ~ begins set (p ++ ws' ++ q)).
  { intros set B1 B2. destruct p as [|ch p]; [exact B1|]. intros B. apply B2. eapply begins_first, B. }
  inversion L; subst.
  - constructor; [assumption|]. auto.
  - constructor; auto.
  - match goal with H : number_ends _ |- _ => destruct H as (NE & NB) end. constructor; [assumption|]. split; auto.
  - constructor; auto.
  - constructor; auto.
  - constructor; auto.
  - apply lexeme_lone_register; [auto|]. intros NU. apply (numeric_change p ws' ws q) in NU; auto.
  - constructor; auto.
Qed.
Theorem blanks_replaced : forall c p ws ws' q a b, boundary c (Cursor (ws ++ q) a b) -> rest c = p ++ ws ++ q ->
  all_blank ws -> all_blank ws' -> ws <> [] -> ws' <> [] -> forall a' b', same_stream false c (Cursor (p ++ ws' ++ q) a' b').
Proof.
  intros c p ws ws' q a b (ks & S) E F F' NW NW'.
  remember (Cursor (ws ++ q) a b) as cq eqn:EC. revert p E. induction S as [c|c t c1 ks c' T S IH]; intros p E a' b'.
  - subst c. cbn [rest] in E. assert (p = []) as -> by (apply (f_equal (@List.length ascii)) in E; rewrite !app_length in E; destruct p; [reflexivity|cbn in E; lia]).
    cbn [app]. eapply same_stream_trans; [apply (blanks_skipped ws q a b 0 0 F)|]. apply same_stream_sym, blanks_skipped, F'.
  - specialize (IH EC). destruct (boundary_moves c1 c') as (p1 & (M1 & _)); [exists ks; exact S|]. subst c'. cbn [rest] in M1. specialize (IH p1 M1).
    assert (B : exists t' c2, tokenize (Cursor (p ++ ws' ++ q) a' b') = Ok (t', c2) /\ kind t' = kind t /\ same_stream false c1 c2).
    { apply tokenize_iff in T as (g & s & cs & (N1 & _) & GP & (N2 & _) & TT & _). rewrite N1, N2, M1 in E.
      assert (EP : p = g ++ s ++ p1) by (rewrite !app_assoc in E; do 2 apply app_inv_tail in E; rewrite app_assoc; congruence).
      rewrite N2, M1 in GP. rewrite M1 in TT. rewrite EP, <- !app_assoc. destruct TT as [L|(-> & K & EN)].
      - destruct (reads_lexeme g s (kind t) (p1 ++ ws' ++ q)) with (a := a') (b := b') as (t' & c2 & T' & K' & R').
        + apply (gap_ext g (s ++ p1 ++ ws ++ q)); [exact GP|]. rewrite !(app_assoc s). apply ends_ext. intros _. apply (blank_ends ws' q F' NW').
        + apply (lexeme_change s (kind t) p1 ws ws' q F F' NW NW' L).
        + exists t', c2. split; [exact T'|]. split; [exact K'|]. destruct c2 as [r2 x2 y2]. cbn [rest] in R'. subst r2. apply IH.
      - cbn [app] in *. destruct p1 as [|ch p1].
        + exfalso. cbn [app] in EN. destruct ws as [|w0 ws]; [contradiction|]. apply Forall_inv in F.
          destruct EN as [EN|(x & r & EN & [I|[]])]; [discriminate|]. cbn [app] in EN. injection EN as <- _. subst w0.
          destruct F as [F|[F|[F|[F|[]]]]]; discriminate.
        + assert (R : reads (g ++ (ch :: p1) ++ ws' ++ q) TNone ((ch :: p1) ++ ws' ++ q)).
          { apply reads_iff. exists g, []. cbn [app]. split; [reflexivity|]. split; [apply (gap_ext g _ _ GP), (ends_ext (ch :: p1)); intros _; apply (blank_ends ws' q F' NW')|].
            right. split; [reflexivity|]. split; [reflexivity|]. right. destruct EN as [EN|EN]; [discriminate|]. eapply begins_first, EN. }
          destruct (R a' b') as (t' & c2 & T' & K' & R'). exists t', c2. split; [exact T'|]. split; [congruence|]. destruct c2 as [r2 x2 y2]. cbn [rest] in R'. subst r2. apply IH. }
    destruct B as (t' & c2 & T' & K' & SS). intros [|n]; [reflexivity|]. cbn [stream]. rewrite T, T'. unfold view. rewrite K'. f_equal. apply SS.
Qed.

(** ** Programs *)

Lemma semis_blank : forall ws, all_blank ws -> semis ws = O.
Proof.
  intros ws F. induction F as [|ch ws H F IH]; [reflexivity|]. cbn [semis]. rewrite IH. destruct H as [<-|[<-|[<-|[<-|[]]]]]; reflexivity.
Qed.
(** White space between tokens does not change the words, as long as the
    labels stay where they are.  Options must end their line. *)
Theorem blanks_program : forall a p ws q l c, boundary (start (p ++ q)) (Cursor q l c) -> all_blank ws -> plain (start (p ++ q)) ->
  relres (same_diag false) false same_labels (generate_labels (p ++ q)) (generate_labels (p ++ ws ++ q)) ->
  relres (same_diag false) false eq (assemble a (p ++ q)) (assemble a (p ++ ws ++ q)).
Proof.
  intros a p ws q l c B F P L. apply stream_program; [|right; exact P|exact L|].
  - eapply blanks_anywhere; [exact B|reflexivity|exact F].
  - intros _. rewrite !semis_app, (semis_blank ws F). reflexivity.
Qed.
Lemma no_labels : forall code, ~ In NUL code -> ~ In ":" code -> ~ bare_last_line code ->
  exists ls, generate_labels code = Ok ls /\ forall name, find_label ls name = None.
Proof.
  intros code N C B. destruct (generate_labels_spec code N) as [(ls & E & _ & S)|(_ & X)]; [|contradiction].
  exists ls. split; [exact E|]. intros nm. destruct (find_label ls nm) as [v|] eqn:F; [|reflexivity].
  apply S in F as (p & ((_ & _ & q & ->) & _) & _). exfalso. apply C. apply in_or_app. right. apply in_or_app. right. left. reflexivity.
Qed.
Corollary blanks_labelfree : forall a p ws q l c, boundary (start (p ++ q)) (Cursor q l c) -> all_blank ws -> plain (start (p ++ q)) ->
  ~ In NUL (p ++ q) -> ~ In ":" (p ++ q) -> ~ bare_last_line (p ++ q) -> ~ bare_last_line (p ++ ws ++ q) ->
  relres (same_diag false) false eq (assemble a (p ++ q)) (assemble a (p ++ ws ++ q)).
Proof.
  intros a p ws q l c B F P N C B1 B2. eapply blanks_program; try eassumption.
  assert (I : forall ch, In ch (p ++ ws ++ q) -> In ch (p ++ q) \/ In ch blanks).
  { intros ch H. apply in_app_or in H as [H|H]; [left; apply in_or_app; auto|]. apply in_app_or in H as [H|H]; [right|left; apply in_or_app; auto].
    unfold all_blank in F. rewrite Forall_forall in F. apply F, H. }
  destruct (no_labels (p ++ q)) as (ls & -> & L); try assumption. destruct (no_labels (p ++ ws ++ q)) as (ls' & -> & L'); try assumption.
  - intros H. apply I in H as [H|[H|[H|[H|[H|[]]]]]]; try discriminate. contradiction.
  - intros H. apply I in H as [H|[H|[H|[H|[H|[]]]]]]; try discriminate. contradiction.
  - intros nm. rewrite L, L'. reflexivity.
Qed.

(** A program that decodes ends behind a ';'. *)
Lemma decodes_semi : forall a ls x l y, decodes a ls x l y ->
  c_cur y = c_cur x \/ exists c t, boundary (c_cur x) c /\ tokenize c = Ok (t, c_cur y) /\ kind t = TSemi.
Proof.
  intros a ls x l y D. induction D as [x E|x x' op l y E D IH]; [left; reflexivity|]. right.
  assert (B : exists c t, boundary (c_cur x) c /\ tokenize c = Ok (t, c_cur x') /\ kind t = TSemi).
  { apply instruction_meets in E as
      (t & c & t1 & c1 & o & pre & i & post & kg & gi & gn & cm & kf & T & _ & PO & _ & _ & (k0 & ks0 & E & K & S0) & S & F & _).
    assert (FT : fresh_token (c_cur x) t c) by (split; [eapply boundary_next; [apply boundary_refl|exact T]|intros m; eapply token_starts; [apply boundary_refl|exact T]]).
    match type of PO with parse_options ?n _ _ ?oo = _ => pose proof (options_where (c_cur x) n t c oo FT) as W end.
    rewrite PO in W. destruct W as (B1 & _). cbn [fst snd] in B1.
    assert (B2 : boundary (c_cur x) cm) by (eapply boundary_trans; [exact B1|exists ks0; exact S0]).
    destruct F as (ko & kn & _ & _ & _ & -> & _). rewrite app_assoc in S. apply scan_split in S as (c2 & S1 & S2). inversion S2; subst.
    match goal with H : scan _ [] _ |- _ => inversion H; subst end.
    eexists c2, _. split; [|split; [eassumption|reflexivity]]. eapply boundary_trans; [exact B2|eexists; exact S1]. }
  destruct IH as [->|(c & t & Bc & T & K)]; [exact B|]. destruct B as (c1 & t1 & B1 & T1 & _).
  exists c, t. split; [|auto]. eapply boundary_trans; [eapply boundary_next; eassumption|exact Bc].
Qed.
Lemma gap_tail : forall g q, gap g q -> g = [] \/ exists g' ch, g = g' ++ [ch] /\ (In ch blanks \/ ch = ":").
Proof.
  intros g q GP. induction GP as [ws q W|ws w g q W (N & (w' & ->) & E) GP IH].
  - destruct ws as [|ch ws] using rev_ind; [left; reflexivity|right]. exists ws, ch. split; [reflexivity|]. left. rewrite Forall_forall in W. apply W, in_or_app. right. left. reflexivity.
  - right. destruct IH as [->|(g' & ch & -> & I)].
    + exists (ws ++ w'), ":". split; [rewrite app_nil_r, <- app_assoc; reflexivity|auto].
    + exists (ws ++ (w' ++ [":"]) ++ g'), ch. split; [rewrite <- !app_assoc; reflexivity|exact I].
Qed.
Lemma not_bare : forall a ls code l y, ~ In NUL code -> decodes a ls (ctx0 code) l y -> ~ bare_last_line code.
Proof.
  intros a ls code l y NU D (p & nm & E & LS & LN). pose proof (decodes_semi _ _ _ _ _ D) as B. cbn [ctx0 c_cur] in B.
  assert (LAST : exists n' ch, nm = n' ++ [ch] /\ ch <> ";" /\ ~ In ch blanks /\ ch <> ":").
  { destruct LN as (h & t & -> & LH & FT). destruct (@exists_last _ (h :: t)) as (n' & ch & EL); [discriminate|]. exists n', ch. split; [exact EL|].
    assert (NC : is_label_char ch = true).
    { apply name_char. assert (I : In ch (h :: t)) by (rewrite EL; apply in_or_app; right; left; reflexivity). destruct I as [<-|I]; [left; exact LH|]. rewrite Forall_forall in FT. apply FT, I. }
    clear - NC. destruct ch as [[] [] [] [] [] [] [] []]; vm_compute in NC; try discriminate; (split; [discriminate|]; split; [|discriminate]; intros [H|[H|[H|[H|[]]]]]; discriminate). }
  destruct LAST as (n' & ch & -> & N1 & N2 & N3). rewrite app_assoc in E.
  assert (DN : exists t c', tokenize (c_cur y) = Ok (t, c') /\ kind t = TNone).
  { clear - D. induction D as [x E|x x' op l y E D IH]; [|exact IH]. apply parse_instruction_none in E. exact E. }
  destruct DN as (t & c' & T & K).
  destruct (consumes _ _ _ T) as (g & s & R & GP & _ & KN). destruct (KN K) as (-> & EN). cbn [app] in R, GP.
  assert (R0 : rest c' = []).
  { destruct EN as [EN|(z & r & EZ & [<-|[]])]; [exact EN|]. exfalso. apply NU.
    assert (SUF : exists p', code = p' ++ rest (c_cur y)).
    { destruct B as [B|(c1 & t1 & B1 & T1 & _)]; [exists []; rewrite B; reflexivity|]. destruct (boundary_moves _ _ (boundary_next _ _ _ _ B1 T1)) as (p' & (M & _)). exists p'. exact M. }
    destruct SUF as (p' & ->). rewrite R, EZ. apply in_or_app. right. apply in_or_app. right. left. reflexivity. }
  rewrite R0, app_nil_r in R. destruct B as [B|(c1 & t1 & B1 & T1 & K1)].
  - rewrite B in R. cbn [rest] in R. destruct (gap_tail _ _ GP) as [->|(g' & x & -> & I)].
    + rewrite E in R. destruct (p ++ n'); discriminate.
    + rewrite E in R. apply app_inj_tail in R as (_ & <-). destruct I; contradiction.
  - destruct (boundary_moves _ _ B1) as (p1 & (M1 & _)). cbn [rest] in M1. apply tokenize_iff in T1 as (g1 & s1 & cs & (A1 & _) & _ & (A2 & _) & TT & _).
    assert (S1 : s1 = [";"]).
    { rewrite K1 in TT. destruct TT as [L|(_ & X & _)]; [|discriminate]. clear - L. inversion L; subst; try discriminate.
      match goal with H : In _ operators |- _ => cbn in H; repeat (destruct H as [H|H]; [first [discriminate H|injection H as <-; reflexivity]|]); contradiction end. }
    rewrite M1, A1, A2, S1, R in E. destruct (gap_tail _ _ GP) as [->|(g' & x & -> & I)].
    + rewrite app_nil_r, app_assoc in E. apply app_inj_tail in E as (_ & E). congruence.
    + rewrite !app_assoc in E. apply app_inj_tail in E as (_ & <-). destruct I; contradiction.
Qed.
(** Whatever is assembled from a text with a NUL between two tokens is what
    the text before it is assembled to. *)
Theorem nul_ok : forall a p q w, ~ In NUL p -> readable (start p) -> assemble a (p ++ NUL :: q) = Ok w -> assemble a p = Ok w.
Proof.
  intros a p q w Z R H. pose proof H as HH. apply assemble_ok in HH as (ls & l & y & (G & D & N) & _).
  assert (SC : same_ctx true (ctx0 (p ++ NUL :: q)) (ctx0 p)).
  { split; [|split; reflexivity]. apply same_stream_sym. apply (cut_stream q); [apply readable_stream, R|]. split; [reflexivity|split; reflexivity]. }
  destruct (stream_decodes _ _ _ _ _ D _ SC) as (l2 & y2 & D2 & MS & _). pose proof (not_bare _ _ _ _ _ Z D2) as B.
  rewrite <- H. symmetry. apply nul_ends; try assumption. intros ->. specialize (N eq_refl).
  destruct (decodes_semis _ _ _ _ _ D2) as (q2 & Q & LQ). destruct Q as (Q & _). cbn [ctx0 c_cur rest] in Q.
  apply (f_equal (@List.length opcode)) in MS. rewrite !map_length in MS. rewrite Q in N. change (NUL :: q) with ([NUL] ++ q) in N. rewrite !semis_app in N. cbn in N. lia.
Qed.

(** What the tokenizer hands to strtof up to the separator: digits, signs and
    points, none of the letters of the other forms strtof knows. *)
Lemma strtof_letters_irrelevant : forall c c', let c1 := skipc is_imm_char c in let c2 := skipc is_decimal c' in
  peek (rest c1) = "." -> existsb is_hex_char (between c c1) = false -> next c1 = Ok c' -> is_separator (peek (rest c2)) = true ->
  exists s, moves c s c2 /\ Forall (fun ch => In ch (["+"; "-"; "."] ++ decimals)) s /\ ends (rest c2).
Proof.
  intros c c' c1 c2 EP HX NX ES. destruct (skipc_spec is_imm_char c) as (s1 & M1 & F1 & _). fold c1 in M1. rewrite (moves_between _ _ _ M1) in HX.
  destruct (next_moves _ _ NX) as (ch & M2 & PC). rewrite EP in PC. subst ch.
  destruct (skipc_spec is_decimal c') as (fp & M3 & F3 & _). fold c2 in M3.
  exists ((s1 ++ ["."]) ++ fp). split; [exact (moves_trans _ _ _ _ _ (moves_trans _ _ _ _ _ M1 M2) M3)|]. split; [|apply ends_peek; exact ES].
  apply Forall_app. split; [apply Forall_app; split|].
  - rewrite forallb_forall in F1. apply Forall_forall. intros x I. specialize (F1 x I). unfold is_imm_char in F1.
    assert (NH : is_hex_char x = false).
    { destruct (is_hex_char x) eqn:E; [|reflexivity]. exfalso. assert (existsb is_hex_char s1 = true) by (apply existsb_exists; eauto). congruence. }
    rewrite NH, orb_false_r in F1. apply in_or_app. apply orb_true_iff in F1 as [F1|F1]; [right; apply decimal_in; exact F1|left].
    unfold is_sign, is_contained in F1. apply existsb_exists in F1 as (y & Y & E). apply Ascii.eqb_eq in E. subst y. cbn in Y. cbn. tauto.
  - constructor; [|constructor]. cbn. tauto.
  - rewrite forallb_forall in F3. apply Forall_forall. intros x I. apply in_or_app. right. apply decimal_in. apply F3, I.
Qed.
