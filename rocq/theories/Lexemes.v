(** * Lexemes: the tokenizer reads exactly the tokens of [SpecLex]. *)
From Verif Require Import Base Float Lexer LexFacts Literals SpecLex.
From Coq Require Import Lia.
Local Open Scope char_scope.
Local Open Scope list_scope.
Open Scope Z_scope.

(** ** Characters *)

Definition mem (l : text) (ch : ascii) : bool := existsb (Ascii.eqb ch) l.
Lemma mem_in : forall l ch, mem l ch = true <-> In ch l.
Proof.
  intros l ch. unfold mem. rewrite existsb_exists. split.
  - intros (x & I & E). apply Ascii.eqb_eq in E. subst. exact I.
  - intros I. exists ch. split; [exact I|apply Ascii.eqb_refl].
Qed.
Lemma mem_out : forall l ch, mem l ch = false <-> ~ In ch l.
Proof. intros l ch. rewrite <- mem_in. destruct (mem l ch); split; congruence || (intros H; exfalso; apply H; reflexivity). Qed.
Ltac all_chars := intros ch; destruct ch as [[] [] [] [] [] [] [] []]; reflexivity.
Lemma blank_mem : forall ch, is_blank ch = mem blanks ch. Proof. all_chars. Qed.
Lemma separator_mem : forall ch, is_separator ch = mem separators ch. Proof. all_chars. Qed.
Lemma operator_mem : forall ch, is_operator ch = mem (map fst operators) ch. Proof. all_chars. Qed.
Lemma decimal_mem : forall ch, is_decimal ch = mem decimals ch. Proof. all_chars. Qed.
Lemma sign_mem : forall ch, is_sign ch = mem ["+"; "-"] ch. Proof. all_chars. Qed.
Lemma space_mem : forall ch, is_space ch = mem spaces ch. Proof. all_chars. Qed.
Lemma Pp_mem : forall ch, is_contained "Pp" ch = mem ["P"; "p"] ch. Proof. all_chars. Qed.
Lemma Tt_mem : forall ch, is_contained "Tt" ch = mem ["T"; "t"] ch. Proof. all_chars. Qed.

Lemma separator_in : forall ch, is_separator ch = true <-> In ch separators.
Proof. intros. rewrite separator_mem. apply mem_in. Qed.
Lemma inner_iff : forall ch, is_separator ch = false <-> inner ch.
Proof. intros. rewrite separator_mem. apply mem_out. Qed.
Lemma decimal_in : forall ch, is_decimal ch = true <-> In ch decimals.
Proof. intros. rewrite decimal_mem. apply mem_in. Qed.
Lemma blank_in : forall ch, is_blank ch = true <-> In ch blanks.
Proof. intros. rewrite blank_mem. apply mem_in. Qed.

Lemma peek_in : forall set q, ~ In NUL set -> (mem set (peek q) = true <-> begins set q).
Proof.
  intros set q N. rewrite mem_in. unfold begins. split.
  - destruct q as [|ch q]; cbn [peek]; intros H; [contradiction|]. exists ch, q. auto.
  - intros (ch & q' & -> & I). exact I.
Qed.
Lemma peek_eq : forall x q, x <> NUL -> (Ascii.eqb (peek q) x = true <-> begins [x] q).
Proof.
  intros x q N. rewrite Ascii.eqb_eq. unfold begins. split.
  - destruct q as [|ch q]; cbn [peek]; intros H; [congruence|]. exists ch, q. cbn. auto.
  - intros (ch & q' & -> & [->|[]]). reflexivity.
Qed.
Lemma ends_peek : forall q, is_separator (peek q) = true <-> ends q.
Proof.
  intros q. rewrite separator_in. unfold ends, begins. split.
  - destruct q as [|ch q]; [left; reflexivity|]. intros H. right. exists ch, q. split; [reflexivity|exact H].
  - intros [->|(ch & q' & -> & I)]; [|exact I]. apply separator_in. reflexivity.
Qed.
Lemma begins_decimal : forall q, is_decimal (peek q) = true <-> begins decimals q.
Proof. intros q. rewrite decimal_mem. apply peek_in. intros H. apply mem_in in H. discriminate. Qed.

(** ** Cursors *)

Lemma moves_eq : forall c p c1 c2, moves c p c1 -> moves c p c2 -> c1 = c2.
Proof.
  intros c p [r1 l1 o1] [r2 l2 o2] (A1 & A2 & A3) (B1 & B2 & B3). cbn in *. rewrite A1 in B1. apply app_inv_head in B1. congruence.
Qed.
Lemma moves_split : forall c p q c', moves c (p ++ q) c' -> exists d, moves c p d /\ moves d q c'.
Proof.
  intros c p q c' (A & B & C). exists (Cursor (q ++ rest c') (lines p (line c)) (cols p (col c))). split; split; cbn.
  - rewrite A, app_assoc. reflexivity.
  - split; reflexivity.
  - reflexivity.
  - rewrite B, C, lines_app, cols_app. split; reflexivity.
Qed.
Lemma moves_next : forall c ch c', moves c [ch] c' -> next c = Ok c'.
Proof.
  intros [r l o] ch [r' l' o'] (A & B & C). cbn in *. subst. reflexivity.
Qed.
Lemma skip_exact : forall p c s c', moves c s c' -> forallb p s = true -> (rest c' = [] \/ p (peek (rest c')) = false) -> skipc p c = c'.
Proof.
  intros p c s. revert c. induction s as [|ch s IH]; intros [r l o] c' M F E.
  - pose proof (moves_eq _ _ _ _ (moves_refl _) M) as <-. unfold skipc. cbn [rest line col] in *. destruct r as [|ch r]; [reflexivity|].
    cbn [skip_while]. destruct E as [E|E]; [discriminate|]. cbn in E. rewrite E. reflexivity.
  - cbn [forallb] in F. apply andb_true_iff in F as (F1 & F). destruct (moves_split _ [ch] s _ M) as (d & M1 & M2).
    pose proof (moves_next _ _ _ M1) as N. destruct M1 as (M1 & _). cbn in M1. subst r. destruct d as [rd ld od]. cbn in N. injection N as <- <-.
    unfold skipc. cbn [rest line col skip_while]. rewrite F1. apply (IH _ _ M2 F E).
Qed.
Lemma peek_moves : forall c ch s c', moves c (ch :: s) c' -> peek (rest c) = ch.
Proof. intros c ch s c' (H & _). rewrite H. reflexivity. Qed.
Lemma skip_moves : forall p c, exists s, moves c s (skipc p c) /\ forallb p s = true /\ (rest (skipc p c) = [] \/ p (peek (rest (skipc p c))) = false).
Proof. exact skipc_spec. Qed.
Lemma Forall_forallb : forall (P : ascii -> Prop) p (l : text), (forall x, p x = true <-> P x) -> (forallb p l = true <-> Forall P l).
Proof. intros P p l H. rewrite forallb_forall, Forall_forall. split; intros G x I; apply H, G, I. Qed.

(** ** Numbers *)

Lemma digit_iff : forall b ch, 1 <= b <= 16 -> (digit_value ch <? b = true <-> exists d, digit b ch d) /\
  (forall d, digit b ch d -> d = digit_value ch).
Proof.
  intros b ch B.
  assert (G : forall d, 0 <= d < 16 -> (nth_error lower (Z.to_nat d) = Some ch \/ nth_error upper (Z.to_nat d) = Some ch) <-> digit_value ch = d).
  { intros d D. assert (C : d=0\/d=1\/d=2\/d=3\/d=4\/d=5\/d=6\/d=7\/d=8\/d=9\/d=10\/d=11\/d=12\/d=13\/d=14\/d=15) by lia. clear B D.
    assert (S : forall x y, digit_value ch =? d = Ascii.eqb ch x || Ascii.eqb ch y -> (Some x = Some ch \/ Some y = Some ch) <-> digit_value ch = d).
    { intros x y H. rewrite <- Z.eqb_eq, H, orb_true_iff, !Ascii.eqb_eq. split; intros [K|K]; [left|right|left|right]; congruence. }
    repeat destruct C as [C|C]; subst d; apply S; destruct ch as [[] [] [] [] [] [] [] []]; reflexivity. }
  assert (R : 0 <= digit_value ch) by (destruct ch as [[] [] [] [] [] [] [] []]; vm_compute; discriminate).
  split.
  - rewrite Z.ltb_lt. split.
    + intros L. exists (digit_value ch). split; [lia|]. apply G; [lia|reflexivity].
    + intros (d & D & H). apply G in H; lia.
  - intros d (D & H). apply G in H; lia.
Qed.
(** The value of the digits that [digits] reads. *)
Definition horner (b : Z) (acc : Z) (l : text) : Z := fold_left (fun a ch => a * b + digit_value ch) l acc.
Lemma digits_spec : forall b l acc, exists s e, l = s ++ e /\ digits b acc l = (horner b acc s, e) /\
  forallb (fun ch => digit_value ch <? b) s = true /\ starts_digit b e = false.
Proof.
  intros b. induction l as [|ch l IH]; intros acc.
  - exists [], []. repeat split.
  - cbn [digits]. destruct (digit_value ch <? b) eqn:E.
    + destruct (IH (acc * b + digit_value ch)) as (s & e & -> & D & F & N). exists (ch :: s), e. repeat split; try assumption. cbn [forallb]. rewrite E. exact F.
    + exists [], (ch :: l). repeat split. exact E.
Qed.
Lemma horner_snoc : forall b acc s ch, horner b acc (s ++ [ch]) = horner b acc s * b + digit_value ch.
Proof. intros. unfold horner. rewrite fold_left_app. reflexivity. Qed.
Lemma horner_app : forall b acc s t, horner b acc (s ++ t) = horner b (horner b acc s) t.
Proof. intros. unfold horner. apply fold_left_app. Qed.
Lemma denotes_iff : forall b s v, 1 <= b <= 16 -> (denotes b s v <-> forallb (fun ch => digit_value ch <? b) s = true /\ v = horner b 0 s).
Proof.
  intros b s v B. split.
  - intros H. induction H as [|s v ch d H (F & E) D]; [split; reflexivity|].
    destruct (digit_iff b ch B) as (G1 & G2). split.
    + rewrite forallb_app, F. cbn [forallb]. rewrite (proj2 G1) by eauto. reflexivity.
    + rewrite horner_snoc, <- E, <- (G2 d D). lia.
  - intros (F & ->). induction s as [|ch s IH] using rev_ind; [constructor|].
    rewrite forallb_app in F. apply andb_true_iff in F as (F & G). cbn [forallb] in G. rewrite andb_true_r in G.
    destruct (digit_iff b ch B) as (G1 & G2). apply G1 in G as (d & D). rewrite horner_snoc, Z.mul_comm, <- (G2 d D).
    constructor; auto.
Qed.
Lemma horner_nonneg : forall b s acc, 0 <= b -> 0 <= acc -> 0 <= horner b acc s.
Proof.
  intros b s. induction s as [|ch s IH]; intros acc B A; [exact A|]. cbn. apply IH; [exact B|].
  assert (R : 0 <= digit_value ch) by (destruct ch as [[] [] [] [] [] [] [] []]; vm_compute; discriminate). nia.
Qed.
Lemma denotes_nonneg : forall b s v, 1 <= b <= 16 -> denotes b s v -> 0 <= v.
Proof. intros b s v B D. apply denotes_iff in D as (_ & ->); [|exact B]. apply horner_nonneg; lia. Qed.
Lemma saturate_clamp : forall v, saturate v = clamp64 v.
Proof.
  intros v. unfold saturate, clamp64, INT64_MIN, INT64_MAX. change (- 2 ^ 63) with (-9223372036854775808). change (2 ^ 63 - 1) with 9223372036854775807.
  destruct (Z.ltb_spec v (-9223372036854775808)); [lia|]. destruct (Z.ltb_spec 9223372036854775807 v); lia.
Qed.

Lemma separator_digit : forall q b, b <= 36 -> is_separator (peek q) = true -> starts_digit b q = false.
Proof.
  intros [|ch q] b B H; [reflexivity|]. cbn [peek starts_digit] in *. apply Z.ltb_ge.
  assert (D : digit_value ch = 36) by (destruct ch as [[] [] [] [] [] [] [] []]; vm_compute in H; try discriminate; reflexivity). lia.
Qed.
Lemma digits_exact : forall b s q acc, forallb (fun ch => digit_value ch <? b) s = true -> starts_digit b q = false ->
  digits b acc (s ++ q) = (horner b acc s, q).
Proof.
  intros b s q. induction s as [|ch s IH]; intros acc F N; cbn [app].
  - destruct q as [|ch q]; [reflexivity|]. cbn [digits starts_digit] in *. rewrite N. reflexivity.
  - cbn [forallb] in F. apply andb_true_iff in F as (F1 & F). cbn [digits]. rewrite F1. apply IH; assumption.
Qed.
Lemma skip_space_spec : forall l, exists sp, l = sp ++ skip_space l /\ Forall (fun ch => In ch spaces) sp /\ is_space (peek (skip_space l)) = false.
Proof.
  induction l as [|ch l (sp & E & F & N)]; [exists []; repeat split; constructor|]. cbn [skip_space]. destruct (is_space ch) eqn:B.
  - exists (ch :: sp). split; [cbn; rewrite <- E; reflexivity|]. split; [|exact N]. constructor; [|exact F]. rewrite space_mem in B. apply mem_in in B. exact B.
  - exists []. repeat split; [constructor|exact B].
Qed.
Lemma sign_part_spec : forall l, exists sg, l = sg ++ snd (sign_part l) /\ sign sg (fst (sign_part l)).
Proof.
  intros [|ch l]; [exists []; split; [reflexivity|constructor]|]. cbn [sign_part]. destruct (Ascii.eqb_spec ch "-") as [->|]; [exists ["-"]; split; [reflexivity|constructor]|].
  destruct (Ascii.eqb_spec ch "+") as [->|]; [exists ["+"]; split; [reflexivity|constructor]|]. exists []. split; [reflexivity|constructor].
Qed.
Lemma sign_part_exact : forall sg neg l, sign sg neg -> is_sign (peek l) = false -> sign_part (sg ++ l) = (neg, l).
Proof.
  intros sg neg l S N. destruct S; cbn [app]; [|reflexivity|reflexivity]. destruct l as [|ch l]; [reflexivity|]. cbn [sign_part peek] in *.
  unfold is_sign, is_contained in N. cbn in N. destruct (Ascii.eqb ch "+"); [discriminate|]. destruct (Ascii.eqb ch "-"); [discriminate|reflexivity].
Qed.
Lemma base_part_spec : forall l, exists b l', base_part 0 l = (b, l') /\ (b = 10 /\ l' = l /\ ~ begins ["0"] l \/ b = 8 /\ l' = l /\ begins ["0"] l \/
   b = 16 /\ starts_digit 16 l' = true /\ exists x, l = "0" :: x :: l' /\ In x ["x"; "X"]).
Proof.
  intros l. unfold base_part. cbn [Z.eqb]. destruct l as [|ch l].
  { do 2 eexists; split; [reflexivity|]. left. repeat split. intros (c & q & H & _). discriminate. }
  destruct (Ascii.eqb_spec ch "0") as [->|NC].
  - destruct l as [|x l].
    + do 2 eexists; split; [reflexivity|]. right. left. repeat split. exists "0", []. cbn; auto.
    + destruct ((Ascii.eqb x "x" || Ascii.eqb x "X") && starts_digit 16 l) eqn:E; do 2 eexists; (split; [reflexivity|]).
      * right. right. apply andb_true_iff in E as (E & D). split; [reflexivity|]. split; [exact D|]. exists x. split; [reflexivity|].
        apply orb_true_iff in E as [E|E]; apply Ascii.eqb_eq in E; subst; cbn; auto.
      * right. left. repeat split. exists "0", (x :: l). cbn; auto.
  - exists 10, (ch :: l). split.
    + destruct ch as [[] [] [] [] [] [] [] []]; try reflexivity. exfalso. apply NC. reflexivity.
    + left. repeat split. intros (c & q & H & [<-|[]]). congruence.
Qed.
Lemma strtoll_spec : forall l z e, strtoll 0 l = (z, e) ->
  e = l \/ exists sp s v, l = sp ++ s ++ e /\ Forall (fun ch => In ch spaces) sp /\ integer s v /\ z = saturate v.
Proof.
  intros l z e H. rewrite strtoll_eq in H. cbv zeta in H. destruct (skip_space_spec l) as (sp & E & F & _).
  destruct (sign_part_spec (skip_space l)) as (sg & E2 & S). set (neg := fst (sign_part (skip_space l))) in *. set (r := snd (sign_part (skip_space l))) in *.
  destruct (base_part_spec r) as (b & m & EB & C). rewrite EB in H. cbn [fst snd] in H.
  destruct (starts_digit b m) eqn:SD; [|left; congruence]. destruct (digits_spec b m 0) as (ds & e' & EM & D & FD & N). rewrite D in H. cbn [fst snd] in H.
  injection H as <- <-. right. rewrite <- saturate_clamp.
  assert (NE : ds <> []) by (intros ->; cbn in EM; subst m; congruence).
  assert (M : exists mm w, r = mm ++ e' /\ magnitude mm w /\ w = horner b 0 ds).
  { destruct C as [(-> & -> & B)|[(-> & -> & B)|(-> & _ & x & ER & IX)]].
    - exists ds, (horner 10 0 ds). split; [exact EM|]. split; [|reflexivity]. apply decimal_number; [|exact NE|].
      + apply denotes_iff; [lia|]. split; [exact FD|reflexivity].
      + intros (c & q & -> & I). apply B. exists c, (q ++ e'). rewrite EM. split; [reflexivity|exact I].
    - destruct B as (c & q & ER & [<-|[]]). destruct ds as [|d ds]; [congruence|]. rewrite ER in EM. cbn in EM. injection EM as <- EM.
      exists ("0" :: ds), (horner 8 0 ds). split; [rewrite ER, EM; reflexivity|]. split; [|reflexivity]. apply octal_number. apply denotes_iff; [lia|].
      cbn [forallb] in FD. apply andb_true_iff in FD as (_ & FD). split; [exact FD|reflexivity].
    - exists ("0" :: x :: ds), (horner 16 0 ds). split; [rewrite ER, EM; reflexivity|]. split; [|reflexivity]. apply hexadecimal_number; [exact IX| |exact NE].
      apply denotes_iff; [lia|]. split; [exact FD|reflexivity]. }
  destruct M as (mm & w & ER & MG & EW). exists sp, (sg ++ mm), (signed neg w). split; [rewrite E, E2, ER, <- app_assoc; reflexivity|]. split; [exact F|].
  split; [|subst w; reflexivity]. exists sg, neg, mm, w. auto.
Qed.
Lemma magnitude_start : forall m w, magnitude m w -> exists ch m', m = ch :: m' /\ is_decimal ch = true.
Proof.
  intros m w M. destruct M as [s v D N B|s v D|x s v I D N]; [|do 2 eexists; split; reflexivity|do 2 eexists; split; reflexivity].
  destruct s as [|ch s]; [congruence|]. exists ch, s. split; [reflexivity|]. apply denotes_iff in D as (F & _); [|lia]. cbn [forallb] in F. apply andb_true_iff in F as (F & _).
  destruct ch as [[] [] [] [] [] [] [] []]; vm_compute in F |- *; congruence.
Qed.
Lemma decimal_facts : forall ch, is_decimal ch = true -> is_space ch = false /\ is_sign ch = false /\ is_blank ch = false /\ ch <> NUL /\ is_operator ch = false /\ is_contained "!Pp" ch = false /\ is_imm_char ch = true /\ ch <> "R" /\ is_separator ch = false /\ is_hex_char ch = false.
Proof. intros ch H. destruct ch as [[] [] [] [] [] [] [] []]; vm_compute in H; try discriminate; repeat split; try reflexivity; discriminate. Qed.
Lemma skip_space_none : forall l, is_space (peek l) = false -> skip_space l = l.
Proof. intros [|ch l] H; [reflexivity|]. cbn [peek skip_space] in *. rewrite H. reflexivity. Qed.
Lemma sign_space : forall sg neg m, sign sg neg -> is_space (peek m) = false -> is_space (peek (sg ++ m)) = false.
Proof. intros sg neg m S N. destruct S; [exact N|reflexivity|reflexivity]. Qed.
Lemma starts_exact : forall b s q, forallb (fun ch => digit_value ch <? b) s = true -> s <> [] -> starts_digit b (s ++ q) = true.
Proof. intros b [|ch s] q F N; [congruence|]. cbn [forallb] in F. apply andb_true_iff in F as (F & _). exact F. Qed.
Lemma base_part_exact : forall m w q, magnitude m w -> is_separator (peek q) = true -> exists b l', base_part 0 (m ++ q) = (b, l') /\ starts_digit b l' = true /\ digits b 0 l' = (w, q).
Proof.
  intros m w q M S. destruct M as [s v D N B|s v D|x s v I D N].
  - apply denotes_iff in D as (F & ->); [|lia]. exists 10, (s ++ q). split; [|split; [apply starts_exact; assumption|apply digits_exact; [assumption|apply separator_digit; [lia|exact S]]]].
    destruct s as [|ch s]; [congruence|]. unfold base_part. cbn [Z.eqb app]. destruct (Ascii.eqb_spec ch "0") as [->|NC]; [exfalso; apply B; exists "0", s; cbn; auto|].
    destruct ch as [[] [] [] [] [] [] [] []]; try reflexivity. exfalso. apply NC. reflexivity.
  - apply denotes_iff in D as (F & ->); [|lia]. exists 8, (("0" :: s) ++ q). split; [|split; [reflexivity|]].
    + unfold base_part. cbn [Z.eqb app]. destruct (s ++ q) as [|x l] eqn:E; [reflexivity|]. destruct ((Ascii.eqb x "x" || Ascii.eqb x "X")) eqn:X; [exfalso|reflexivity].
      assert (XX : digit_value x = 33 /\ is_separator x = false) by (apply orb_true_iff in X as [X|X]; apply Ascii.eqb_eq in X; subst; split; reflexivity).
      destruct s as [|d s].
      * cbn [app] in E. subst q. cbn [peek] in S. destruct XX. congruence.
      * cbn [app] in E. injection E as -> _. cbn [forallb] in F. apply andb_true_iff in F as (F & _). apply Z.ltb_lt in F. lia.
    + apply (digits_exact 8 ("0" :: s) q 0); [cbn [forallb]; rewrite F; reflexivity|]. apply separator_digit; [lia|exact S].
  - apply denotes_iff in D as (F & ->); [|lia]. exists 16, (s ++ q). split; [|split; [apply starts_exact; assumption|apply digits_exact; [assumption|apply separator_digit; [lia|exact S]]]].
    unfold base_part. cbn [Z.eqb app]. rewrite (starts_exact 16 s q F N). destruct I as [<-|[<-|[]]]; reflexivity.
Qed.
Lemma strtoll_exact : forall s v q, integer s v -> is_separator (peek q) = true -> strtoll 0 (s ++ q) = (saturate v, q).
Proof.
  intros s v q (sg & neg & m & w & -> & S & M & ->) E. rewrite strtoll_eq. cbv zeta. rewrite <- app_assoc.
  destruct (magnitude_start _ _ M) as (ch & m' & EM & DC). destruct (decimal_facts _ DC) as (SP & SG & _).
  rewrite skip_space_none by (apply (sign_space _ _ _ S); rewrite EM; exact SP).
  rewrite (sign_part_exact _ _ _ S) by (rewrite EM; exact SG). cbn [fst snd].
  destruct (base_part_exact _ _ _ M E) as (b & l' & -> & SD & D). cbn [fst snd]. rewrite SD, D. cbn [fst snd]. rewrite saturate_clamp. reflexivity.
Qed.

(** ** Decimal fractions *)

Lemma digits10 : forall s, forallb (fun ch => digit_value ch <? 10) s = forallb is_decimal s.
Proof. induction s as [|ch s IH]; [reflexivity|]. cbn [forallb]. rewrite IH. f_equal. destruct ch as [[] [] [] [] [] [] [] []]; reflexivity. Qed.
Lemma starts10 : forall l, starts_digit 10 l = is_decimal (peek l).
Proof. intros [|ch l]; [reflexivity|]. cbn [starts_digit peek]. destruct ch as [[] [] [] [] [] [] [] []]; reflexivity. Qed.
Lemma point_part_spec : forall l, match point_part l with Some l' => l = "." :: l' | None => ~ begins ["."] l end.
Proof.
  intros [|ch l]; cbn [point_part]; [intros (c & q & H & _); discriminate|]. destruct (Ascii.eqb_spec ch ".") as [->|N]; [reflexivity|].
  intros (c & q & H & [<-|[]]). congruence.
Qed.
Lemma strtof_spec : forall l f e, strtof l = (f, e) ->
  e = l \/ exists sp s, l = sp ++ s ++ e /\ Forall (fun ch => In ch spaces) sp /\
    ((exists neg v k, fraction s neg v k /\ f = f32_of_ratio neg v (10 ^ k)) \/ Forall (fun ch => ch <> ".") s).
Proof.
  intros l f e H. rewrite strtof_eq in H. cbv zeta in H. destruct (skip_space_spec l) as (sp & E & F & _).
  destruct (sign_part_spec (skip_space l)) as (sg & E2 & S). set (neg := fst (sign_part (skip_space l))) in *. set (r := snd (sign_part (skip_space l))) in *.
  destruct (starts_digit 10 r) eqn:SD; [|left; congruence]. right.
  destruct (digits_spec 10 r 0) as (ip & e1 & ER & D & FD & N). rewrite D in H. cbn [fst snd] in H.
  assert (NE : ip <> []) by (intros ->; cbn in ER; subst e1; congruence).
  pose proof (point_part_spec e1) as P. destruct (point_part e1) as [l2|].
  - destruct (digits_spec 10 l2 (horner 10 0 ip)) as (fp & e2 & EL & D2 & FD2 & N2). rewrite D2 in H. cbn [fst snd] in H. injection H as <- <-.
    exists sp, (sg ++ ip ++ "." :: fp). split; [rewrite E, E2, ER, P, EL, <- !app_assoc; reflexivity|]. split; [exact F|]. left.
    exists neg, (horner 10 (horner 10 0 ip) fp), (Z.of_nat (List.length fp)). split.
    + exists sg, ip, fp. repeat split; try assumption. rewrite <- horner_app. apply denotes_iff; [lia|]. rewrite forallb_app, FD, FD2. split; reflexivity.
    + f_equal. f_equal. f_equal. rewrite EL, app_length. lia.
  - injection H as <- <-. exists sp, (sg ++ ip). split; [rewrite E, E2, ER, <- app_assoc; reflexivity|]. split; [exact F|]. right.
    apply Forall_app. split; [destruct S; repeat constructor; discriminate|]. rewrite digits10 in FD. apply Forall_forall. intros ch I.
    rewrite forallb_forall in FD. specialize (FD ch I). intros ->. discriminate.
Qed.
Lemma strtof_exact : forall s neg v k q, fraction s neg v k -> is_separator (peek q) = true -> strtof (s ++ q) = (f32_of_ratio neg v (10 ^ k), q).
Proof.
  intros s neg v k q (sg & ip & fp & -> & S & N & D & ->) E. rewrite strtof_eq. cbv zeta. rewrite <- !app_assoc. cbn [app].
  apply denotes_iff in D as (F & ->); [|lia]. rewrite forallb_app in F. apply andb_true_iff in F as (F1 & F2).
  assert (C : exists ch ip', ip = ch :: ip' /\ is_decimal ch = true).
  { destruct ip as [|ch ip]; [congruence|]. rewrite digits10 in F1. cbn [forallb] in F1. apply andb_true_iff in F1 as (F1 & _). eauto. }
  destruct C as (ch & ip' & EI & DC). destruct (decimal_facts _ DC) as (SP & SG & _).
  rewrite skip_space_none by (apply (sign_space _ _ _ S); rewrite EI; exact SP).
  rewrite (sign_part_exact _ _ _ S) by (rewrite EI; exact SG). cbn [fst snd].
  rewrite (starts_exact 10 ip _ F1 N), (digits_exact 10 ip ("." :: fp ++ q) 0 F1 eq_refl). cbn [fst snd].
  change (point_part ("." :: fp ++ q)) with (Some (fp ++ q)). cbn beta iota zeta.
  rewrite (digits_exact 10 fp q _ F2) by (apply separator_digit; [lia|exact E]). cbn [fst snd].
  rewrite <- horner_app. f_equal. f_equal. f_equal. rewrite app_length. lia.
Qed.

(** ** Numeric literals *)

Lemma same_end_suffix : forall (s e q : text) c, s ++ e = q ++ rest c -> same_end e c = true -> s = q /\ e = rest c.
Proof.
  intros s e q c H E. unfold same_end in E. apply Nat.eqb_eq in E. apply (f_equal (@rev ascii)) in H as HR.
  assert (L : List.length s = List.length q) by (apply (f_equal (@List.length ascii)) in H; rewrite !app_length in H; lia).
  clear HR. revert q H L. induction s as [|a s IH]; intros [|b q] H L; try discriminate; [split; [reflexivity|exact H]|].
  cbn in H, L. injection H as -> H. injection L as L. destruct (IH q H L) as (-> & ->). split; reflexivity.
Qed.
Lemma number_start_char : forall l, number_start l -> is_imm_char (peek l) = true /\ is_space (peek l) = false.
Proof.
  intros l (sg & neg & ch & l' & -> & S & D). apply decimal_in in D. destruct (decimal_facts _ D) as (SP & _ & _ & _ & _ & _ & IC & _).
  destruct S; cbn [app peek]; [|split; reflexivity|split; reflexivity]. split; [exact IC|exact SP].
Qed.
Lemma no_space_front : forall sp (l : text), Forall (fun ch => In ch spaces) sp -> is_space (peek (sp ++ l)) = false -> sp = [].
Proof.
  intros [|ch sp] l F H; [reflexivity|]. apply Forall_inv in F. apply mem_in in F. rewrite <- space_mem in F. cbn in H. congruence.
Qed.
Lemma immediate_sound : forall t c k c', number_start (rest c) -> lex_immediate t c = Ok (k, c') ->
  exists s, moves c s c' /\
    ((exists v, integer s v /\ number_ends (rest c') /\ k = TImm (saturate v)) \/
     (exists neg v n, fraction s neg v n /\ ends (rest c') /\ k = TFloat (f32_of_ratio neg v (10 ^ n)))).
Proof.
  intros t c k c' NS H. destruct (number_start_char _ NS) as (IC & SP). unfold lex_immediate in H.
  destruct (skip_moves is_imm_char c) as (s1 & M1 & F1 & E1). set (c1 := skipc is_imm_char c) in *. rewrite (moves_between _ _ _ M1) in H.
  destruct (Ascii.eqb (peek (rest c1)) ".") eqn:EP.
  - destruct (existsb is_hex_char s1); [discriminate|]. cbn [bind] in H.
    destruct (next c1) as [c2| | | | |] eqn:NX; try discriminate. cbn [bind] in H. destruct (next_moves _ _ NX) as (ch & M2 & PC). apply Ascii.eqb_eq in EP.
    rewrite EP in PC. subst ch. destruct (skip_moves is_decimal c2) as (fp & M3 & _). set (c3 := skipc is_decimal c2) in *.
    destruct (is_separator (peek (rest c3))) eqn:ES; [|discriminate]. cbn [negb] in H.
    pose proof (moves_trans _ _ _ _ _ (moves_trans _ _ _ _ _ M1 M2) M3) as M.
    destruct (strtof (rest c)) as (f, e) eqn:EF. destruct (same_end e c3) eqn:SE; [|discriminate]. injection H as <- <-.
    destruct (strtof_spec _ _ _ EF) as [->|(sp & s & ER & FS & A)].
    { exfalso. unfold same_end in SE. apply Nat.eqb_eq in SE. apply moves_length in M. rewrite !app_length in M. cbn in M. lia. }
    pose proof SP as SP'. rewrite ER in SP'. apply no_space_front in SP'; [|exact FS]. subst sp. cbn [app] in ER.
    destruct M as (MR & MM). rewrite ER in MR. destruct (same_end_suffix _ _ _ _ MR SE) as (EQ & EE). subst e s.
    exists ((s1 ++ ["."]) ++ fp). split; [split; [exact ER|exact MM]|]. right. destruct A as [(neg & v & n & FR & ->)|A].
    + exists neg, v, n. split; [exact FR|]. split; [apply ends_peek; exact ES|reflexivity].
    + exfalso. rewrite Forall_forall in A. apply (A "."); [|reflexivity]. apply in_or_app. left. apply in_or_app. right. left. reflexivity.
  - cbn [bind] in H. destruct (is_separator (peek (rest c1))) eqn:ES; [|discriminate]. cbn [negb] in H.
    destruct (strtoll 0 (rest c)) as (z, e) eqn:EF. destruct (same_end e c1) eqn:SE; [|discriminate]. injection H as <- <-.
    assert (N1 : s1 <> []).
    { intros ->. destruct M1 as (M1 & _). cbn in M1. rewrite M1 in IC. destruct E1 as [E1|E1]; [|congruence]. rewrite E1 in IC. discriminate. }
    destruct (strtoll_spec _ _ _ EF) as [->|(sp & s & v & ER & FS & A & ->)].
    { exfalso. unfold same_end in SE. apply Nat.eqb_eq in SE. apply moves_length in M1. destruct s1; [congruence|]. cbn in M1. lia. }
    pose proof SP as SP'. rewrite ER in SP'. apply no_space_front in SP'; [|exact FS]. subst sp. cbn [app] in ER.
    destruct M1 as (MR & MM). rewrite ER in MR. destruct (same_end_suffix _ _ _ _ MR SE) as (EQ & EE). subst e s.
    exists s1. split; [split; [exact ER|exact MM]|]. left. exists v. split; [exact A|]. split; [|reflexivity]. split; [apply ends_peek; exact ES|].
    intros (ch & q & EQ & I). rewrite EQ in E1, EP. cbn [peek] in *. destruct E1 as [E1|E1]; [discriminate|].
    destruct I as [<-|[<-|[<-|[]]]]; discriminate.
Qed.
Lemma integer_imm : forall s v, integer s v -> forallb is_imm_char s = true.
Proof.
  intros s0 v0 (sg & neg & m & w & -> & S & M & _). rewrite forallb_app. apply andb_true_iff. split; [destruct S; reflexivity|].
  assert (G : forall b l, b <= 16 -> forallb (fun ch => digit_value ch <? b) l = true -> forallb is_imm_char l = true).
  { intros b l B F. rewrite forallb_forall in *. intros ch I. specialize (F ch I). apply Z.ltb_lt in F.
    destruct (is_imm_char ch) eqn:E; [reflexivity|exfalso]. assert (D : 16 <= digit_value ch); [|lia]. clear - E.
    destruct ch as [[] [] [] [] [] [] [] []]; vm_compute in E; try discriminate; vm_compute; discriminate. }
  destruct M as [s v D N B|s v D|x s v I D N].
  - apply denotes_iff in D as (F & _); [|lia]. exact (G 10 _ ltac:(lia) F).
  - apply denotes_iff in D as (F & _); [|lia]. exact (G 8 _ ltac:(lia) F).
  - apply denotes_iff in D as (F & _); [|lia]. cbn [forallb]. rewrite (G 16 _ ltac:(lia) F). destruct I as [<-|[<-|[]]]; reflexivity.
Qed.
Lemma number_ends_stop : forall q, number_ends q -> is_separator (peek q) = true /\ is_imm_char (peek q) = false /\ Ascii.eqb (peek q) "." = false.
Proof.
  intros q (E & N). apply ends_peek in E. split; [exact E|].
  assert (P : mem ["+"; "-"; "."] (peek q) = false).
  { destruct (mem ["+"; "-"; "."] (peek q)) eqn:M; [exfalso|reflexivity]. apply N. exact (proj1 (peek_in ["+"; "-"; "."] q ltac:(intros I; apply mem_in in I; discriminate)) M). }
  destruct (peek q) as [[] [] [] [] [] [] [] []]; vm_compute in E, P; try discriminate; split; reflexivity.
Qed.
Lemma integer_complete : forall t c s v c', moves c s c' -> integer s v -> number_ends (rest c') -> lex_immediate t c = Ok (TImm (saturate v), c').
Proof.
  intros t c s v c' M I E. destruct (number_ends_stop _ E) as (ES & EI & EP). unfold lex_immediate.
  rewrite (skip_exact is_imm_char c s c' M (integer_imm _ _ I) (or_intror EI)). rewrite EP. cbn [bind]. rewrite ES. cbn [negb].
  replace (rest c) with (s ++ rest c') by (symmetry; apply M). rewrite (strtoll_exact _ _ _ I ES). unfold same_end. rewrite Nat.eqb_refl. reflexivity.
Qed.
Lemma decimals_iff : forall s v, denotes 10 s v -> forallb is_decimal s = true.
Proof. intros s v D. apply denotes_iff in D as (F & _); [|lia]. rewrite digits10 in F. exact F. Qed.
Lemma float_complete : forall t c s neg v n c', moves c s c' -> fraction s neg v n -> ends (rest c') ->
  lex_immediate t c = Ok (TFloat (f32_of_ratio neg v (10 ^ n)), c').
Proof.
  intros t c s neg v n c' M FR E. apply ends_peek in E. pose proof FR as (sg & ip & fp & -> & S & N & D & _).
  apply decimals_iff in D. rewrite forallb_app in D. apply andb_true_iff in D as (D1 & D2).
  assert (M' : moves c ((sg ++ ip) ++ ["."] ++ fp) c') by (rewrite <- app_assoc; exact M).
  destruct (moves_split _ _ _ _ M') as (c1 & M1 & M2). destruct (moves_split _ _ _ _ M2) as (c2 & M3 & M4).
  assert (FI : forall l, forallb is_decimal l = true -> forallb is_imm_char l = true /\ existsb is_hex_char l = false).
  { induction l as [|ch l IH]; [split; reflexivity|]. cbn [forallb existsb]. intros F. apply andb_true_iff in F as (F1 & F).
    destruct (decimal_facts _ F1) as (_ & _ & _ & _ & _ & _ & IC & _ & _ & HC). rewrite IC, HC. exact (IH F). }
  destruct (FI _ D1) as (I1 & X1). unfold lex_immediate.
  rewrite (skip_exact is_imm_char c (sg ++ ip) c1 M1).
  2:{ rewrite forallb_app, I1. destruct S; reflexivity. }
  2:{ right. rewrite (peek_moves _ _ _ _ M3). reflexivity. }
  rewrite (peek_moves _ _ _ _ M3), (moves_between _ _ _ M1). cbn [Ascii.eqb Bool.eqb].
  replace (existsb is_hex_char (sg ++ ip)) with false by (rewrite existsb_app, X1; destruct S; reflexivity).
  rewrite (moves_next _ _ _ M3). cbn [bind].
  rewrite (skip_exact is_decimal c2 fp c' M4 D2).
  2:{ right. destruct (is_decimal (peek (rest c'))) eqn:EQ; [|reflexivity]. apply decimal_facts in EQ. destruct EQ as (_ & _ & _ & _ & _ & _ & _ & _ & EQ & _). congruence. }
  rewrite E. cbn [negb]. replace (rest c) with ((sg ++ ip ++ "." :: fp) ++ rest c') by (symmetry; apply M).
  rewrite (strtof_exact _ _ _ _ _ FR E). unfold same_end. rewrite Nat.eqb_refl. reflexivity.
Qed.
Lemma immediate_outcome : forall t c, number_start (rest c) -> (exists k c', lex_immediate t c = Ok (k, c')) \/ (exists m, lex_immediate t c = Fatal (diag_at t m)).
Proof.
  intros t c _. unfold lex_immediate. set (c1 := skipc is_imm_char c). destruct (Ascii.eqb (peek (rest c1)) ".") eqn:EP.
  - destruct (existsb _ _); [right; eexists; reflexivity|]. destruct (next_cases c1) as [(R & _)|(ch & r & _ & ->)].
    { rewrite R in EP. discriminate. }
    cbn [bind]. destruct (negb _); [right; eexists; reflexivity|]. destruct (strtof (rest c)). destruct (negb _); [right; eexists; reflexivity|left; eauto].
  - cbn [bind]. destruct (negb _); [right; eexists; reflexivity|]. destruct (strtoll 0 (rest c)). destruct (negb _); [right; eexists; reflexivity|left; eauto].
Qed.

(** ** Registers *)

Lemma skip_space_app : forall sp l, Forall (fun ch => In ch spaces) sp -> is_space (peek l) = false -> skip_space (sp ++ l) = l.
Proof.
  intros sp l F N. induction F as [|ch sp I F IH]; [apply skip_space_none, N|]. cbn [app skip_space].
  apply mem_in in I. rewrite <- space_mem in I. rewrite I. exact IH.
Qed.
Lemma numeric_iff : forall l, numeric l <-> is_decimal (peek (snd (sign_part (skip_space l)))) = true.
Proof.
  intros l. split.
  - intros (sp & sg & neg & d & q & -> & F & S & I). apply decimal_in in I. destruct (decimal_facts _ I) as (SP & SG & _).
    rewrite skip_space_app; [|exact F|apply (sign_space _ _ _ S); exact SP]. rewrite (sign_part_exact _ _ _ S) by exact SG. exact I.
  - intros D. destruct (skip_space_spec l) as (sp & E & F & _). destruct (sign_part_spec (skip_space l)) as (sg & E2 & S).
    destruct (snd (sign_part (skip_space l))) as [|d q] eqn:EQ; [discriminate|]. exists sp, sg, (fst (sign_part (skip_space l))), d, q.
    rewrite <- E2. split; [exact E|]. split; [exact F|]. split; [exact S|]. apply decimal_in. exact D.
Qed.
Lemma strtoll10_none : forall l, ~ numeric l -> strtoll 10 l = (0, l).
Proof.
  intros l N. rewrite strtoll_eq. cbv zeta. change (base_part 10 ?x) with (10, x). cbn [fst snd]. rewrite starts10.
  destruct (is_decimal _) eqn:E; [exfalso; apply N, numeric_iff, E|reflexivity].
Qed.
Lemma strtoll10_some : forall l, numeric l -> exists v e, strtoll 10 l = (v, e) /\ (List.length e < List.length l)%nat.
Proof.
  intros l N. apply numeric_iff in N. rewrite strtoll_eq. cbv zeta. change (base_part 10 ?x) with (10, x). cbn [fst snd]. rewrite starts10, N.
  destruct (skip_space_spec l) as (sp & E & _). destruct (sign_part_spec (skip_space l)) as (sg & E2 & _). set (r := snd (sign_part (skip_space l))) in *.
  destruct (digits_spec 10 r 0) as (ds & e & ER & D & _ & ND). rewrite D. cbn [fst snd]. do 2 eexists. split; [reflexivity|].
  assert (L : (List.length e < List.length r)%nat).
  { destruct ds as [|x ds]; [|rewrite ER; cbn; rewrite app_length; lia]. exfalso. cbn in ER. rewrite starts10, <- ER in ND. congruence. }
  rewrite E, app_length, E2, app_length. fold r. lia.
Qed.
Lemma strtoll10_exact : forall s v q, denotes 10 s v -> s <> [] -> is_separator (peek q) = true -> strtoll 10 (s ++ q) = (saturate v, q).
Proof.
  intros s v q D N E. pose proof D as D'. apply denotes_iff in D' as (F & V); [|lia]. rewrite strtoll_eq. cbv zeta.
  assert (C : exists ch s', s = ch :: s' /\ is_decimal ch = true).
  { destruct s as [|ch s]; [congruence|]. rewrite digits10 in F. cbn [forallb] in F. apply andb_true_iff in F as (F & _). eauto. }
  destruct C as (ch & s' & EI & DC). destruct (decimal_facts _ DC) as (SP & SG & _).
  rewrite skip_space_none by (rewrite EI; exact SP).
  change (sign_part (s ++ q)) with (sign_part ([] ++ (s ++ q))). rewrite (sign_part_exact [] false (s ++ q) no_sign) by (rewrite EI; exact SG). change (base_part 10 ?x) with (10, x). cbn [fst snd].
  rewrite (starts_exact 10 s q F N), (digits_exact 10 s q 0 F) by (apply separator_digit; [lia|exact E]). cbn [fst snd].
  rewrite saturate_clamp, V. reflexivity.
Qed.
Lemma decimals_denote : forall s, forallb is_decimal s = true -> exists v, denotes 10 s v /\ 0 <= v.
Proof.
  intros s F. rewrite <- digits10 in F. exists (horner 10 0 s). split; [apply denotes_iff; [lia|]; split; [exact F|reflexivity]|]. apply horner_nonneg; lia.
Qed.
Lemma sep_not_decimal : forall ch, is_separator ch = true -> is_decimal ch = false /\ Ascii.eqb ch "Z" = false.
Proof. intros ch H. destruct ch as [[] [] [] [] [] [] [] []]; vm_compute in H; try discriminate; split; reflexivity. Qed.

(** The ways [lex_register] can end. *)
Inductive register_case (t : token) (c : cursor) : res (option tkind * cursor) -> Prop :=
| register_got : forall s k c', moves c s c' -> lexeme s k (rest c') -> (exists r, k = TReg r) -> register_case t c (Ok (Some k, c'))
| register_none : forall ds x r c', moves c ("R" :: ds) c' -> forallb is_decimal ds = true -> rest c' = x :: r -> is_separator x = false -> is_decimal x = false ->
    (ds = [] -> x <> "Z") -> register_case t c (Ok (None, c'))
| register_bad : forall m, (exists r, rest c = "R" :: "Z" :: r /\ ~ ends r) \/
    (exists ds n r, rest c = "R" :: ds ++ r /\ denotes 10 ds n /\ ds <> [] /\ 254 < n /\ ends r) \/
    (exists r, rest c = "R" :: r /\ ends r /\ numeric r) -> register_case t c (Fatal (diag_at t m)).
Lemma register_cases : forall t c, peek (rest c) = "R" -> register_case t c (lex_register t c).
Proof.
  intros t c P. unfold lex_register. destruct (next_cases c) as [(R & _)|(ch & r & R & NX)]; [rewrite R in P; discriminate|].
  rewrite R in P. cbn [peek] in P. subst ch. destruct (next_moves _ _ NX) as (ch & M1 & PC). rewrite R in PC. cbn in PC. subst ch.
  rewrite NX. cbn [bind]. set (c1 := Cursor r _ _) in *. destruct (Ascii.eqb (peek (rest c1)) "Z") eqn:EZ.
  { apply Ascii.eqb_eq in EZ. destruct (next_cases c1) as [(R1 & _)|(ch & r1 & R1 & NX1)]; [rewrite R1 in EZ; discriminate|].
    rewrite R1 in EZ. cbn [peek] in EZ. subst ch. destruct (next_moves _ _ NX1) as (ch & M2 & PC). rewrite R1 in PC. cbn in PC. subst ch. rewrite NX1. cbn [bind].
    set (c2 := Cursor r1 _ _) in *. destruct (is_separator (peek (rest c2))) eqn:ES; cbn [negb].
    - apply register_got with (s := ["R"; "Z"]); [apply (moves_trans _ ["R"] _ ["Z"] _ M1 M2)| |eexists; reflexivity]. apply lexeme_zero, ends_peek, ES.
    - apply register_bad. left. exists r1. split; [|rewrite <- ends_peek; cbn [rest c2] in ES; congruence]. rewrite R. f_equal. exact R1. }
  destruct (skip_moves is_decimal c1) as (ds & M2 & F & E). set (c2 := skipc is_decimal c1) in *. pose proof (moves_trans _ ["R"] _ ds _ M1 M2) as M. cbn [app] in M.
  destruct (is_separator (peek (rest c2))) eqn:ES; cbn [negb].
  - assert (ER : rest c1 = ds ++ rest c2) by apply M2. destruct ds as [|d0 ds'] eqn:ED.
    + cbn [app] in ER. rewrite ER.
      assert (DN : numeric (rest c2) \/ ~ numeric (rest c2)).
      { destruct (is_decimal (peek (snd (sign_part (skip_space (rest c2)))))) eqn:Q; [left|right]; rewrite numeric_iff; congruence. }
      destruct DN as [NU|NU].
      * destruct (strtoll10_some _ NU) as (v & e & -> & L). replace (same_end e c2) with false by (symmetry; apply Nat.eqb_neq; lia). cbn [negb].
        apply register_bad. right. right. exists (rest c2). split; [apply M|]. split; [apply ends_peek, ES|exact NU].
      * rewrite (strtoll10_none _ NU). unfold same_end. rewrite Nat.eqb_refl. cbn.
        apply register_got with (s := ["R"]); [exact M| |eexists; reflexivity]. apply lexeme_lone_register; [apply ends_peek, ES|exact NU].
    + rewrite <- ED in *. assert (NE : ds <> []) by (rewrite ED; discriminate). destruct (decimals_denote _ F) as (v & DV & NV).
      rewrite ER, (strtoll10_exact _ _ _ DV NE ES). unfold same_end. rewrite Nat.eqb_refl. cbn [negb].
      assert (SV : saturate v = v /\ v <= 254 \/ 254 < saturate v /\ 254 < v).
      { unfold saturate. change (2 ^ 63) with 9223372036854775808. lia. }
      destruct SV as [(SV & LV)|(SV & LV)].
      * rewrite SV. replace ((v <? 0) || (NUM_USER_REGISTERS <=? v)) with false.
        2:{ symmetry. apply orb_false_iff. split; [apply Z.ltb_ge; exact NV|apply Z.leb_gt; unfold NUM_USER_REGISTERS; lia]. }
        apply register_got with (s := "R" :: ds); [exact M| |eexists; reflexivity]. apply lexeme_register; [exact DV|exact NE|exact LV|apply ends_peek, ES].
      * replace (NUM_USER_REGISTERS <=? saturate v) with true by (symmetry; apply Z.leb_le; unfold NUM_USER_REGISTERS; lia). rewrite orb_true_r.
        apply register_bad. right. left. exists ds, v, (rest c2). split; [apply M|]. split; [exact DV|]. split; [exact NE|]. split; [exact LV|apply ends_peek, ES].
  - destruct E as [E|E]; [rewrite E in ES; discriminate|]. destruct (rest c2) as [|x rx] eqn:RX; [discriminate|]. cbn [peek] in *.
    apply register_none with (ds := ds) (x := x) (r := rx); try assumption. intros ->. destruct M2 as (M2 & _). cbn [app] in M2. rewrite M2 in EZ. rewrite RX in EZ. cbn [peek] in EZ.
    intros ->. discriminate.
Qed.

(** ** Predicates *)

Definition index_char (x : ascii) : Prop := In x decimals \/ In x ["T"; "t"].
Lemma index_char_in : forall x, index_char x <-> is_contained "Tt" x || is_decimal x = true.
Proof. intros x. unfold index_char. rewrite orb_true_iff, decimal_in, Tt_mem, mem_in. tauto. Qed.
Lemma digit10 : forall x d, digit 10 x d <-> is_decimal x = true /\ d = Z.of_N (N_of_ascii x) - 48.
Proof.
  intros x d. destruct (digit_iff 10 x ltac:(lia)) as (G1 & G2).
  assert (E : (digit_value x <? 10) = is_decimal x) by (destruct x as [[] [] [] [] [] [] [] []]; reflexivity).
  assert (V : is_decimal x = true -> digit_value x = Z.of_N (N_of_ascii x) - 48) by (destruct x as [[] [] [] [] [] [] [] []]; vm_compute; intros; try discriminate; reflexivity).
  rewrite E in G1. split.
  - intros D. assert (X : is_decimal x = true) by (apply G1; eauto). split; [exact X|]. rewrite (G2 _ D). auto.
  - intros (D & ->). apply G1 in D as (d & D). rewrite <- V by (apply G1; eauto). rewrite <- (G2 _ D). exact D.
Qed.
(** The index a character stands for. *)
Definition index_value (x : ascii) : N := if is_contained "Tt" x then 7%N else (N_of_ascii x - 48)%N.
Lemma predicate_name_iff : forall b p x neg i, bang b neg -> In p ["P"; "p"] ->
  (predicate_name (b ++ [p; x]) i neg <-> index_char x /\ i = index_value x).
Proof.
  intros b p x neg i B P. unfold index_value, index_char. split.
  - intros (b' & p' & x' & E & B' & P' & C).
    assert (EX : x' = x) by (change [p; x] with ([p] ++ [x]) in E; change [p'; x'] with ([p'] ++ [x']) in E; rewrite !app_assoc in E; apply app_inj_tail in E; symmetry; apply E).
    subst x'. destruct C as [(d & D & ->)|(I & ->)].
    + apply digit10 in D as (D & ->). split; [left; apply decimal_in, D|].
      replace (is_contained "Tt" x) with false by (destruct x as [[] [] [] [] [] [] [] []]; vm_compute in D |- *; congruence). lia.
    + split; [right; exact I|]. rewrite Tt_mem, (proj2 (mem_in _ _) I). reflexivity.
  - intros (C & ->). exists b, p, x. split; [reflexivity|]. split; [exact B|]. split; [exact P|]. destruct (is_contained "Tt" x) eqn:T.
    + right. rewrite Tt_mem in T. apply mem_in in T. split; [exact T|reflexivity].
    + left. destruct C as [C|C]; [|rewrite Tt_mem in T; apply mem_out in T; contradiction]. apply decimal_in in C. eexists. split; [apply digit10; split; [exact C|reflexivity]|]. lia.
Qed.
Lemma digit_name_iff : forall b p x, digit_name (b ++ [p; x]) <-> In x decimals.
Proof.
  intros b p x. split.
  - intros (s & d & E & I). change [p; x] with ([p] ++ [x]) in E. rewrite app_assoc in E. apply app_inj_tail in E as (_ & ->). exact I.
  - intros I. exists (b ++ [p]), x. split; [rewrite <- app_assoc; reflexivity|exact I].
Qed.
Inductive predicate_case (t : token) (c : cursor) : res (option tkind * cursor) -> Prop :=
| predicate_got : forall s i neg c', moves c s c' -> predicate_name s i neg -> (i <= 6)%N \/ ~ digit_name s -> ends (rest c') -> predicate_case t c (Ok (Some (TPred i neg), c'))
| predicate_short : forall b neg p c', moves c (b ++ [p]) c' -> bang b neg -> In p ["P"; "p"] -> ~ index_char (peek (rest c')) -> predicate_case t c (Ok (None, c'))
| predicate_long : forall b neg p x c', moves c (b ++ [p; x]) c' -> bang b neg -> In p ["P"; "p"] -> index_char x -> ~ ends (rest c') -> predicate_case t c (Ok (None, c'))
| predicate_bang : forall m r, rest c = "!" :: r -> ~ begins ["P"; "p"] r -> predicate_case t c (Fatal (diag_at t m))
| predicate_range : forall m s i neg r, rest c = s ++ r -> predicate_name s i neg -> digit_name s -> (6 < i)%N -> ends r -> predicate_case t c (Fatal (diag_at t m)).
Lemma next_some : forall c ch, peek (rest c) = ch -> ch <> NUL -> exists c', next c = Ok c' /\ moves c [ch] c'.
Proof.
  intros c ch P N. destruct (next_cases c) as [(R & _)|(x & r & R & NX)]; [rewrite R in P; cbn in P; congruence|].
  eexists; split; [exact NX|]. destruct (next_moves _ _ NX) as (y & M & E). congruence.
Qed.
Lemma Pp_begins : forall q, is_contained "Pp" (peek q) = true <-> begins ["P"; "p"] q.
Proof. intros q. rewrite Pp_mem. apply peek_in. intros I. apply mem_in in I. discriminate. Qed.
Lemma index_not_nul : forall x, index_char x -> x <> NUL.
Proof. intros x I ->. apply index_char_in in I. discriminate. Qed.
Lemma ends_not : forall q, is_separator (peek q) = false <-> ~ ends q.
Proof. intros q. rewrite <- ends_peek. destruct (is_separator (peek q)); split; congruence. Qed.
Lemma predicate_after : forall t c c1 b neg, bang b neg -> moves c b c1 -> begins ["P"; "p"] (rest c1) ->
  predicate_case t c (let* c2 := next c1 in
  let ch := peek (rest c2) in
  let is_true := is_contained "Tt" ch in
  let index := if is_true then Some 7%N else if is_decimal ch then Some (N_of_ascii ch - 48)%N else None in
  match index with
  | None => Ok (None, c2)
  | Some i =>
      let* c3 := next c2 in
      if is_separator (peek (rest c3)) then
        if negb is_true && N.ltb 6 i then fatal_error t "out of range predicate"
        else Ok (Some (TPred i neg), c3)
      else Ok (None, c3)
  end).
Proof.
  intros t c c1 b neg B M1 (p & r1 & R1 & P).
  destruct (next_some c1 p) as (c2 & -> & M2); [rewrite R1; reflexivity|intros ->; apply mem_in in P; discriminate|]. cbn [bind]. cbv zeta.
  pose proof (moves_trans _ _ _ _ _ M1 M2) as M12. set (x := peek (rest c2)).
  destruct (is_contained "Tt" x || is_decimal x) eqn:IX.
  - assert (I : index_char x) by (apply index_char_in, IX).
    assert (EI : (if is_contained "Tt" x then Some 7%N else if is_decimal x then Some (N_of_ascii x - 48)%N else None) = Some (index_value x)).
    { unfold index_value. destruct (is_contained "Tt" x); [reflexivity|]. cbn in IX. rewrite IX. reflexivity. }
    rewrite EI. destruct (next_some c2 x eq_refl (index_not_nul _ I)) as (c3 & -> & M3). cbn [bind].
    pose proof (moves_trans _ _ _ _ _ M12 M3) as M. rewrite <- app_assoc in M. cbn [app] in M.
    destruct (is_separator (peek (rest c3))) eqn:ES.
    + assert (PN : predicate_name (b ++ [p; x]) (index_value x) neg) by (apply predicate_name_iff; auto).
      destruct (negb (is_contained "Tt" x) && N.ltb 6 (index_value x)) eqn:RG.
      * apply andb_true_iff in RG as (RT & RG). apply N.ltb_lt in RG.
        apply predicate_range with (s := b ++ [p; x]) (i := index_value x) (neg := neg) (r := rest c3); [apply M|exact PN| |exact RG|apply ends_peek, ES].
        apply digit_name_iff. apply decimal_in. destruct (is_contained "Tt" x); [discriminate|exact IX].
      * apply predicate_got with (s := b ++ [p; x]); [exact M|exact PN| |apply ends_peek, ES].
        apply andb_false_iff in RG as [RG|RG]; [|left; apply N.ltb_ge, RG]. right. rewrite digit_name_iff, <- decimal_in.
        destruct x as [[] [] [] [] [] [] [] []]; vm_compute in RG |- *; congruence.
    + apply predicate_long with (b := b) (neg := neg) (p := p) (x := x); try assumption. apply ends_not, ES.
  - apply orb_false_iff in IX as (I1 & I2). rewrite I1, I2. apply predicate_short with (b := b) (neg := neg) (p := p); try assumption.
    rewrite index_char_in. fold x. rewrite I1, I2. discriminate.
Qed.
Lemma predicate_cases : forall t c, is_contained "!Pp" (peek (rest c)) = true -> predicate_case t c (lex_predicate t c).
Proof.
  intros t c H. unfold lex_predicate. destruct (Ascii.eqb (peek (rest c)) "!") eqn:EB.
  - apply Ascii.eqb_eq in EB. destruct (next_some c "!" EB ltac:(discriminate)) as (c1 & -> & M1). cbn [bind].
    destruct (is_contained "Pp" (peek (rest c1))) eqn:P.
    + cbn [bind]. apply (predicate_after t c c1 ["!"] true); [right; split; reflexivity|exact M1|apply Pp_begins, P].
    + cbn [bind fatal_error]. apply predicate_bang with (r := rest c1); [apply M1|]. rewrite <- Pp_begins. congruence.
  - cbn [bind]. apply (predicate_after t c c [] false); [left; split; reflexivity|apply moves_refl|]. apply Pp_begins.
    destruct (peek (rest c)) as [[] [] [] [] [] [] [] []]; vm_compute in H; vm_compute in EB; try discriminate; reflexivity.
Qed.

(** ** One token *)

(** White space, then the token. *)
Inductive token_case (c : cursor) : res lexed -> Prop :=
| case_end : forall ws c', moves c ws c' -> Forall (fun ch => In ch blanks) ws -> rest c' = [] \/ begins [NUL] (rest c') ->
    token_case c (Ok (Got (Token TNone (line c') (col c')) c'))
| case_token : forall ws cs s k c', moves c ws cs -> Forall (fun ch => In ch blanks) ws -> moves cs s c' -> lexeme s k (rest c') ->
    token_case c (Ok (Got (Token k (line cs) (col cs)) c'))
| case_label : forall ws cs s c', moves c ws cs -> Forall (fun ch => In ch blanks) ws -> moves cs s c' -> label_text s (rest c') ->
    token_case c (Ok (Skip c'))
| case_bad : forall ws cs m, moves c ws cs -> Forall (fun ch => In ch blanks) ws -> ~ begins blanks (rest cs) -> bad_text (rest cs) ->
    token_case c (Fatal (Diag (Some (line cs, col cs)) m))
| case_lone : forall ws cs b neg p, moves c ws cs -> Forall (fun ch => In ch blanks) ws -> rest cs = b ++ [p] -> bang b neg -> In p ["P"; "p"] ->
    token_case c (Undef UB_read_past_nul).

Lemma blanks_front : forall c, exists ws, moves c ws (skipc is_blank c) /\ Forall (fun ch => In ch blanks) ws /\ ~ begins blanks (rest (skipc is_blank c)).
Proof.
  intros c. destruct (skip_moves is_blank c) as (ws & M & F & E). exists ws. split; [exact M|]. split; [apply (Forall_forallb _ is_blank); [apply blank_in|exact F]|].
  intros (ch & q & EQ & I). rewrite EQ in E. destruct E as [E|E]; [discriminate|]. apply blank_in in I. cbn [peek] in E. congruence.
Qed.
Lemma skip_inner : forall c, exists t, moves c t (skipc (fun ch => negb (is_separator ch)) c) /\ Forall inner t /\ ends (rest (skipc (fun ch => negb (is_separator ch)) c)).
Proof.
  intros c. destruct (skip_moves (fun ch => negb (is_separator ch)) c) as (t & M & F & E). exists t. split; [exact M|]. split.
  - apply (Forall_forallb _ (fun ch => negb (is_separator ch))); [|exact F]. intros x. rewrite <- inner_iff. destruct (is_separator x); cbn; split; congruence.
  - apply ends_peek. destruct E as [->|E]; [reflexivity|]. destruct (is_separator _); [reflexivity|discriminate].
Qed.
Lemma colon_last_iff : forall w, w <> [] -> (Ascii.eqb (List.last w NUL) ":" = true <-> colon_last w).
Proof.
  intros w N. rewrite Ascii.eqb_eq. split.
  - intros E. exists (removelast w). rewrite <- E. apply app_removelast_last. exact N.
  - intros (w' & ->). apply last_last.
Qed.
(** What [lex_identifier] makes of a name. *)
Lemma identifier_case : forall c ws cs s0 c1 x cx, moves c ws cs -> Forall (fun ch => In ch blanks) ws -> moves cs s0 c1 -> moves c1 [x] cx ->
  (forall t q, rest cx = t ++ q -> ends q -> Forall inner t -> name (s0 ++ x :: t)) ->
  token_case c (lex_identifier (Token TNone (line cs) (col cs)) cs c1).
Proof.
  intros c ws cs s0 c1 x cx M0 W M1 M2 N. unfold lex_identifier. rewrite (moves_next _ _ _ M2). cbn [bind].
  destruct (skip_inner cx) as (t & M3 & F & E). set (c2 := skipc _ cx) in *.
  assert (M : moves cs (s0 ++ x :: t) c2).
  { pose proof (moves_trans _ _ _ _ _ (moves_trans _ _ _ _ _ M1 M2) M3) as M. rewrite <- app_assoc in M. exact M. }
  rewrite (moves_between _ _ _ M). assert (NE : s0 ++ x :: t <> []) by (destruct s0; discriminate).
  destruct (Ascii.eqb (List.last (s0 ++ x :: t) NUL) ":") eqn:L.
  - apply case_label with (ws := ws) (cs := cs) (s := s0 ++ x :: t); try assumption. split; [apply (N t (rest c2)); [apply M3|exact E|exact F]|]. split; [|exact E]. apply colon_last_iff; assumption.
  - cbn [t_line t_col]. apply case_token with (ws := ws) (s := s0 ++ x :: t); try assumption. apply lexeme_name; [apply (N t (rest c2)); [apply M3|exact E|exact F]| |exact E].
    rewrite <- colon_last_iff by exact NE. congruence.
Qed.
Lemma blank_not : forall q, ~ begins blanks q -> is_blank (peek q) = false.
Proof.
  intros q N. destruct (is_blank (peek q)) eqn:E; [exfalso|reflexivity]. apply N. rewrite blank_mem in E.
  apply peek_in in E; [exact E|]. intros I. apply mem_in in I. discriminate.
Qed.
Lemma moves_cons : forall c ch, rest c <> [] -> peek (rest c) = ch -> exists c', moves c [ch] c'.
Proof.
  intros c ch N P. destruct (next_cases c) as [(R & _)|(x & r & R & NX)]; [congruence|]. destruct (next_moves _ _ NX) as (y & M & E). exists (Cursor r (adv_line x (line c)) (adv_col x (col c))). congruence.
Qed.
Lemma bang_word : forall b neg p w, bang b neg -> In p ["P"; "p"] -> forall b' neg' p' t', bang b' neg' -> In p' ["P"; "p"] -> b ++ p :: w = b' ++ p' :: t' -> b = b' /\ neg = neg' /\ p = p' /\ w = t'.
Proof.
  intros b neg p w [(-> & ->)|(-> & ->)] P b' neg' p' t' [(-> & ->)|(-> & ->)] P' E; cbn in E; injection E; intros; subst; auto.
  - apply mem_in in P. discriminate.
  - apply mem_in in P'. discriminate.
Qed.
(** Names that start with a 'P', possibly behind a '!'. *)
Lemma predicate_word : forall b neg p x t, bang b neg -> In p ["P"; "p"] -> Forall inner (x :: t) -> (index_char x -> t <> []) -> word (b ++ p :: x :: t).
Proof.
  intros b neg p x t B P F N.
  assert (PI : inner p) by (destruct P as [<-|[<-|[]]]; apply inner_iff; reflexivity).
  assert (G : exists h tl, b ++ p :: x :: t = h :: tl /\ Forall inner tl /\ is_blank h = false /\ h <> NUL /\ is_operator h = false /\ is_decimal h = false /\ h <> "R" /\ (h = "!" -> begins ["P"; "p"] tl)).
  { destruct B as [(-> & ->)|(-> & ->)]; cbn [app].
    - exists p, (x :: t). split; [reflexivity|]. split; [exact F|]. destruct P as [<-|[<-|[]]]; repeat split; try reflexivity; discriminate.
    - exists "!", (p :: x :: t). split; [reflexivity|]. split; [constructor; assumption|]. repeat split; try reflexivity; try discriminate. intros _. exists p, (x :: t). auto. }
  destruct G as (h & tl & E & FI & G1 & G2 & G3 & G4 & G5 & G6). exists h, tl. split; [exact E|]. split; [exact FI|].
  rewrite blank_mem in G1. apply mem_out in G1. rewrite operator_mem in G3. apply mem_out in G3. rewrite decimal_mem in G4. apply mem_out in G4.
  repeat split; try assumption; try contradiction.
  - intros b' neg' p' t' B' P' E'. destruct (bang_word _ _ _ _ B P _ _ _ _ B' P' E') as (_ & _ & _ & <-). discriminate.
  - intros i neg' (b' & p' & x' & E' & B' & P' & C). destruct (bang_word _ _ _ _ B P _ _ _ _ B' P' E') as (_ & _ & _ & EW). injection EW as -> ->.
    apply N; [|reflexivity]. destruct C as [(d & D & _)|(I & _)]; [left; apply digit10 in D as (D & _); apply decimal_in, D|right; exact I].
Qed.
Theorem tokenize1_cases : forall c, token_case c (tokenize1 c).
Proof.
  intros c0. unfold tokenize1. destruct (blanks_front c0) as (ws & M0 & W & NB). set (c := skipc is_blank c0) in *. cbv zeta.
  apply blank_not in NB as NB'. set (ch := peek (rest c)) in *.
  destruct (Ascii.eqb_spec ch NUL) as [EN|NN].
  { apply case_end with (ws := ws); try assumption. unfold ch in EN. destruct (rest c) as [|x r]; [left; reflexivity|right]. cbn in EN. exists x, r. subst x. cbn. auto. }
  assert (NR : rest c <> []) by (intros R; apply NN; unfold ch; rewrite R; reflexivity).
  destruct (moves_cons c ch NR eq_refl) as (c1 & M1). assert (R1 : rest c = ch :: rest c1) by apply M1. assert (P1 : peek1 (rest c) = peek (rest c1)) by (rewrite R1; destruct (rest c1); reflexivity).
  destruct (is_operator ch && (negb (is_sign ch) || negb (is_decimal (peek1 (rest c))))) eqn:EO.
  { rewrite (moves_next _ _ _ M1). cbn [bind]. apply case_token with (ws := ws) (s := [ch]); try assumption. apply andb_true_iff in EO as (EO & ED).
    apply lexeme_operator.
    - clear - EO. destruct ch as [[] [] [] [] [] [] [] []]; vm_compute in EO; try discriminate; cbn; auto 12.
    - intros I. apply mem_in in I. rewrite <- sign_mem in I. rewrite I in ED. cbn [orb negb] in ED. rewrite P1 in ED. rewrite <- begins_decimal.
      destruct (is_decimal (peek (rest c1))); [discriminate|congruence]. }
  destruct (is_contained "!Pp" ch) eqn:EP.
  { pose proof (predicate_cases (Token TNone (line c) (col c)) c EP) as PC.
    assert (DS : (is_decimal ch || is_sign ch = false) /\ Ascii.eqb ch "R" = false) by (destruct ch as [[] [] [] [] [] [] [] []]; vm_compute in EP; try discriminate; split; reflexivity).
    destruct DS as (DS & RS). destruct PC as [s i neg c' M PN RG E|b neg p c' M B P NI|b neg p x c' M B P IX NE|m r R NBP|m s i neg r R PN DN RG E]; cbn [bind].
    - apply case_token with (ws := ws) (s := s); try assumption. apply lexeme_predicate; assumption.
    - rewrite DS, RS. cbn [andb bind]. destruct (rest c') as [|x r'] eqn:RC.
      + unfold lex_identifier, next. rewrite RC. cbn [bind]. apply case_lone with (ws := ws) (cs := c) (b := b) (neg := neg) (p := p); try assumption.
        destruct M as (M & _). rewrite M, RC, app_nil_r. reflexivity.
      + destruct (moves_cons c' x) as (cx & MX); [rewrite RC; discriminate|rewrite RC; reflexivity|].
        apply (identifier_case c0 ws c (b ++ [p]) c' x cx M0 W M MX). intros t _ _ _ F. rewrite <- app_assoc. cbn [app].
        cbn [peek] in NI. destruct (is_separator x) eqn:SX.
        * right. exists b, neg, p, x, t. repeat split; try assumption. apply separator_in, SX.
        * left. apply (predicate_word b neg); try assumption; [constructor; [apply inner_iff, SX|exact F]|contradiction].
    - rewrite DS, RS. cbn [andb bind]. apply ends_not in NE. destruct (rest c') as [|y r'] eqn:RC; [discriminate|]. cbn [peek] in NE.
      destruct (moves_cons c' y) as (cx & MX); [rewrite RC; discriminate|rewrite RC; reflexivity|].
      apply (identifier_case c0 ws c (b ++ [p; x]) c' y cx M0 W M MX). intros t _ _ _ F. rewrite <- app_assoc. cbn [app]. left.
      apply (predicate_word b neg); try assumption; [|discriminate]. constructor; [|constructor; [apply inner_iff, NE|exact F]].
      apply inner_iff. apply index_char_in in IX. clear - IX. destruct x as [[] [] [] [] [] [] [] []]; vm_compute in IX |- *; congruence.
    - apply (case_bad c0 ws c m); try assumption. rewrite R. apply bad_bang, NBP.
    - apply (case_bad c0 ws c m); try assumption. rewrite R. apply (bad_predicate s i neg); assumption. }
  cbn [bind].
  assert (NP : forall b neg p t', bang b neg -> In p ["P"; "p"] -> forall tl, ch :: tl = b ++ p :: t' -> False).
  { intros b neg p t' B P tl E. destruct B as [(-> & _)|(-> & _)]; cbn in E; injection E as -> _; [destruct P as [<-|[<-|[]]]|]; discriminate. }
  assert (NB2 : ~ In ch blanks) by (rewrite <- mem_in, <- blank_mem; congruence).
  destruct ((is_decimal ch || is_sign ch) && negb (Ascii.eqb (peek1 (rest c)) "D")) eqn:EI.
  { apply andb_true_iff in EI as (EI & ED). rewrite P1 in *.
    assert (NS : number_start (rest c)).
    { rewrite R1. destruct (is_decimal ch) eqn:DC.
      - exists [], false, ch, (rest c1). split; [reflexivity|]. split; [constructor|apply decimal_in, DC].
      - cbn [orb] in EI. assert (OP : is_operator ch = true) by (clear - EI; destruct ch as [[] [] [] [] [] [] [] []]; vm_compute in EI |- *; congruence).
        rewrite OP, EI in EO. cbn [andb orb negb] in EO. apply negb_false_iff in EO. rewrite sign_mem in EI. apply mem_in in EI.
        destruct (rest c1) as [|d r]; [discriminate|]. cbn [peek] in EO. apply decimal_in in EO.
        destruct EI as [<-|[<-|[]]]; [exists ["+"], false, d, r|exists ["-"], true, d, r]; (split; [reflexivity|]; split; [constructor|exact EO]). }
    destruct (immediate_outcome (Token TNone (line c) (col c)) c NS) as [(k & c' & E)|(m & E)]; rewrite E; cbn [bind].
    - destruct (immediate_sound _ _ _ _ NS E) as (s & M & [(v & IV & NE & ->)|(neg & v & n & FR & NE & ->)]);
        apply case_token with (ws := ws) (s := s); try assumption; [apply lexeme_integer|apply lexeme_float]; assumption.
    - apply (case_bad c0 ws c m); try assumption. apply bad_number; [exact NS| | |].
      + intros (d & r & R & _). rewrite R1 in R. injection R as -> R. rewrite R in ED. discriminate.
      + intros s v q R IV NE. assert (MM : exists c', moves c s c') by (exists (Cursor q (lines s (line c)) (cols s (col c))); split; [exact R|split; reflexivity]).
        destruct MM as (c' & MM). assert (RQ : rest c' = q) by (destruct MM as (MM & _); rewrite R in MM; apply app_inv_head in MM; congruence).
        rewrite <- RQ in NE. rewrite (integer_complete (Token TNone (line c) (col c)) c s v c' MM IV NE) in E. discriminate.
      + intros s neg v k q R IV NE. assert (MM : exists c', moves c s c') by (exists (Cursor q (lines s (line c)) (cols s (col c))); split; [exact R|split; reflexivity]).
        destruct MM as (c' & MM). assert (RQ : rest c' = q) by (destruct MM as (MM & _); rewrite R in MM; apply app_inv_head in MM; congruence).
        rewrite <- RQ in NE. rewrite (float_complete (Token TNone (line c) (col c)) c s neg v k c' MM IV NE) in E. discriminate. }
  assert (NO : ~ In ch (map fst operators)).
  { rewrite <- mem_in, <- operator_mem. intros O. rewrite O in EO. cbn [andb] in EO. apply orb_false_iff in EO as (E1 & E2). apply negb_false_iff in E1, E2.
    rewrite E1, orb_true_r in EI. cbn [andb] in EI. apply negb_false_iff, Ascii.eqb_eq in EI. rewrite EI in E2. discriminate. }
  assert (ND : In ch decimals -> begins ["D"] (rest c1)).
  { intros D. apply decimal_in in D. rewrite D in EI. cbn [andb orb] in EI. apply negb_false_iff in EI. rewrite P1 in EI. apply peek_eq; [discriminate|exact EI]. }
  assert (NX : ch <> "!") by (intros ->; discriminate).
  destruct (Ascii.eqb_spec ch "R") as [ER|NRR].
  - pose proof (register_cases (Token TNone (line c) (col c)) c ER) as RC.
    destruct RC as [s k c' M L K|ds x r c' M F R SX DX ZX|m A]; cbn [bind].
    + apply case_token with (ws := ws) (s := s); assumption.
    + destruct (moves_cons c' x) as (cx & MX); [rewrite R; discriminate|rewrite R; reflexivity|].
      apply (identifier_case c0 ws c ("R" :: ds) c' x cx M0 W M MX). intros t _ _ _ FT. left. exists "R", (ds ++ x :: t). split; [reflexivity|].
      assert (FD : Forall inner ds).
      { rewrite Forall_forall. rewrite forallb_forall in F. intros y I. specialize (F y I). apply inner_iff. apply decimal_facts in F. apply F. }
      split; [apply Forall_app; split; [exact FD|constructor; [apply inner_iff, SX|exact FT]]|]. rewrite ER in *.
      split; [exact NB2|]. split; [discriminate|]. split; [exact NO|]. split; [intros D; apply decimal_in in D; discriminate|]. split; [discriminate|].
      split; [intros b neg p t' B P E; exfalso; exact (NP _ _ _ _ B P _ E)|].
      split; [intros i neg (b & p & y & E & B & P & _); exact (NP _ _ _ _ B P _ E)|].
      intros _. split.
      * intros (y & q & E & [<-|[]]). destruct ds as [|d ds]; cbn in E; injection E as -> _; [exact (ZX eq_refl eq_refl)|]. cbn [forallb] in F. apply andb_true_iff in F as (F & _). discriminate.
      * exists x. split; [apply in_or_app; right; left; reflexivity|]. rewrite <- decimal_in. congruence.
    + apply (case_bad c0 ws c m); try assumption. destruct A as [(r & R & NE)|[(ds & n & r & R & D & NE & L & E)|(r & R & E & NU)]]; rewrite R;
        [apply bad_zero_register|apply (bad_register ds n)|apply bad_lone_register]; assumption.
  - cbn [bind]. apply (identifier_case c0 ws c [] c ch c1 M0 W (moves_refl c) M1). intros t qt RT ET FT. left. cbn [app]. exists ch, t. split; [reflexivity|]. split; [exact FT|].
    split; [exact NB2|]. split; [exact NN|]. split; [exact NO|].
    split.
    { intros D. destruct (ND D) as (y & r & R & [<-|[]]). rewrite R in RT. destruct t as [|y t]; cbn in RT; [|injection RT as <- _; exists "D", t; cbn; auto].
      rewrite <- RT in ET. apply ends_peek in ET. discriminate. }
    split; [contradiction|].
    split; [intros b neg p t' B P E; exfalso; exact (NP _ _ _ _ B P _ E)|].
    split; [intros i neg (b & p & y & E & B & P & _); exact (NP _ _ _ _ B P _ E)|contradiction].
Qed.

(** ** The other direction: every such text is read that way *)

Lemma peek_app : forall (s q : text) ch t, s = ch :: t -> peek (s ++ q) = ch.
Proof. intros s q ch t ->. reflexivity. Qed.
Lemma blanks_exact : forall c ws cs, moves c ws cs -> Forall (fun ch => In ch blanks) ws -> is_blank (peek (rest cs)) = false -> skipc is_blank c = cs.
Proof.
  intros c ws cs M F N. apply (skip_exact is_blank c ws cs M); [|right; exact N]. apply (Forall_forallb _ is_blank) in F; [exact F|apply blank_in].
Qed.
Definition predicate_tail (t : token) (neg : bool) (c1 : cursor) : res (option tkind * cursor) :=
  let* c2 := next c1 in
  let ch := peek (rest c2) in
  let is_true := is_contained "Tt" ch in
  let index := if is_true then Some 7%N else if is_decimal ch then Some (N_of_ascii ch - 48)%N else None in
  match index with
  | None => Ok (None, c2)
  | Some i =>
      let* c3 := next c2 in
      if is_separator (peek (rest c3)) then
        if negb is_true && N.ltb 6 i then fatal_error t "out of range predicate"
        else Ok (Some (TPred i neg), c3)
      else Ok (None, c3)
  end.
Lemma predicate_compute : forall t c b neg c1, moves c b c1 -> bang b neg -> begins ["P"; "p"] (rest c1) -> lex_predicate t c = predicate_tail t neg c1.
Proof.
  intros t c b neg c1 M B P. unfold lex_predicate. destruct B as [(-> & ->)|(-> & ->)].
  - pose proof (moves_eq _ _ _ _ (moves_refl c) M) as <-. destruct P as (p & r & R & P). rewrite R. cbn [peek].
    replace (Ascii.eqb p "!") with false by (destruct P as [<-|[<-|[]]]; reflexivity). reflexivity.
  - rewrite (peek_moves _ _ _ _ M). cbn [Ascii.eqb Bool.eqb]. rewrite (moves_next _ _ _ M). cbn [bind]. rewrite (proj2 (Pp_begins _) P). reflexivity.
Qed.
Lemma predicate_short_exact : forall t c b neg p c', moves c (b ++ [p]) c' -> bang b neg -> In p ["P"; "p"] -> ~ index_char (peek (rest c')) ->
  lex_predicate t c = Ok (None, c').
Proof.
  intros t c b neg p c' M B P N. destruct (moves_split _ _ _ _ M) as (c1 & M1 & M2).
  rewrite (predicate_compute t c b neg c1 M1 B) by (destruct M2 as (M2 & _); exists p, (rest c'); split; assumption).
  unfold predicate_tail. rewrite (moves_next _ _ _ M2). cbn [bind]. cbv zeta. rewrite index_char_in in N.
  destruct (is_contained "Tt" _); [exfalso; apply N; reflexivity|]. destruct (is_decimal _); [exfalso; apply N; reflexivity|reflexivity].
Qed.
Lemma predicate_long_exact : forall t c b neg p x c', moves c (b ++ [p; x]) c' -> bang b neg -> In p ["P"; "p"] -> index_char x ->
  lex_predicate t c = if is_separator (peek (rest c')) then
    if negb (is_contained "Tt" x) && N.ltb 6 (index_value x) then fatal_error t "out of range predicate" else Ok (Some (TPred (index_value x) neg), c')
  else Ok (None, c').
Proof.
  intros t c b neg p x c' M B P I. destruct (moves_split _ _ _ _ M) as (c1 & M1 & M2). destruct (moves_split _ [p] [x] _ M2) as (c2 & M3 & M4).
  rewrite (predicate_compute t c b neg c1 M1 B) by (destruct M2 as (M2 & _); exists p, (x :: rest c'); split; assumption).
  unfold predicate_tail. rewrite (moves_next _ _ _ M3). cbn [bind]. cbv zeta. rewrite (peek_moves _ _ _ _ M4).
  apply index_char_in in I. unfold index_value.
  destruct (is_contained "Tt" x); [|cbn [orb] in I; rewrite I]; rewrite (moves_next _ _ _ M4); reflexivity.
Qed.
Lemma register_digits_exact : forall t c s n c', moves c ("R" :: s) c' -> denotes 10 s n -> s <> [] -> ends (rest c') ->
  lex_register t c = if n <=? 254 then Ok (Some (TReg (Z.to_N n)), c')
    else fatal_error t (register_range_message ("R" :: s)).
Proof.
  intros t c s n c' M D NE E. apply ends_peek in E. destruct (moves_split _ ["R"] s _ M) as (c1 & M1 & M2). unfold lex_register.
  rewrite (moves_next _ _ _ M1). cbn [bind]. pose proof (decimals_iff _ _ D) as F.
  assert (P : is_decimal (peek (rest c1)) = true).
  { destruct M2 as (M2 & _). destruct s as [|ch s]; [congruence|]. rewrite M2. cbn [app peek forallb] in *. apply andb_true_iff in F as (F & _). exact F. }
  replace (Ascii.eqb (peek (rest c1)) "Z") with false by (destruct (Ascii.eqb_spec (peek (rest c1)) "Z") as [Q|]; [rewrite Q in P; discriminate|reflexivity]).
  rewrite (skip_exact is_decimal c1 s c' M2 F) by (right; apply sep_not_decimal, E). rewrite E. cbn [negb].
  assert (ER : rest c1 = s ++ rest c') by apply M2. rewrite ER.
  rewrite (strtoll10_exact _ _ _ D NE E). unfold same_end. rewrite Nat.eqb_refl. cbn [negb].
  pose proof (denotes_nonneg 10 _ _ ltac:(lia) D) as NN. destruct (Z.leb_spec n 254) as [L|L].
  - assert (SV : saturate n = n) by (unfold saturate; change (2 ^ 63) with 9223372036854775808; lia). rewrite SV.
    replace ((n <? 0) || (NUM_USER_REGISTERS <=? n)) with false; [reflexivity|]. symmetry. apply orb_false_iff. split; [apply Z.ltb_ge, NN|apply Z.leb_gt; unfold NUM_USER_REGISTERS; lia].
  - assert (SV : 255 <= saturate n) by (unfold saturate; change (2 ^ 63) with 9223372036854775808; lia).
    replace (NUM_USER_REGISTERS <=? saturate n) with true by (symmetry; apply Z.leb_le; exact SV). rewrite orb_true_r, (moves_between _ _ _ M). reflexivity.
Qed.
Lemma register_name_exact : forall t c ds x t' c', moves c ("R" :: ds ++ x :: t') c' -> forallb is_decimal ds = true -> is_decimal x = false -> is_separator x = false ->
  (ds = [] -> x <> "Z") -> exists c1, moves c ("R" :: ds) c1 /\ moves c1 (x :: t') c' /\ lex_register t c = Ok (None, c1).
Proof.
  intros t c ds x t' c' M F DX SX Z. destruct (moves_split _ ("R" :: ds) (x :: t') _ M) as (c1 & M1 & M2). exists c1. split; [exact M1|]. split; [exact M2|].
  destruct (moves_split _ ["R"] ds _ M1) as (cr & M3 & M4). unfold lex_register. rewrite (moves_next _ _ _ M3). cbn [bind].
  assert (EZ : Ascii.eqb (peek (rest cr)) "Z" = false).
  { apply Ascii.eqb_neq. destruct ds as [|d ds].
    - pose proof (moves_eq _ _ _ _ (moves_refl cr) M4) as <-. rewrite (peek_moves _ _ _ _ M2). exact (Z eq_refl).
    - rewrite (peek_moves _ _ _ _ M4). intros ->. discriminate. }
  rewrite EZ. rewrite (skip_exact is_decimal cr ds c1 M4 F) by (right; rewrite (peek_moves _ _ _ _ M2); exact DX). rewrite (peek_moves _ _ _ _ M2), SX. reflexivity.
Qed.
Lemma identifier_exact : forall cs s0 c1 x t c', moves cs s0 c1 -> moves c1 (x :: t) c' -> Forall inner t -> ends (rest c') ->
  lex_identifier (Token TNone (line cs) (col cs)) cs c1 =
    Ok (if Ascii.eqb (List.last (s0 ++ x :: t) NUL) ":" then Skip c' else Got (Token (TIdent (s0 ++ x :: t)) (line cs) (col cs)) c').
Proof.
  intros cs s0 c1 x t c' M1 M2 F E. destruct (moves_split _ [x] t _ M2) as (cx & MX & MT). unfold lex_identifier. rewrite (moves_next _ _ _ MX). cbn [bind].
  rewrite (skip_exact (fun ch => negb (is_separator ch)) cx t c' MT).
  - rewrite (moves_between _ _ _ (moves_trans _ _ _ _ _ M1 M2)). destruct (Ascii.eqb _ ":"); reflexivity.
  - apply (Forall_forallb inner); [|exact F]. intros y. rewrite <- inner_iff. destruct (is_separator y); cbn; split; congruence.
  - right. apply ends_peek in E. rewrite E. reflexivity.
Qed.

(** Reading starts at the first character that is not blank. *)
Lemma tokenize1_at : forall c ws cs, moves c ws cs -> Forall (fun ch => In ch blanks) ws -> is_blank (peek (rest cs)) = false -> tokenize1 c = tokenize1 cs.
Proof.
  intros c ws cs M F N. unfold tokenize1. rewrite (blanks_exact _ _ _ M F N), (blanks_exact _ _ _ (moves_refl cs) (Forall_nil _) N). reflexivity.
Qed.
Lemma tokenize1_predicate : forall c p, is_contained "!Pp" (peek (rest c)) = true -> lex_predicate (Token TNone (line c) (col c)) c = p ->
  tokenize1 c = let* (k, c1) := p in match k with Some k => Ok (Got (Token k (line c) (col c)) c1) | None => lex_identifier (Token TNone (line c) (col c)) c c1 end.
Proof.
  intros c p H E.
  assert (DS : is_blank (peek (rest c)) = false /\ Ascii.eqb (peek (rest c)) NUL = false /\ is_operator (peek (rest c)) = false /\ is_decimal (peek (rest c)) || is_sign (peek (rest c)) = false /\ Ascii.eqb (peek (rest c)) "R" = false)
    by (destruct (peek (rest c)) as [[] [] [] [] [] [] [] []]; vm_compute in H; try discriminate; repeat split; reflexivity).
  destruct DS as (D1 & D2 & D3 & D4 & D5). unfold tokenize1. rewrite (blanks_exact _ _ _ (moves_refl c) (Forall_nil _) D1). cbv zeta.
  rewrite D2, D3, H, E, D4, D5. cbn [andb]. destruct p as [(k & c1)| | | | |]; reflexivity.
Qed.
Lemma tokenize1_register : forall c p, peek (rest c) = "R" -> lex_register (Token TNone (line c) (col c)) c = p ->
  tokenize1 c = let* (k, c1) := p in match k with Some k => Ok (Got (Token k (line c) (col c)) c1) | None => lex_identifier (Token TNone (line c) (col c)) c c1 end.
Proof.
  intros c p H E. unfold tokenize1. rewrite (blanks_exact _ _ _ (moves_refl c) (Forall_nil _)) by (rewrite H; reflexivity). cbv zeta. rewrite H. cbn [bind]. 
  change (Ascii.eqb "R" NUL) with false. change (is_operator "R") with false. change (is_contained "!Pp" "R") with false. change (is_decimal "R" || is_sign "R") with false. change (Ascii.eqb "R" "R") with true.
  cbn [andb bind]. rewrite E. destruct p as [(k & c1)| | | | |]; reflexivity.
Qed.
Lemma tokenize1_number : forall c, number_start (rest c) -> ~ (exists d r, rest c = d :: "D" :: r /\ In d decimals) ->
  tokenize1 c = let* (k, c1) := lex_immediate (Token TNone (line c) (col c)) c in Ok (Got (Token k (line c) (col c)) c1).
Proof.
  intros c (sg & neg & d & l & R & S & D) N. apply decimal_in in D.
  assert (DS : is_blank (peek (rest c)) = false /\ Ascii.eqb (peek (rest c)) NUL = false /\ is_operator (peek (rest c)) && (negb (is_sign (peek (rest c))) || negb (is_decimal (peek1 (rest c)))) = false /\
    (is_decimal (peek (rest c)) || is_sign (peek (rest c))) && negb (Ascii.eqb (peek1 (rest c)) "D") = true /\ is_contained "!Pp" (peek (rest c)) = false).
  { rewrite R. destruct S; cbn [app peek peek1].
    - destruct (decimal_facts _ D) as (_ & _ & A1 & A2 & A3 & A4 & _). rewrite A1, A3, A4, D. cbn [andb orb]. split; [reflexivity|]. split; [apply Ascii.eqb_neq, A2|].
      split; [reflexivity|]. split; [|reflexivity]. apply negb_true_iff, Ascii.eqb_neq. intros E. apply N. exists d. destruct l as [|y l]; [discriminate|]. exists l. cbn in E. subst y.
      split; [exact R|apply decimal_in, D].
    - rewrite D. repeat split; try reflexivity. apply negb_true_iff, Ascii.eqb_neq. intros ->. discriminate.
    - rewrite D. repeat split; try reflexivity. apply negb_true_iff, Ascii.eqb_neq. intros ->. discriminate. }
  destruct DS as (D1 & D2 & D3 & D4 & D5). unfold tokenize1. rewrite (blanks_exact _ _ _ (moves_refl c) (Forall_nil _) D1). cbv zeta.
  rewrite D2, D3, D5. cbn [bind]. rewrite D4. reflexivity.
Qed.
Definition name_result (cs : cursor) (w : text) (c' : cursor) : lexed :=
  if Ascii.eqb (List.last w NUL) ":" then Skip c' else Got (Token (TIdent w) (line cs) (col cs)) c'.
Lemma predicate_name_complete : forall c b neg p x t c', moves c (b ++ p :: x :: t) c' -> bang b neg -> In p ["P"; "p"] -> Forall inner t ->
  (index_char x -> t <> []) -> ends (rest c') -> tokenize1 c = Ok (name_result c (b ++ p :: x :: t) c').
Proof.
  intros c b neg p x t c' M B P F I E.
  assert (H : is_contained "!Pp" (peek (rest c)) = true).
  { destruct M as (M & _). rewrite M. destruct B as [(-> & _)|(-> & _)]; cbn [app peek]; [|reflexivity]. destruct P as [<-|[<-|[]]]; reflexivity. }
  destruct (is_contained "Tt" x || is_decimal x) eqn:IX.
  - assert (IC : index_char x) by (apply index_char_in, IX). destruct t as [|y t]; [exfalso; exact (I IC eq_refl)|].
    assert (M' : moves c ((b ++ [p; x]) ++ y :: t) c') by (rewrite <- app_assoc; exact M). destruct (moves_split _ _ _ _ M') as (c1 & M1 & M2).
    assert (SY : is_separator y = false) by (apply inner_iff; exact (Forall_inv F)).
    rewrite (tokenize1_predicate c _ H (predicate_long_exact _ c b neg p x c1 M1 B P IC)). rewrite (peek_moves _ _ _ _ M2), SY. cbn [bind].
    rewrite (identifier_exact _ _ _ _ _ _ M1 M2 (Forall_inv_tail F) E). rewrite <- app_assoc. reflexivity.
  - assert (M' : moves c ((b ++ [p]) ++ x :: t) c') by (rewrite <- app_assoc; exact M). destruct (moves_split _ _ _ _ M') as (c1 & M1 & M2).
    assert (NI : ~ index_char (peek (rest c1))) by (rewrite (peek_moves _ _ _ _ M2), index_char_in, IX; discriminate).
    rewrite (tokenize1_predicate c _ H (predicate_short_exact _ c b neg p c1 M1 B P NI)). cbn [bind].
    rewrite (identifier_exact _ _ _ _ _ _ M1 M2 F E). rewrite <- app_assoc. reflexivity.
Qed.
Lemma split_decimal : forall l, (exists x, In x l /\ ~ In x decimals) -> exists ds x t, l = ds ++ x :: t /\ forallb is_decimal ds = true /\ is_decimal x = false.
Proof.
  induction l as [|y l IH]; intros (x & I & N); [contradiction|]. destruct (is_decimal y) eqn:D.
  - destruct I as [->|I]; [exfalso; apply N, decimal_in, D|]. destruct (IH (ex_intro _ x (conj I N))) as (ds & z & t & -> & F & NZ). exists (y :: ds), z, t.
    split; [reflexivity|]. split; [cbn [forallb]; rewrite D; exact F|exact NZ].
  - exists [], y, l. split; [reflexivity|]. split; [reflexivity|exact D].
Qed.
Lemma name_complete : forall c w c', moves c w c' -> name w -> ends (rest c') -> tokenize1 c = Ok (name_result c w c').
Proof.
  intros c w c' M [W|(b & neg & p & x & t & -> & B & P & X & F)] E.
  - destruct W as (h & t & -> & F & NB & NN & NO & ND & NX & NP1 & NP2 & NR).
    assert (PK : peek (rest c) = h) by exact (peek_moves _ _ _ _ M).
    destruct (is_contained "!Pp" h) eqn:HP.
    { assert (G : exists b neg p t', bang b neg /\ In p ["P"; "p"] /\ h :: t = b ++ p :: t').
      { destruct (Ascii.eqb_spec h "!") as [->|N1].
        - destruct (NX eq_refl) as (p & t' & -> & P). exists ["!"], true, p, t'. split; [right; split; reflexivity|]. split; [exact P|reflexivity].
        - exists [], false, h, t. split; [left; split; reflexivity|]. split; [|reflexivity]. apply mem_in. rewrite <- Pp_mem.
          clear - HP N1. destruct h as [[] [] [] [] [] [] [] []]; vm_compute in HP; try discriminate; try reflexivity. exfalso. apply N1. reflexivity. }
      destruct G as (b & neg & p & t' & B & P & EW). pose proof (NP1 b neg p t' B P EW) as NT. destruct t' as [|x t']; [congruence|].
      rewrite EW in *. apply (predicate_name_complete c b neg); try assumption.
      - destruct B as [(-> & _)|(-> & _)]; cbn in EW; injection EW as -> ->; [exact (Forall_inv_tail F)|exact (Forall_inv_tail (Forall_inv_tail F))].
      - intros I ->. apply (NP2 (index_value x) neg). apply predicate_name_iff; auto. }
    destruct (Ascii.eqb_spec h "R") as [->|NRR].
    { destruct (NR eq_refl) as (NZ & XD). destruct (split_decimal _ XD) as (ds & x & t' & -> & FD & DX).
      assert (SX : is_separator x = false) by (apply inner_iff; apply Forall_app in F as (_ & F); exact (Forall_inv F)).
      destruct (register_name_exact (Token TNone (line c) (col c)) c ds x t' c' M FD DX SX) as (c1 & M1 & M2 & L).
      { intros -> ->. apply NZ. exists "Z", t'. cbn. auto. }
      rewrite (tokenize1_register c _ PK L). cbn [bind].
      apply Forall_app in F as (_ & F). rewrite (identifier_exact _ _ _ _ _ _ M1 M2 (Forall_inv_tail F) E). reflexivity. }
    unfold tokenize1. assert (BL : is_blank h = false) by (rewrite blank_mem; apply mem_out, NB).
    rewrite (blanks_exact _ _ _ (moves_refl c) (Forall_nil _)) by (rewrite PK; exact BL). cbv zeta. rewrite PK.
    rewrite (proj2 (Ascii.eqb_neq h NUL) NN). assert (OP : is_operator h = false) by (rewrite operator_mem; apply mem_out, NO). rewrite OP, HP. cbn [andb bind].
    assert (DI : (is_decimal h || is_sign h) && negb (Ascii.eqb (peek1 (rest c)) "D") = false).
    { assert (SG : is_sign h = false) by (clear - OP; destruct h as [[] [] [] [] [] [] [] []]; vm_compute in OP |- *; congruence). rewrite SG, orb_false_r.
      destruct (is_decimal h) eqn:DH; [|reflexivity]. destruct (ND (proj1 (decimal_in h) DH)) as (y & r & -> & [<-|[]]). destruct M as (M & _). rewrite M. reflexivity. }
    rewrite DI, (proj2 (Ascii.eqb_neq h "R") NRR). cbn [bind].
    rewrite (identifier_exact c [] c h t c' (moves_refl c) M F E). reflexivity.
  - apply (predicate_name_complete c b neg); try assumption. intros I. exfalso. apply index_char_in in I. apply separator_in in X.
    clear - I X. destruct x as [[] [] [] [] [] [] [] []]; vm_compute in X; try discriminate; discriminate.
Qed.

Lemma integer_start : forall s v q, integer s v -> ends q -> number_start (s ++ q) /\ ~ (exists d r, s ++ q = d :: "D" :: r /\ In d decimals).
Proof.
  intros s0 v0 q (sg & neg & m & w & -> & S & M & _) E. apply ends_peek in E. destruct (magnitude_start _ _ M) as (ch & m' & EM & DC). split.
  - exists sg, neg, ch, (m' ++ q). split; [rewrite EM, <- app_assoc; reflexivity|]. split; [exact S|apply decimal_in, DC].
  - intros (d & r & EQ & DD). apply decimal_in in DD. destruct S; cbn [app] in EQ; [|injection EQ as <- _; discriminate|injection EQ as <- _; discriminate].
    assert (ND : forall b l, b <= 10 -> forallb (fun ch => digit_value ch <? b) l = true -> forall x r, l ++ q = x :: r -> x <> "D").
    { intros b [|y l] B F x r' EL ->; cbn [app] in EL.
      - rewrite EL in E. discriminate.
      - injection EL as -> _. cbn [forallb] in F. apply andb_true_iff in F as (F & _). apply Z.ltb_lt in F. change (digit_value "D") with 13 in F. lia. }
    destruct M as [s v D N B|s v D|x s v I D N].
    + apply denotes_iff in D as (F & _); [|lia]. destruct s as [|y s]; [congruence|]. cbn [forallb app] in *. apply andb_true_iff in F as (_ & F). injection EQ as _ EQ.
      exact (ND 10 s ltac:(lia) F _ _ EQ eq_refl).
    + apply denotes_iff in D as (F & _); [|lia]. cbn [app] in EQ. injection EQ as _ EQ. exact (ND 8 s ltac:(lia) F _ _ EQ eq_refl).
    + cbn [app] in EQ. injection EQ as _ -> _. destruct I as [I|[I|[]]]; discriminate.
Qed.
Lemma fraction_start : forall s neg v k q, fraction s neg v k -> number_start (s ++ q) /\ ~ (exists d r, s ++ q = d :: "D" :: r /\ In d decimals).
Proof.
  intros s neg v k q (sg & ip & fp & -> & S & N & D & _). apply decimals_iff in D. rewrite forallb_app in D. apply andb_true_iff in D as (D & _).
  destruct ip as [|ch ip]; [congruence|]. cbn [forallb] in D. apply andb_true_iff in D as (DC & D). split.
  - exists sg, neg, ch, (ip ++ "." :: fp ++ q). split; [rewrite <- !app_assoc; reflexivity|]. split; [exact S|apply decimal_in, DC].
  - intros (d & r & EQ & DD). apply decimal_in in DD. destruct S; cbn [app] in EQ; [|injection EQ as <- _; discriminate|injection EQ as <- _; discriminate].
    injection EQ as _ EQ. destruct ip as [|y ip]; cbn [app] in EQ; [discriminate|]. injection EQ as -> _. cbn [forallb] in D. discriminate.
Qed.
Lemma lexeme_first : forall s k q, lexeme s k q -> exists ch t, s = ch :: t /\ is_blank ch = false /\ ch <> NUL.
Proof.
  intros s k q L. destruct L as [ch k q I N|s i neg q (b & p & x & -> & B & P & _) R E|s v q IV E|s neg v n q FR E|q E|s n q D NE L E|q E N|w q N C E].
  - exists ch, []. split; [reflexivity|]. apply (in_map fst) in I. cbn [fst] in I. apply mem_in in I. rewrite <- operator_mem in I.
    clear - I. destruct ch as [[] [] [] [] [] [] [] []]; vm_compute in I; try discriminate; split; try reflexivity; discriminate.
  - destruct B as [(-> & _)|(-> & _)]; do 2 eexists; (split; [reflexivity|]); [|split; [reflexivity|discriminate]]. destruct P as [<-|[<-|[]]]; split; try reflexivity; discriminate.
  - destruct IV as (sg & neg & m & w & -> & S & M & _). destruct (magnitude_start _ _ M) as (ch & m' & -> & DC). destruct (decimal_facts _ DC) as (_ & _ & A1 & A2 & _).
    destruct S; do 2 eexists; (split; [reflexivity|]); split; try reflexivity; try assumption; discriminate.
  - destruct FR as (sg & ip & fp & -> & S & N & D & _). apply decimals_iff in D. rewrite forallb_app in D. apply andb_true_iff in D as (D & _).
    destruct ip as [|ch ip]; [congruence|]. cbn [forallb] in D. apply andb_true_iff in D as (DC & D). destruct (decimal_facts _ DC) as (_ & _ & A1 & A2 & _).
    destruct S; do 2 eexists; (split; [reflexivity|]); split; try reflexivity; try assumption; discriminate.
  - do 2 eexists; split; [reflexivity|]. split; [reflexivity|discriminate].
  - do 2 eexists; split; [reflexivity|]. split; [reflexivity|discriminate].
  - do 2 eexists; split; [reflexivity|]. split; [reflexivity|discriminate].
  - destruct N as [(h & t & -> & F & NB & NN & _)|(b & neg & p & x & t & -> & B & P & _)].
    + exists h, t. split; [reflexivity|]. split; [rewrite blank_mem; apply mem_out, NB|exact NN].
    + destruct B as [(-> & _)|(-> & _)]; do 2 eexists; (split; [reflexivity|]); [|split; [reflexivity|discriminate]]. destruct P as [<-|[<-|[]]]; split; try reflexivity; discriminate.
Qed.
Lemma name_first : forall w, name w -> exists ch t, w = ch :: t /\ is_blank ch = false /\ ch <> NUL.
Proof.
  intros w [(h & t & -> & F & NB & NN & _)|(b & neg & p & x & t & -> & B & P & _)].
  - exists h, t. split; [reflexivity|]. split; [rewrite blank_mem; apply mem_out, NB|exact NN].
  - destruct B as [(-> & _)|(-> & _)]; do 2 eexists; (split; [reflexivity|]); [|split; [reflexivity|discriminate]]. destruct P as [<-|[<-|[]]]; split; try reflexivity; discriminate.
Qed.
Lemma lexeme_complete : forall c s k c', moves c s c' -> lexeme s k (rest c') -> tokenize1 c = Ok (Got (Token k (line c) (col c)) c').
Proof.
  intros c s k c' M L. assert (RC : rest c = s ++ rest c') by apply M. remember (rest c') as q eqn:EQ.
  destruct L as [ch k q I N|s i neg q PN R E|s v q IV E|s neg v n q FR E|q E|s n q D NE L E|q E N|w q N C E].
  - assert (OP : is_operator ch = true /\ operator_type ch = k /\ is_blank ch = false /\ Ascii.eqb ch NUL = false).
    { clear - I. repeat destruct I as [I|I]; try (injection I as <- <-; repeat split; reflexivity). contradiction. }
    destruct OP as (O1 & O2 & O3 & O4). pose proof (peek_moves _ _ _ _ M) as PK. unfold tokenize1.
    rewrite (blanks_exact _ _ _ (moves_refl c) (Forall_nil _)) by (rewrite PK; exact O3). cbv zeta. rewrite PK, O4, O1.
    assert (P1 : peek1 (rest c) = peek q) by (rewrite RC; destruct q; reflexivity). rewrite P1.
    assert (SG : negb (is_sign ch) || negb (is_decimal (peek q)) = true).
    { destruct (is_sign ch) eqn:S; [|reflexivity]. cbn [negb orb]. apply negb_true_iff. rewrite sign_mem in S. apply mem_in in S. specialize (N S).
      rewrite <- begins_decimal in N. destruct (is_decimal (peek q)); [exfalso; apply N; reflexivity|reflexivity]. }
    rewrite SG. cbn [andb]. rewrite (moves_next _ _ _ M). cbn [bind]. rewrite O2. reflexivity.
  - pose proof PN as (b & p & x & -> & B & P & _). apply (predicate_name_iff b p x neg i B P) in PN as (IC & ->).
    assert (H : is_contained "!Pp" (peek (rest c)) = true).
    { rewrite RC. destruct B as [(-> & _)|(-> & _)]; cbn [app peek]; [|reflexivity]. destruct P as [<-|[<-|[]]]; reflexivity. }
    rewrite (tokenize1_predicate c _ H (predicate_long_exact _ c b neg p x c' M B P IC)). subst q. rewrite (proj2 (ends_peek _) E).
    replace (negb (is_contained "Tt" x) && N.ltb 6 (index_value x)) with false; [reflexivity|]. symmetry. apply andb_false_iff.
    destruct R as [R|R]; [right; apply N.ltb_ge, R|left]. rewrite digit_name_iff in R. destruct IC as [IC|IC]; [contradiction|]. apply mem_in in IC. rewrite Tt_mem, IC. reflexivity.
  - subst q. destruct (integer_start s v (rest c') IV (proj1 E)) as (NS & ND). rewrite <- RC in NS, ND.
    rewrite (tokenize1_number c NS ND), (integer_complete _ _ _ _ _ M IV E). reflexivity.
  - subst q. destruct (fraction_start s neg v n (rest c') FR) as (NS & ND). rewrite <- RC in NS, ND.
    rewrite (tokenize1_number c NS ND), (float_complete _ _ _ _ _ _ _ M FR E). reflexivity.
  - assert (PK : peek (rest c) = "R") by (rewrite RC; reflexivity). rewrite (tokenize1_register c _ PK eq_refl). unfold lex_register.
    destruct (moves_split _ ["R"] ["Z"] _ M) as (c1 & M1 & M2). rewrite (moves_next _ _ _ M1). cbn [bind]. rewrite (peek_moves _ _ _ _ M2). cbn [Ascii.eqb Bool.eqb].
    rewrite (moves_next _ _ _ M2). cbn [bind]. subst q. rewrite (proj2 (ends_peek _) E). reflexivity.
  - subst q. assert (PK : peek (rest c) = "R") by (rewrite RC; reflexivity). rewrite (tokenize1_register c _ PK (register_digits_exact _ c s n c' M D NE E)).
    rewrite (proj2 (Z.leb_le _ _) L). reflexivity.
  - assert (PK : peek (rest c) = "R") by (rewrite RC; reflexivity). rewrite (tokenize1_register c _ PK eq_refl). unfold lex_register.
    rewrite (moves_next _ _ _ M). cbn [bind]. rewrite <- EQ. apply ends_peek in E. destruct (sep_not_decimal _ E) as (ND & NZ). rewrite NZ.
    rewrite (skip_exact is_decimal c' [] c' (moves_refl c') eq_refl) by (right; rewrite <- EQ; exact ND). rewrite <- EQ, E. cbn [negb].
    rewrite (strtoll10_none _ N). unfold same_end. rewrite <- EQ, Nat.eqb_refl. reflexivity.
  - subst q. rewrite (name_complete c w c' M N E). unfold name_result. replace (Ascii.eqb (List.last w NUL) ":") with false; [reflexivity|].
    destruct (name_first _ N) as (ch & t & EW & _). rewrite <- colon_last_iff in C by (rewrite EW; discriminate). destruct (Ascii.eqb _ ":"); [exfalso; apply C; reflexivity|reflexivity].
Qed.
Lemma label_complete : forall c w c', moves c w c' -> label_text w (rest c') -> tokenize1 c = Ok (Skip c').
Proof.
  intros c w c' M (N & C & E). rewrite (name_complete c w c' M N E). unfold name_result. destruct (name_first _ N) as (ch & t & EW & _).
  rewrite (proj2 (colon_last_iff w ltac:(rewrite EW; discriminate)) C). reflexivity.
Qed.
Lemma bad_complete : forall c, bad_text (rest c) -> exists m, tokenize1 c = Fatal (Diag (Some (line c, col c)) m).
Proof.
  intros c B. remember (rest c) as l eqn:RC. symmetry in RC. destruct B as [r N|s i neg r PN DN L E|l NS ND NI NF|r N|s n r D NE L E|r E N].
  - assert (H : is_contained "!Pp" (peek (rest c)) = true) by (rewrite RC; reflexivity). rewrite (tokenize1_predicate c _ H eq_refl). unfold lex_predicate. rewrite RC. cbn [peek Ascii.eqb Bool.eqb].
    destruct (next_some c "!") as (c1 & -> & M); [rewrite RC; reflexivity|discriminate|]. cbn [bind].
    replace (is_contained "Pp" (peek (rest c1))) with false; [eexists; reflexivity|]. assert (R1 : rest c1 = r) by (destruct M as (M & _); rewrite RC in M; injection M as M; congruence).
    rewrite R1. rewrite <- Pp_begins in N. destruct (is_contained "Pp" (peek r)); [exfalso; apply N; reflexivity|reflexivity].
  - pose proof PN as (b & p & x & -> & B & P & _). apply (predicate_name_iff b p x neg i B P) in PN as (IC & ->).
    assert (H : is_contained "!Pp" (peek (rest c)) = true).
    { rewrite RC. destruct B as [(-> & _)|(-> & _)]; cbn [app peek]; [|reflexivity]. destruct P as [<-|[<-|[]]]; reflexivity. }
    assert (MM : exists c', moves c (b ++ [p; x]) c' /\ rest c' = r) by (exists (Cursor r (lines (b ++ [p; x]) (line c)) (cols (b ++ [p; x]) (col c))); split; [split; [exact RC|split; reflexivity]|reflexivity]).
    destruct MM as (c' & M & RQ). rewrite (tokenize1_predicate c _ H (predicate_long_exact _ c b neg p x c' M B P IC)). rewrite RQ, (proj2 (ends_peek _) E).
    apply digit_name_iff, decimal_in in DN. replace (is_contained "Tt" x) with false by (clear - DN; destruct x as [[] [] [] [] [] [] [] []]; vm_compute in DN |- *; congruence).
    rewrite (proj2 (N.ltb_lt _ _) L). eexists; reflexivity.
  - rewrite <- RC in *. rewrite (tokenize1_number c NS ND). destruct (immediate_outcome (Token TNone (line c) (col c)) c NS) as [(k & c' & E)|(m & E)]; rewrite E; cbn [bind]; [exfalso|eexists; reflexivity].
    destruct (immediate_sound _ _ _ _ NS E) as (s & M & [(v & IV & NE & _)|(neg & v & n & FR & NE & _)]).
    + exact (NI s v (rest c') (proj1 M) IV NE).
    + exact (NF s neg v n (rest c') (proj1 M) FR NE).
  - assert (PK : peek (rest c) = "R") by (rewrite RC; reflexivity). rewrite (tokenize1_register c _ PK eq_refl). unfold lex_register.
    assert (MM : exists c', moves c ["R"; "Z"] c' /\ rest c' = r) by (exists (Cursor r (lines ["R"; "Z"] (line c)) (cols ["R"; "Z"] (col c))); split; [split; [exact RC|split; reflexivity]|reflexivity]).
    destruct MM as (c' & M & RQ). destruct (moves_split _ ["R"] ["Z"] _ M) as (c1 & M1 & M2). rewrite (moves_next _ _ _ M1). cbn [bind]. rewrite (peek_moves _ _ _ _ M2). cbn [Ascii.eqb Bool.eqb].
    rewrite (moves_next _ _ _ M2). cbn [bind]. rewrite RQ. apply ends_not in N. rewrite N. eexists; reflexivity.
  - assert (PK : peek (rest c) = "R") by (rewrite RC; reflexivity).
    assert (MM : exists c', moves c ("R" :: s) c' /\ rest c' = r) by (exists (Cursor r (lines ("R" :: s) (line c)) (cols ("R" :: s) (col c))); split; [split; [exact RC|split; reflexivity]|reflexivity]).
    destruct MM as (c' & M & RQ). rewrite <- RQ in E. rewrite (tokenize1_register c _ PK (register_digits_exact _ c s n c' M D NE E)).
    rewrite (proj2 (Z.leb_gt _ _) L). eexists; reflexivity.
  - assert (PK : peek (rest c) = "R") by (rewrite RC; reflexivity). rewrite (tokenize1_register c _ PK eq_refl). unfold lex_register.
    destruct (next_some c "R" PK ltac:(discriminate)) as (c1 & -> & M). cbn [bind]. assert (R1 : rest c1 = r) by (destruct M as (M & _); rewrite RC in M; injection M as M; congruence).
    rewrite R1. apply ends_peek in E. destruct (sep_not_decimal _ E) as (ND & NZ). rewrite NZ.
    rewrite (skip_exact is_decimal c1 [] c1 (moves_refl c1) eq_refl) by (right; rewrite R1; exact ND). rewrite R1, E. cbn [negb].
    destruct (strtoll10_some _ N) as (v & e & -> & L). replace (same_end e c1) with false by (symmetry; apply Nat.eqb_neq; rewrite R1; lia). eexists; reflexivity.
Qed.
Lemma lone_complete : forall c b neg p, rest c = b ++ [p] -> bang b neg -> In p ["P"; "p"] -> tokenize1 c = Undef UB_read_past_nul.
Proof.
  intros c b neg p R B P.
  assert (H : is_contained "!Pp" (peek (rest c)) = true).
  { rewrite R. destruct B as [(-> & _)|(-> & _)]; cbn [app peek]; [|reflexivity]. destruct P as [<-|[<-|[]]]; reflexivity. }
  assert (MM : exists c', moves c (b ++ [p]) c' /\ rest c' = []) by (exists (Cursor [] (lines (b ++ [p]) (line c)) (cols (b ++ [p]) (col c))); split; [split; [cbn [rest]; rewrite app_nil_r; exact R|split; reflexivity]|reflexivity]).
  destruct MM as (c' & M & RQ). rewrite (tokenize1_predicate c _ H (predicate_short_exact _ c b neg p c' M B P ltac:(rewrite RQ; intros I; apply index_char_in in I; discriminate))).
  cbn [bind]. unfold lex_identifier, next. rewrite RQ. reflexivity.
Qed.

(** ** [tokenize] *)

Definition token_text (s : text) (k : tkind) (q : text) : Prop := lexeme s k q \/ (s = [] /\ k = TNone /\ (q = [] \/ begins [NUL] q)).
Lemma token_first : forall s k q, token_text s k q -> is_blank (peek (s ++ q)) = false.
Proof.
  intros s k q [L|(-> & _ & E)].
  - destruct (lexeme_first _ _ _ L) as (ch & t & -> & B & _). exact B.
  - cbn [app]. destruct E as [->|(ch & r & -> & [<-|[]])]; reflexivity.
Qed.
Lemma token1_complete : forall c s k c', moves c s c' -> token_text s k (rest c') -> tokenize1 c = Ok (Got (Token k (line c) (col c)) c').
Proof.
  intros c s k c' M [L|(-> & -> & E)]; [exact (lexeme_complete _ _ _ _ M L)|]. pose proof (moves_eq _ _ _ _ (moves_refl c) M) as <-.
  assert (P : peek (rest c) = NUL) by (destruct E as [->|(ch & r & -> & [<-|[]])]; reflexivity). unfold tokenize1.
  rewrite (blanks_exact _ _ _ (moves_refl c) (Forall_nil _)) by (rewrite P; reflexivity). cbv zeta. rewrite P. reflexivity.
Qed.
(** The tokens read are those of [SpecLex], with their position. *)
Theorem tokenize_iff : forall c t c', tokenize c = Ok (t, c') <->
  exists g s cs, moves c g cs /\ gap g (rest cs) /\ moves cs s c' /\ token_text s (kind t) (rest c') /\ t_line t = line cs /\ t_col t = col cs.
Proof.
  intros c t c'. split.
  - assert (G : forall n c, (List.length (rest c) < n)%nat -> tokenize c = Ok (t, c') ->
      exists g s cs, moves c g cs /\ gap g (rest cs) /\ moves cs s c' /\ token_text s (kind t) (rest c') /\ t_line t = line cs /\ t_col t = col cs).
    { induction n as [|n IH]; intros c0 L H; [lia|]. rewrite tokenize_step in H.
      destruct (tokenize1_cases c0) as [ws c1 M W E|ws cs s k c1 M W M2 LX|ws cs s c1 M W M2 (NM & CL & EN)|ws cs m M W NB B|ws cs b neg p M W R B P]; cbn [bind] in H; try discriminate.
      - injection H as <- <-. exists ws, [], c1. split; [exact M|]. split; [constructor; exact W|]. split; [apply moves_refl|]. split; [right; auto|]. split; reflexivity.
      - injection H as <- <-. exists ws, s, cs. split; [exact M|]. split; [constructor; exact W|]. split; [exact M2|]. split; [left; exact LX|]. split; reflexivity.
      - destruct (name_first _ NM) as (ch & tl & ES & _). pose proof (moves_trans _ _ _ _ _ M M2) as MM.
        destruct (IH c1) as (g & s' & cs' & A1 & A2 & A3 & A4 & A5 & A6); [apply moves_length in MM; rewrite ES, app_length in MM; cbn in MM; lia|exact H|].
        exists ((ws ++ s) ++ g), s', cs'. split; [eapply moves_trans; eassumption|]. split; [|auto]. rewrite <- app_assoc. apply gap_label; [exact W| |exact A2].
        destruct A1 as (A1 & _). rewrite <- A1. split; [exact NM|]. split; assumption. }
    exact (G _ c (Nat.lt_succ_diag_r _)).
  - intros (g & s & cs & M & GP & M2 & TT & L & C). destruct t as [k tl tc]. cbn [kind t_line t_col] in *. subst tl tc.
    assert (F : is_blank (peek (rest cs)) = false) by (destruct M2 as (M2 & _); rewrite M2; exact (token_first _ _ _ TT)).
    remember (rest cs) as q eqn:EQ. revert c M. induction GP as [ws q W|ws w g q W LT GP IH]; intros c M.
    + rewrite tokenize_step, (tokenize1_at c ws cs M W), (token1_complete _ _ _ _ M2 TT) by (rewrite <- EQ; exact F). reflexivity.
    + destruct (moves_split _ _ _ _ M) as (c1 & M3 & M4). destruct (moves_split _ _ _ _ M4) as (c2 & M5 & M6).
      assert (FW : is_blank (peek (rest c1)) = false) by (destruct (name_first _ (proj1 LT)) as (ch & tl & EW & B & _); destruct M4 as (M4 & _); rewrite M4, EW; exact B).
      rewrite tokenize_step, (tokenize1_at c ws c1 M3 W FW), (label_complete c1 w c2 M5).
      * cbn [bind]. apply IH; try assumption.
      * replace (rest c2) with (g ++ q); [exact LT|]. destruct M6 as (M6 & _). rewrite M6, <- EQ. reflexivity.
Qed.
Lemma bad_first : forall l, bad_text l -> is_blank (peek l) = false.
Proof.
  intros l B. destruct B as [r N|s i neg r (b & p & x & -> & B & P & _) DN L E|l (sg & neg & ch & l' & -> & S & D) ND NI NF|r N|s n r D NE L E|r E N]; try reflexivity.
  - destruct B as [(-> & _)|(-> & _)]; [|reflexivity]. destruct P as [<-|[<-|[]]]; reflexivity.
  - destruct S; try reflexivity. apply decimal_in in D. apply decimal_facts in D. apply D.
Qed.
(** A gap is skipped. *)
Lemma gap_tokenize : forall g q c cs, gap g q -> moves c g cs -> rest cs = q -> is_blank (peek q) = false -> tokenize c = tokenize cs.
Proof.
  intros g q c cs GP. revert c. induction GP as [ws q W|ws w g q W LT GP IH]; intros c M R F.
  - rewrite (tokenize_step c), (tokenize_step cs), (tokenize1_at c ws cs M W) by (rewrite R; exact F). reflexivity.
  - destruct (moves_split _ _ _ _ M) as (c1 & M3 & M4). destruct (moves_split _ _ _ _ M4) as (c2 & M5 & M6).
    assert (FW : is_blank (peek (rest c1)) = false) by (destruct (name_first _ (proj1 LT)) as (ch & tl & EW & B & _); destruct M4 as (M4 & _); rewrite M4, EW; exact B).
    rewrite (tokenize_step c), (tokenize1_at c ws c1 M3 W FW), (label_complete c1 w c2 M5).
    + cbn [bind]. apply IH; assumption.
    + replace (rest c2) with (g ++ q); [exact LT|]. destruct M6 as (M6 & _). rewrite M6, R. reflexivity.
Qed.
Lemma tokenize_fails : forall c, (forall t c', tokenize c <> Ok (t, c')) -> exists g cs, moves c g cs /\ gap g (rest cs) /\ tokenize c = tokenize cs /\
  ((bad_text (rest cs) /\ exists m, tokenize c = Fatal (Diag (Some (line cs, col cs)) m)) \/
   (exists b neg p, rest cs = b ++ [p] /\ bang b neg /\ In p ["P"; "p"]) /\ tokenize c = Undef UB_read_past_nul).
Proof.
  assert (G : forall n c, (List.length (rest c) < n)%nat -> (forall t c', tokenize c <> Ok (t, c')) -> exists g cs, moves c g cs /\ gap g (rest cs) /\ tokenize c = tokenize cs /\
    ((bad_text (rest cs) /\ exists m, tokenize c = Fatal (Diag (Some (line cs, col cs)) m)) \/
     (exists b neg p, rest cs = b ++ [p] /\ bang b neg /\ In p ["P"; "p"]) /\ tokenize c = Undef UB_read_past_nul)).
  { induction n as [|n IH]; intros c0 L H; [lia|]. pose proof (tokenize_step c0) as TS. revert TS.
    destruct (tokenize1_cases c0) as [ws c1 M W E|ws cs s k c1 M W M2 LX|ws cs s c1 M W M2 (NM & CL & EN)|ws cs m M W NB B|ws cs b neg p M W R B P]; cbn [bind]; intros TS; try (exfalso; exact (H _ _ TS)).
    - destruct (name_first _ NM) as (ch & tl & ES & _). pose proof (moves_trans _ _ _ _ _ M M2) as MM. rewrite TS in H.
      destruct (IH c1) as (g & cs' & A1 & A2 & A3 & A4); [apply moves_length in MM; rewrite ES, app_length in MM; cbn in MM; lia|exact H|].
      exists ((ws ++ s) ++ g), cs'. split; [eapply moves_trans; eassumption|]. rewrite TS. split; [|auto]. rewrite <- app_assoc. apply gap_label; [exact W| |exact A2].
      destruct A1 as (A1 & _). rewrite <- A1. split; [exact NM|]. split; assumption.
    - exists ws, cs. split; [exact M|]. split; [constructor; exact W|]. split; [|left; split; [exact B|eexists; exact TS]].
      apply (gap_tokenize ws (rest cs)); [constructor; exact W|exact M|reflexivity|apply bad_first, B].
    - exists ws, cs. split; [exact M|]. split; [constructor; exact W|]. split; [|right; split; [exists b, neg, p; auto|exact TS]].
      apply (gap_tokenize ws (rest cs)); [constructor; exact W|exact M|reflexivity|]. rewrite R.
      destruct B as [(-> & _)|(-> & _)]; [|reflexivity]. destruct P as [<-|[<-|[]]]; reflexivity. }
  intros c. exact (G _ c (Nat.lt_succ_diag_r _)).
Qed.
(** Texts that are rejected, and where. *)
Theorem tokenize_fatal_iff : forall c, (exists d, tokenize c = Fatal d) <-> exists g cs, moves c g cs /\ gap g (rest cs) /\ bad_text (rest cs).
Proof.
  intros c. split.
  - intros (d & H). destruct (tokenize_fails c) as (g & cs & M & GP & _ & [(B & _)|(_ & E)]); [intros t c'; congruence|eauto|congruence].
  - intros (g & cs & M & GP & B). rewrite (gap_tokenize g (rest cs) c cs GP M eq_refl (bad_first _ B)), tokenize_step.
    destruct (bad_complete _ B) as (m & ->). eexists; reflexivity.
Qed.
Theorem tokenize_fatal_at : forall c d, tokenize c = Fatal d -> exists g cs, moves c g cs /\ gap g (rest cs) /\ bad_text (rest cs) /\ d_pos d = Some (line cs, col cs).
Proof.
  intros c d H. destruct (tokenize_fails c) as (g & cs & M & GP & _ & [(B & m & E)|(_ & E)]); [intros t c'; congruence| |congruence].
  exists g, cs. rewrite H in E. injection E as ->. auto.
Qed.
(** The only undefined behaviour: a lone 'P' at the very end. *)
Theorem tokenize_undef_iff : forall c u, tokenize c = Undef u <-> u = UB_read_past_nul /\
  exists g cs b neg p, moves c g cs /\ gap g (rest cs) /\ rest cs = b ++ [p] /\ bang b neg /\ In p ["P"; "p"].
Proof.
  intros c u. split.
  - intros H. destruct (tokenize_fails c) as (g & cs & M & GP & _ & [(B & m & E)|((b & neg & p & R & B & P) & E)]); [intros t c'; congruence|congruence|].
    split; [congruence|]. exists g, cs, b, neg, p. auto.
  - intros (-> & g & cs & b & neg & p & M & GP & R & B & P).
    rewrite (gap_tokenize g (rest cs) c cs GP M eq_refl).
    + rewrite tokenize_step, (lone_complete cs b neg p R B P). reflexivity.
    + rewrite R. destruct B as [(-> & _)|(-> & _)]; [|reflexivity]. destruct P as [<-|[<-|[]]]; reflexivity.
Qed.
(** What starts a token. *)
Definition token_start (q : text) : Prop := (exists s k r, q = s ++ r /\ token_text s k r) \/ bad_text q.
