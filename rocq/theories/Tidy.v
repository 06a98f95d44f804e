(** * Tidy: every token can be written; every program can be tidied up. *)
From Verif Require Import Base Float Lexer Operand Catalogue Table Parse Assemble Spec SpecOperand SpecInsn Bits LexFacts
  SchedFuel Param Reach ParseFacts Outcomes Decode Program Encode Operands Insn
  Position Literals SpecLex Lexemes Stream Cut Where Text SpecFloat Round Half Floats SpecProgram Language SpecLink Link SpecOpts SpecWritable SpecTidy.
From Coq Require Import Lia.
Local Open Scope char_scope.
Local Open Scope list_scope.
Open Scope Z_scope.

(** ** Digits *)

Lemma decimals_digit : forall d, 0 <= d < 10 -> digit 10 (nth (Z.to_nat d) decimals "0") d.
Proof.
  intros d D. split; [exact D|]. left.
  assert (C : d=0\/d=1\/d=2\/d=3\/d=4\/d=5\/d=6\/d=7\/d=8\/d=9) by lia. clear D.
  repeat destruct C as [C|C]; subst d; reflexivity.
Qed.
Lemma decimals_in : forall d, In (nth d decimals "0") decimals.
Proof. intros d. destruct (nth_in_or_default d decimals "0") as [I|E]; [exact I|rewrite E; left; reflexivity]. Qed.
Lemma figures_denotes : forall w v, 0 <= v -> denotes 10 (figures w v) (v mod 10 ^ Z.of_nat w).
Proof.
  induction w as [|w IH]; intros v V.
  - cbn [figures]. change (10 ^ Z.of_nat 0) with 1. rewrite Z.mod_1_r. constructor.
  - cbn [figures]. rewrite Nat2Z.inj_succ, Z.pow_succ_r by lia.
    assert (P : 0 < 10 ^ Z.of_nat w) by (apply Z.pow_pos_nonneg; lia).
    rewrite Z.rem_mul_r, Z.add_comm by lia. constructor; [apply IH; apply Z.div_pos; lia|]. apply decimals_digit, Z.mod_pos_bound. lia.
Qed.
Lemma figures_decimals : forall w v, Forall (fun ch => In ch decimals) (figures w v).
Proof.
  induction w as [|w IH]; intros v; [constructor|]. cbn [figures]. apply Forall_app. split; [apply IH|]. constructor; [apply decimals_in|constructor].
Qed.
Lemma figures_length : forall w v, List.length (figures w v) = w.
Proof. induction w as [|w IH]; intros v; [reflexivity|]. cbn [figures]. rewrite app_length, IH. cbn. lia. Qed.
Lemma trimmed_denotes : forall s t v, denotes 10 (s ++ t) v -> denotes 10 (trimmed s ++ t) v.
Proof.
  intros s t v D. apply denotes_iff in D as (F & ->); [|lia]. apply denotes_iff; [lia|]. induction s as [|ch s IH]; [split; [exact F|reflexivity]|].
  cbn [trimmed]. destruct (Ascii.eqb_spec ch "0") as [->|N]; [|split; [exact F|reflexivity]].
  cbn [app forallb] in F. apply andb_true_iff in F as (_ & F). destruct (IH F) as (A & B). split; [exact A|]. rewrite <- B. reflexivity.
Qed.
Lemma trimmed_start : forall s, ~ begins ["0"] (trimmed s).
Proof.
  induction s as [|ch s IH]; cbn [trimmed]; [intros (x & q & E & _); discriminate|].
  destruct (Ascii.eqb_spec ch "0") as [->|N]; [exact IH|]. intros (x & q & E & [I|[]]). congruence.
Qed.
Lemma trimmed_decimals : forall s, Forall (fun ch => In ch decimals) s -> Forall (fun ch => In ch decimals) (trimmed s).
Proof. intros s H. induction H as [|ch s I H IH]; [constructor|]. cbn [trimmed]. destruct (Ascii.eqb ch "0"); [exact IH|constructor; assumption]. Qed.
Lemma whole_nonempty : forall w v, whole w v <> [].
Proof. intros w v. unfold whole. destruct (trimmed _); discriminate. Qed.
Lemma whole_decimals : forall w v, Forall (fun ch => In ch decimals) (whole w v).
Proof.
  intros w v. unfold whole. pose proof (trimmed_decimals _ (figures_decimals w v)) as D. destruct (trimmed _); [|exact D].
  constructor; [left; reflexivity|constructor].
Qed.
Lemma whole_denotes : forall w v t x, denotes 10 (figures w v ++ t) x -> denotes 10 (whole w v ++ t) x.
Proof.
  intros w v t x D. apply trimmed_denotes in D. unfold whole. destruct (trimmed (figures w v)) as [|ch s]; [|exact D].
  apply denotes_iff in D as (F & ->); [|lia]. apply denotes_iff; [lia|]. cbn [app forallb] in *. rewrite F. split; reflexivity.
Qed.
Lemma whole_value : forall w v, 0 <= v < 10 ^ Z.of_nat w -> denotes 10 (whole w v) v.
Proof.
  intros w v V. rewrite <- (app_nil_r (whole w v)). apply whole_denotes. rewrite app_nil_r. rewrite <- (Z.mod_small v (10 ^ Z.of_nat w)) at 2 by exact V.
  apply figures_denotes. lia.
Qed.
Lemma whole_magnitude : forall w v, 0 <= v < 10 ^ Z.of_nat w -> magnitude (whole w v) v.
Proof.
  intros w v V. pose proof (whole_value w v V) as D. pose proof (trimmed_start (figures w v)) as N. unfold whole in *.
  destruct (trimmed (figures w v)) as [|ch s] eqn:E.
  - apply denotes_iff in D as (_ & ->); [|lia]. change (horner 10 0 ["0"]) with 0. apply (octal_number []). constructor.
  - apply decimal_number; [exact D|discriminate|exact N].
Qed.
(** Digits in two parts. *)
Lemma denotes_app : forall s t x y, denotes 10 s x -> denotes 10 t y -> denotes 10 (s ++ t) (x * 10 ^ Z.of_nat (List.length t) + y).
Proof.
  intros s t x y S T. induction T as [|t y ch d T IH D].
  - cbn [List.length]. change (10 ^ Z.of_nat 0) with 1. rewrite app_nil_r, Z.mul_1_r, Z.add_0_r. exact S.
  - rewrite app_assoc, app_length, Nat2Z.inj_add. cbn [List.length]. rewrite Z.pow_add_r by lia. change (10 ^ Z.of_nat 1) with 10.
    replace (x * (10 ^ Z.of_nat (List.length t) * 10) + (10 * y + d)) with (10 * (x * 10 ^ Z.of_nat (List.length t) + y) + d) by ring.
    constructor; assumption.
Qed.

(** ** Every token *)

Lemma sign_minus : forall neg, sign (sign_text neg) neg.
Proof. intros []; constructor. Qed.

Lemma single_spelled : forall f, (f < 2 ^ 32)%N -> (f mod 2 ^ 31 <= 255 * 2 ^ 23)%N ->
  single_of (N.testbit f 31) (scaled 24 (Z.of_N (f mod 2 ^ 31)) * 5 ^ 149) (10 ^ 149) f.
Proof.
  intros f F M. split.
  - assert (S : (f / 2 ^ 31 < 2)%N) by (apply N.div_lt_upper_bound; [discriminate|exact F]).
    rewrite N.testbit_eqb, N.mod_small by exact S. destruct (N.eqb_spec (f / 2 ^ 31) 1); lia.
  - set (m := (f mod 2 ^ 31)%N) in *.
    assert (A0 : forall k, apart 24 (-149) (scaled 24 (Z.of_N m) * 5 ^ 149) (10 ^ 149) k = Z.abs (scaled 24 (Z.of_N m) - scaled 24 k) * 10 ^ 149).
    { intros k. unfold apart. change (- -149) with 149. rewrite <- Z.mul_assoc, <- Z.pow_mul_l. change (5 * 2) with 10.
      rewrite <- Z.mul_sub_distr_r, Z.abs_mul. reflexivity. }
    split; [change inf32 with 2139095040; change (255 * 2 ^ 23)%N with 2139095040%N in M; lia|]. intros k' K NE. left. rewrite !A0, Z.sub_diag.
    assert (P : 0 < 10 ^ 149) by reflexivity. revert P. generalize (10 ^ 149). intros D P.
    assert (0 < Z.abs (scaled 24 (Z.of_N m) - scaled 24 k')); [|cbn [Z.abs]; nia].
    destruct (Z.lt_ge_cases k' (Z.of_N m)) as [C|C].
    + pose proof (scaled_lt 24 ltac:(lia) k' (Z.of_N m) ltac:(lia)). lia.
    + pose proof (scaled_lt 24 ltac:(lia) (Z.of_N m) k' ltac:(lia)). lia.
Qed.
Lemma fraction_spelled : forall f, (f mod 2 ^ 31 <= 255 * 2 ^ 23)%N ->
  fraction (spell (TFloat f)) (N.testbit f 31) (scaled 24 (Z.of_N (f mod 2 ^ 31)) * 5 ^ 149) 149.
Proof.
  intros f M. set (m := (f mod 2 ^ 31)%N) in *. cbn [spell]. fold m. cbv zeta. set (v := scaled 24 (Z.of_N m) * 5 ^ 149).
  assert (V : 0 <= v < 10 ^ 188).
  { assert (V0 : 0 <= scaled 24 (Z.of_N m)) by (rewrite <- (scaled_0 24 ltac:(lia)); apply (scaled_le 24); lia).
    assert (V1 : scaled 24 (Z.of_N m) <= scaled 24 (Z.of_N (255 * 2 ^ 23))) by (apply (scaled_le 24); lia).
    change (scaled 24 (Z.of_N (255 * 2 ^ 23))) with (2 ^ 277) in V1. unfold v. split; [apply Z.mul_nonneg_nonneg; [exact V0|discriminate]|].
    apply Z.le_lt_trans with (2 ^ 277 * 5 ^ 149); [apply Z.mul_le_mono_nonneg_r; [discriminate|exact V1]|reflexivity]. }
  exists (sign_text (N.testbit f 31)), (whole 39 (v / 10 ^ 149)), (figures 149 v). split; [reflexivity|]. split; [apply sign_minus|].
  split; [apply whole_nonempty|]. split; [|rewrite figures_length; reflexivity].
  assert (Q : 0 <= v / 10 ^ 149 < 10 ^ Z.of_nat 39).
  { split; [apply Z.div_pos; [lia|reflexivity]|]. apply Z.div_lt_upper_bound; [reflexivity|]. rewrite <- Z.pow_add_r by lia. exact (proj2 V). }
  replace v with ((v / 10 ^ 149) * 10 ^ Z.of_nat (List.length (figures 149 v)) + v mod 10 ^ 149) at 3.
  - apply denotes_app; [apply whole_value, Q|]. apply (figures_denotes 149). apply V.
  - rewrite figures_length. change (Z.of_nat 149) with 149. rewrite Z.mul_comm. symmetry. apply Z.div_mod. discriminate.
Qed.

Lemma blanks_separators : forall ch, In ch blanks -> In ch separators.
Proof. intros ch I. unfold separators. apply in_or_app. left. exact I. Qed.
Lemma apart_ends : forall q, apart_from q -> ends q.
Proof. intros q [->|(ch & q' & -> & I)]; [left; reflexivity|]. right. exists ch, q'. split; [reflexivity|apply blanks_separators, I]. Qed.
Lemma apart_begins : forall set q, apart_from q -> (forall ch, In ch blanks -> ~ In ch set) -> ~ begins set q.
Proof. intros set q [->|(ch & q' & -> & I)] H (x & r & E & J); [discriminate|]. injection E as -> ->. exact (H _ I J). Qed.
Ltac fin_in := repeat match goal with H : In _ (_ :: _) |- _ => destruct H as [H|H]; [subst|] | H : In _ [] |- _ => contradiction | H : _ \/ _ |- _ => destruct H as [H|H]; [subst|] | H : False |- _ => contradiction end.
Lemma apart_number : forall q, apart_from q -> number_ends q.
Proof.
  intros q A. split; [apply apart_ends, A|]. apply apart_begins; [exact A|]. intros ch I J. cbn in I, J. fin_in; discriminate.
Qed.

Theorem spelled : forall k q, possible k -> apart_from q -> lexeme (spell k) k q.
Proof.
  intros k q P A. pose proof (apart_ends q A) as E. destruct k as [|w|r|i neg|z|f| | | | | | | | |].
  10-15: apply lexeme_operator; [cbn; tauto|intros [I|[I|[]]]; discriminate].
  9: apply lexeme_operator; [cbn; tauto|intros [I|[I|[]]]; discriminate].
  - destruct P.
  - destruct P as (N & C). cbn [spell]. apply lexeme_name; assumption.
  - cbn [possible spell] in *. destruct (N.eqb_spec r 255) as [->|NE]; [apply lexeme_zero; exact E|].
    replace (TReg r) with (TReg (Z.to_N (Z.of_N r))) by (rewrite N2Z.id; reflexivity).
    apply lexeme_register; [|apply whole_nonempty|lia|exact E]. apply whole_value. change (10 ^ Z.of_nat 3) with 1000. lia.
  - cbn [possible spell] in *. apply lexeme_predicate; [| |exact E].
    + exists (if neg then ["!"] else []), "P", (if (i =? 7)%N then "T" else nth (N.to_nat i) decimals "0"). split; [reflexivity|].
      split; [destruct neg; [right|left]; split; reflexivity|]. split; [left; reflexivity|].
      destruct (N.eqb_spec i 7) as [->|NE]; [right; split; [left; reflexivity|reflexivity]|]. left. exists (Z.of_N i). rewrite N2Z.id. split; [|reflexivity].
      replace (N.to_nat i) with (Z.to_nat (Z.of_N i)) by lia. apply decimals_digit. lia.
    + destruct (N.eqb_spec i 7) as [->|NE]; [right|left; lia]. intros (s & d & X & I).
      assert (d = "T") as ->.
      { change ((if neg then ["!"] else []) ++ ["P"; "T"]) with ((if neg then ["!"] else []) ++ ["P"] ++ ["T"]) in X. rewrite app_assoc in X. apply app_inj_tail in X as (_ & <-). reflexivity. }
      cbn in I. fin_in; discriminate.
  - cbn [possible spell] in *. replace (TImm z) with (TImm (saturate z)).
    2: { f_equal. unfold saturate. lia. }
    apply lexeme_integer; [|apply apart_number, A]. exists (sign_text (z <? 0)), (z <? 0), (whole 19 (Z.abs z)), (Z.abs z).
    split; [reflexivity|]. split; [apply sign_minus|].
    split; [apply whole_magnitude; change (10 ^ Z.of_nat 19) with 10000000000000000000; lia|]. unfold signed. destruct (Z.ltb_spec z 0); lia.
  - destruct P as (F & M). replace (TFloat f) with (TFloat (f32_of_ratio (N.testbit f 31) (scaled 24 (Z.of_N (f mod 2 ^ 31)) * 5 ^ 149) (10 ^ 149))) at 2.
    + apply lexeme_float; [apply fraction_spelled; assumption|exact E].
    + f_equal. eapply single_unique; [|apply single_rounding|apply single_spelled; assumption]; try reflexivity.
      apply Z.mul_nonneg_nonneg; [|discriminate]. rewrite <- (scaled_0 24 ltac:(lia)). apply (scaled_le 24); lia.
  - apply lexeme_operator; [cbn; tauto|]. intros _. apply apart_begins; [exact A|]. intros ch I J. cbn in I, J. fin_in; discriminate.
  - apply lexeme_operator; [cbn; tauto|]. intros _. apply apart_begins; [exact A|]. intros ch I J. cbn in I, J. fin_in; discriminate.
Qed.
Theorem lexeme_possible : forall s k q, lexeme s k q -> possible k.
Proof.
  intros s k q L. destruct L as [ch k q I C|s i neg q P D E|s v q I E|s neg v k q F E|q E|s n q D NE LE E|q E NN|w q N C E].
  - cbn in I. fin_in; match goal with H : (_, _) = _ |- _ => injection H as <- <- end; exact I.
  - cbn [possible]. destruct D as [D|D]; [lia|]. destruct P as (b & p & x & -> & _ & _ & [(d & X & ->)|(_ & ->)]); [|lia].
    destruct D. exists (b ++ [p]), x. split; [rewrite <- app_assoc; reflexivity|]. destruct X as (R & X).
    assert (Y : d=0\/d=1\/d=2\/d=3\/d=4\/d=5\/d=6\/d=7\/d=8\/d=9) by lia. clear R. 
    repeat destruct Y as [Y|Y]; subst d; cbn in X; destruct X as [X|X]; injection X as <-; cbn; tauto.
  - cbn [possible]. unfold saturate. lia.
  - cbn [possible]. destruct F as (sg & ip & fp & _ & _ & _ & D & ->). destruct (single_lt32 neg v (10 ^ Z.of_nat (List.length fp)) (f32_of_ratio neg v (10 ^ Z.of_nat (List.length fp)))) as (A & B & _); [|auto].
    apply single_rounding; [|apply Z.pow_pos_nonneg; lia]. exact (denotes_nonneg 10 _ _ ltac:(lia) D).
  - cbn. lia.
  - cbn [possible]. pose proof (denotes_nonneg 10 _ _ ltac:(lia) D). lia.
  - cbn. lia.
  - cbn [possible]. auto.
Qed.

(** ** Words of a program *)

(** Words that may occur in an operand, besides the names of labels. *)
Definition operand_word (o : opnd) (s : text) : Prop := In s (map lit (words_of o)) \/ s = lit ".reuse" \/ s = lit "." \/ s = [].
Fixpoint no_name_type (o : opnd) : bool := match o with OOptType ty _ => negb (ttype_eqb ty ty_ident) | OAbs _ o => no_name_type o | _ => true end.


Lemma entry_dot : forall tbl k i s, entry tbl "." k i -> TIdent s = k -> In s (map lit (dot tbl)).
Proof.
  intros tbl k i s (x & NE & -> & _) E. injection E as ->. apply nth_error_In in NE. unfold dot. rewrite map_map.
  apply in_map_iff. exists x. split; [apply lit_append|exact NE].
Qed.
Lemma entry_prefix : forall p tbl k i s, entry tbl p k i -> TIdent s = k -> In s (map lit (nonempty (map (fun x => p ++ x)%string tbl))) \/ s = [].
Proof.
  intros p tbl k i s (x & NE & -> & _) E. injection E as ->. apply nth_error_In in NE. rewrite <- lit_append.
  destruct (String.eqb_spec (p ++ x)%string "") as [Z0|Z0]; [right; rewrite Z0; reflexivity|]. left. apply in_map. unfold nonempty. apply filter_In.
  split; [apply in_map_iff; eauto|]. apply negb_true_iff, String.eqb_neq. exact Z0.
Qed.
Lemma in_fst : forall (l : list (string * N)) s v, In (s, v) l -> In (lit s) (map lit (map fst l)).
Proof. intros l s v I. apply in_map. apply in_map_iff. exists (s, v). auto. Qed.
Lemma id_inj : forall x u, id x = TIdent u -> u = lit x.
Proof. intros x u E. unfold id in E. congruence. Qed.
Ltac in_tok := repeat match goal with
  | H : In _ (_ ++ _) |- _ => apply in_app_or in H as [H|H]
  | H : In (TIdent _) (?k :: _) |- _ => destruct H as [H|H]
  | H : In _ [] |- _ => contradiction
  | H : id _ = TIdent _ |- _ => apply id_inj in H; subst
  | H : TIdent _ = TIdent _ |- _ => injection H as <-
  | H : _ = TIdent _ |- _ => discriminate H
  end.
Lemma register_words : forall a ks nx n r s, register a ks nx n r -> In (TIdent s) ks -> s = lit ".reuse".
Proof. intros a ks nx n r s [(-> & _)|(-> & _)] I; in_tok; reflexivity. Qed.
Lemma memory_words : forall imm a z sh ks b r s, memory imm a z sh ks b r -> In (TIdent s) ks -> s = lit ".reuse".
Proof.
  intros imm a z sh ks b r s (kr & ki & n & o & -> & R & I & _) J.
  destruct R as [(-> & _)|[(-> & _)|(-> & _)]]; destruct I as [(-> & _)|(_ & -> & _)]; cbn [app] in J; in_tok; reflexivity.
Qed.
Lemma signed_words : forall n ks neg s, signed_name n ks neg -> In (TIdent s) ks -> s = lit n.
Proof. intros n ks neg s [(-> & _)|[(-> & _)|(-> & _)]] I; in_tok; reflexivity. Qed.

Lemma spells_words : forall lab pc o w ks nx b r, spells lab pc o w ks nx b r -> no_name_type o = true -> forall u, In (TIdent u) ks ->
  operand_word o u \/ lab u <> None.
Proof.
  intros lab pc. induction o as [ | | | | | | | | | | | | | | | | | | | | |a o IH| | | | | | | | | | | | | | | | | | | | | | ]; intros w ks nx b r H T u I; unfold operand_word; cbn [spells words_of] in H |- *.
  all: try (destruct H as (-> & _); in_tok; cbn; tauto).
  all: try (destruct H as (_ & [(-> & _)|(-> & _)]); in_tok; cbn; tauto).
  all: try (destruct H as (z & -> & _); in_tok; fail).
  all: try (destruct H as (n & H & _); left; right; left; eapply register_words; eassumption).
  - (* dot table *) destruct H as (_ & [(k & i & -> & E & _)|(i & -> & _)]); in_tok. left. left. eapply entry_dot; eauto.
  - (* table *) destruct H as (k & i & -> & E & _). in_tok. destruct (entry_prefix _ _ _ _ u E (eq_sym I)) as [X|X]; tauto.
  - (* optional text *) destruct H as (_ & _ & [-> | (-> & _)]); in_tok; cbn; tauto.
  - (* label *) destruct H as (target & [(name & -> & L)| ->] & _); in_tok. right. congruence.
  - (* cbuf *) destruct H as (bk & of & -> & _). in_tok. cbn. tauto.
  - (* float *) destruct H as (f & [-> | [(z & -> & _)|[(neg & S & _)|(neg & S & _)]]] & _); in_tok; pose proof (signed_words _ _ _ _ S I) as ->; cbn; tauto.
  - (* double *) destruct H as (m & neg & [(f & -> & _)|[(z & -> & _)|[(S & _)|(S & _)]]] & _); in_tok; pose proof (signed_words _ _ _ _ S I) as ->; cbn; tauto.
  - (* half *) destruct H as (h & neg & sp & [(f & -> & _)|[(z & -> & _)|[(S & _)|(S & _)]]] & _); in_tok; pose proof (signed_words _ _ _ _ S I) as ->; cbn; tauto.
  - (* predicate *) destruct H as (i & neg & -> & _). in_tok.
  - (* type *) destruct H as (_ & [(k & -> & E & _)|(-> & _)]); in_tok. cbn [no_name_type] in T. rewrite <- E in T. rewrite I in T. discriminate.
  - (* abs *) destruct H as [(ks' & b' & -> & S & _)|(_ & S)].
    + in_tok. exact (IH _ _ _ _ _ S T u I).
    + exact (IH _ _ _ _ _ S T u I).
  - (* memory *) left. right. left. eapply memory_words; eassumption.
  - (* cc *) destruct H as (_ & [(k & i & -> & E & _)|(-> & _)]); in_tok; [cbn; tauto|]. left. left. right. eapply entry_dot; eauto.
  - (* attribute *) destruct H as (z & -> & _). in_tok. cbn. tauto.
  - (* patch attr *) destruct H as (kr & kp & z & n & -> & R & P & _). destruct P as [-> | ->]; in_tok; try (cbn; tauto); left; right; left; eapply register_words; eassumption.
  - (* phys *) destruct H as (kr & n & -> & R & _). in_tok; try (cbn; tauto); left; right; left; eapply register_words; eassumption.
  - (* xmad *) destruct H as (_ & [(s1 & s2 & -> & _)|(-> & _)]); in_tok; [destruct s1|destruct s2]; cbn; tauto.
  - (* f2f *) destruct H as (_ & [(x & v & X & -> & _)|(-> & _)]); in_tok. left. left. rewrite map_app, in_app_iff. destruct (N.eqb _ _); [left|right]; eapply in_fst; eassumption.
  - (* int format *) destruct H as (k & i & -> & _ & [(E & _)|(_ & E & _)]); in_tok; left; left; rewrite map_app, in_app_iff; [left|right]; eapply entry_dot; eauto.
  - (* ldc *) destruct H as (bk & km & b' & -> & _ & M & _). in_tok; try (cbn; tauto). left. right. left. eapply memory_words; eassumption.
  - (* s2r *) destruct H as (_ & [(x & v & X & -> & _)|[(-> & _)|[(x & v & X & -> & _)|(k & i & -> & _ & _ & E & _)]]]).
    + in_tok; [cbn; tauto|]. cbn in X. destruct X as [X|[X|[X|[]]]]; injection X as <- <-; cbn; tauto.
    + in_tok; cbn; tauto.
    + in_tok; [cbn; tauto|]. cbn in X. destruct X as [X|[X|[X|[]]]]; injection X as <- <-; cbn; tauto.
    + in_tok. destruct (entry_prefix _ _ _ _ u E (eq_sym I)) as [X|X]; [|tauto]. left. left. rewrite map_app. apply in_or_app. right. 
      replace (map (fun x : string => ("" ++ x)%string) tbl) with tbl in X; [exact X|]. clear. induction tbl as [|a l IH]; [reflexivity|]. cbn [map]. rewrite <- IH. reflexivity.
  - (* ldg *) destruct H as (_ & [(x & v & X & -> & _)|[(-> & _)|(-> & _)]]); in_tok; [|cbn; tauto|cbn; tauto]. left. left. right. eapply in_fst; eassumption.
  - (* selector *) destruct H as (_ & [(k & i & -> & E & _)|(-> & _)]); in_tok. left. left. rewrite map_app, in_app_iff. destruct (N.eqb _ _); [left|right]; eapply entry_dot; eauto.
  - (* atomic *) destruct H as (_ & [(x & v & X & -> & _)|[(-> & _)|[(-> & _)|(-> & _)]]]); in_tok; try (cbn; tauto).
    cbn in X. fin_in; injection X as <- <-; cbn; tauto.
  - (* src format *) destruct H as (_ & [(k & i & -> & E & _)|[(k & i & -> & _ & E & _)|(-> & _)]]); in_tok; pose proof (entry_dot _ _ _ u E (eq_sym I)) as X;
      cbn in X; fin_in; cbn; tauto.
  - (* tex type *) destruct H as (x & v & X & -> & _). in_tok. left. left. eapply in_fst; eassumption.
  - (* texs mode *) destruct H as (kl & kd & lod & dc & -> & _ & _ & L & D). destruct L as [(-> & _)|[(-> & _)|(-> & _)]], D as [(-> & _)|(-> & _)]; in_tok; cbn; tauto.
  - (* tlds *) destruct H as (x & c & X & -> & _). in_tok. cbn in X. fin_in; injection X as <- _ _ _ _; cbn; tauto.
  - (* texs *) destruct H as (x & c & X & -> & _). in_tok. cbn in X. fin_in; injection X as <- _ _ _; cbn; tauto.
  - (* swizzle *) destruct H as (x & v & X & -> & _). in_tok. left. left. rewrite map_app, in_app_iff. destruct (N.eqb _ _); [left|right]; eapply in_fst; eassumption.
Qed.

(** ** Words of accepted programs *)

Lemma table_no_name_type : forallb (fun i => forallb no_name_type (i_operands i)) table = true.
Proof. vm_compute. reflexivity. Qed.
Lemma spell_list_words : forall lab pc nx ops w ks w' r, spell_list lab pc nx ops w ks w' r -> forallb no_name_type ops = true ->
  forall u, In (TIdent u) ks -> (exists o, In o ops /\ operand_word o u) \/ lab u <> None.
Proof.
  intros lab pc nx ops w ks w' r H. induction H as [w|o ops w ks1 ks2 b r1 r2 w' S H IH]; intros T u I; [contradiction|].
  cbn [forallb] in T. apply andb_true_iff in T as (T1 & T2). apply in_app_or in I as [I|I].
  - destruct (spells_words _ _ _ _ _ _ _ _ S T1 u I) as [X|X]; [left; exists o; split; [left; reflexivity|exact X]|right; exact X].
  - destruct (IH T2 u I) as [(o' & O & X)|X]; [left; exists o'; split; [right; exact O|exact X]|right; exact X].
Qed.
Lemma notes_words : forall l ks, notes_tokens l ks -> forall u, In (TIdent u) ks -> In u (map lit ["WAIT"; "WB"; "RB"; "DEP"; "Y"; "YIELD"]%string).
Proof.
  intros l ks H. induction H as [|x l k ks N H IH]; intros u I; [contradiction|]. apply in_app_or in I as [I|I]; [|exact (IH u I)].
  destruct x; cbn [note_tokens] in N; try (subst k; in_tok; cbn; tauto). destruct N as [-> | ->]; in_tok; cbn; tauto.
Qed.
(** A word of the vocabulary, a label or an option nobody knows. *)
Definition known_word (lab : text -> option Z) (u : text) : Prop :=
  In u (map lit vocabulary) \/ lab u <> None \/ exists n, u = "." :: n /\ ~ In u (map lit known_options).
Lemma vocabulary_end : forall s, In s ([".reuse"; "."; "WAIT"; "WB"; "RB"; "DEP"; "Y"; "YIELD"; ".type"; ".dksh"; ".workgroup_size"; ".shared_memory"; ".local_memory"]%string ++ map fst type_names) ->
  In (lit s) (map lit vocabulary).
Proof. intros s I. apply in_map. unfold vocabulary. apply in_or_app. right. exact I. Qed.
Lemma vocabulary_operand : forall i o s, In i table -> In o (i_operands i) -> In s (map lit (words_of o)) -> In s (map lit vocabulary).
Proof.
  intros i o s I O W. apply in_map_iff in W as (x & <- & W). apply in_map. unfold vocabulary. apply in_or_app. left. apply in_flat_map. exists i.
  split; [exact I|]. right. apply in_flat_map. exists o. auto.
Qed.
Lemma vocabulary_mnemonic : forall i, In i table -> In (lit (i_mnemonic i)) (map lit vocabulary).
Proof.
  intros i I. apply in_map. unfold vocabulary. apply in_or_app. left. apply in_flat_map. exists i. split; [exact I|left; reflexivity].
Qed.
Lemma sentence_words : forall lab n ts ss ops, sentence lab n ts ss ops -> forall u, In (TIdent u) (map fst ts) -> u <> [] -> known_word lab u.
Proof.
  intros lab n ts ss ops S. induction S as [n|n s t us v ts ss ops W O N S IH|n pre i post gi gn kg kf us ts ss op ops T G F P M S IH]; intros u I NE.
  - contradiction.
  - rewrite app_comm_cons, map_app in I. apply in_app_or in I as [I|I]; [|exact (IH u I NE)]. clear - W I.
    remember (map fst (t :: us)) as ks eqn:E. clear E. unfold known_word. destruct W; in_tok.
    + left. apply vocabulary_end. apply in_or_app. left. do 8 right. left. reflexivity.
    + left. apply vocabulary_end. apply in_or_app. right. apply in_map_iff. eexists (_, _). split; [reflexivity|eassumption].
    + left. apply vocabulary_end. apply in_or_app. left. do 9 right. left. reflexivity.
    + left. apply vocabulary_end. apply in_or_app. right. apply in_map_iff. eexists (_, _). split; [reflexivity|eassumption].
    + left. apply vocabulary_end. apply in_or_app. left. do 10 right. left. reflexivity.
    + left. apply vocabulary_end. apply in_or_app. left. do 11 right. left. reflexivity.
    + left. apply vocabulary_end. apply in_or_app. left. do 12 right. left. reflexivity.
    + right. right. exists name. split; [reflexivity|assumption].
  - rewrite map_app in I. apply in_app_or in I as [I|I]; [|exact (IH u I NE)]. rewrite M in I. clear - T G F I NE.
    assert (IT : In i table) by (rewrite T; apply in_or_app; right; left; reflexivity). unfold known_word.
    apply in_app_or in I as [I|[I|I]].
    + destruct G as [(-> & _)| ->]; in_tok.
    + left. unfold id in I. injection I as <-. apply vocabulary_mnemonic, IT.
    + destruct F as (ko & kn & notes & w & r & -> & _ & SL & NT & _). apply in_app_or in I as [I|I].
      * pose proof (forallb_in _ _ _ _ table_no_name_type IT) as X. cbv beta in X.
        destruct (spell_list_words _ _ _ _ _ _ _ _ SL X u I) as [(o & O & [Y|[-> | [-> | ->]]])|Y].
        -- left. eapply vocabulary_operand; eassumption.
        -- left. apply vocabulary_end. left. reflexivity.
        -- left. apply vocabulary_end. right. left. reflexivity.
        -- contradiction.
        -- right. left. exact Y.
      * apply in_app_or in I as [I|I]; [|in_tok]. left. pose proof (notes_words _ _ NT u I) as X. apply in_map_iff in X as (x & <- & X). apply vocabulary_end.
        cbn in X |- *. tauto.
Qed.
Lemma lexes_possible : forall q n ts, lexes q n ts -> Forall possible (map fst ts).
Proof. intros q n ts H. induction H as [|g s k q n ts G L H IH]; [constructor|]. cbn [map fst]. constructor; [eapply lexeme_possible, L|exact IH]. Qed.
Lemma possible_nonempty : forall u, possible (TIdent u) -> u <> [].
Proof. intros u (N & _) ->. destruct N as [(h & t & E & _)|(b & neg & p & x & t & E & _)]; [discriminate|]. destruct b; discriminate. Qed.
Theorem words_known : forall a code w ts u, ~ In NUL code -> assemble a code = Ok w -> lexes code 0 ts -> In (TIdent u) (map fst ts) ->
  In u (map lit vocabulary) \/ defined code u \/ exists n, u = "." :: n /\ ~ In u (map lit known_options).
Proof.
  intros a code w ts u N A L I. destruct (accepted_means _ _ _ N A) as (ts0 & lab & ss & ops & LX & LB & S & _).
  rewrite (lexes_same _ _ _ _ L LX) in S.
  assert (NE : u <> []). { apply possible_nonempty. pose proof (lexes_possible _ _ _ L) as F. rewrite Forall_forall in F. exact (F _ I). }
  destruct (sentence_words _ _ _ _ _ S u I NE) as [X|[X|X]]; [left; exact X| |right; right; exact X].
  right. left. destruct (lab u) as [z|] eqn:E; [|contradiction]. apply LB in E as (p & (D & _) & _). exists p. exact D.
Qed.
