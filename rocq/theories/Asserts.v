(** * Asserts: texts on which the build with asserts does what the build
    without them does. *)
From Verif Require Import Base Float Lexer Operand Catalogue Table Parse Assemble Spec LexFacts SchedFuel Param Reach ParseFacts
  Outcomes Decode Program Modes Footprint Encode Emit Layout SpecOperand SpecInsn SpecOpts SpecSafe SpecAsserts Operands Insn Position Literals
  SpecLex Lexemes Quiet Clash Stream Cut Where Opts Text Compose Safe SpecProgram Language SpecEdit Edit.
From Coq Require Import Lia.
Local Open Scope string_scope.
Local Open Scope list_scope.
Open Scope Z_scope.

(** ** One operand whose first token is not one of some *)

Fixpoint among (k : tkind) (l : list tkind) : bool :=
  match l with
  | [] => false
  | x :: l' =>
      match x, k with
      | TMinus, TMinus => true
      | TIdent a, TIdent b => if text_eqb a b then true else among k l'
      | TImm a, TImm b => if Z.eqb a b then true else among k l'
      | _, _ => among k l'
      end
  end.
Lemma among_in : forall k l, among k l = true -> In k l.
Proof.
  intros k l. induction l as [|x l IH]; intros H; [discriminate|]. cbn [among] in H.
  destruct x, k; try (right; apply IH; exact H); try (left; reflexivity).
  - destruct (text_eqb s s0) eqn:E; [left; apply text_eqb_eq in E; congruence|right; auto].
  - destruct (Z.eqb_spec z z0); [left; congruence|right; auto].
Qed.

(** The bits of the numbers of the words of [tbl] that are not in [l]. *)
Fixpoint numbers (l : list tkind) (i : N) (tbl : list string) : N :=
  match tbl with
  | [] => 0
  | w :: tbl => if among (id (String "." w)) l then numbers l ((i + 1)) tbl else N.lor i (numbers l ((i + 1)) tbl)
  end.
(** The bits operand [o] can set when its first token is not in [l]. *)
Definition slim (l : list tkind) (o : opnd) : N :=
  match o with
  | OFlag w a => if among (id w) l then 0 else mask o
  | ODotTable None a tbl => if among (id ".") l then N.shiftl (numbers l 0 tbl) a else mask o
  | OOptType ty_minus a => if among TMinus l then 0 else mask o
  | OUimmExtended => if among (TImm (2 ^ 20)) l then N.lor (range 20 19) (range 56 1) else mask o
  | OSelector _ _ shorts a =>
      if among (id ".B2") l then if among (id ".B3") l then if Nat.leb (List.length shorts) 2 then range a 1 else mask o else mask o else mask o
  | _ => mask o
  end%N.

Lemma safe_both : forall A (P Q : A -> Prop) m, safe Q m -> ensures P m -> safe P m.
Proof. intros A P Q [] S E; cbn in *; auto. Qed.
Lemma inv_same : forall m rm s, kind_ok (s_kind s) -> (value (s_op s) < 2 ^ 64)%N -> inv m rm s s.
Proof. intros m rm s K V. constructor; auto. exists 0%N. rewrite N.lor_0_r. split; [reflexivity|apply sub_0]. Qed.

Section Slim.
  Variable e : env.
  Variable l : list tkind.

  Lemma full_runs : forall o s, lit_ok_deep o = true -> wraps_ok o = true -> parts_ok o = true -> kind_ok (s_kind s) ->
    (value (s_op s) < 2 ^ 64)%N -> N.land (value (s_op s)) (N.ldiff (mask o) (clears o)) = 0%N ->
    N.land (reuse (s_op s)) (reuse_mask o) = 0%N -> safe (inv (mask o) (reuse_mask o) s) (run_operand e o s).
  Proof.
    intros o s L W P K V D R. eapply safe_both.
    - eapply (operand_quiet e o L W (N.ldiff (mask o) (clears o)) (reuse_mask o)); [|apply sub_refl|apply sub_refl|exact P].
      constructor; assumption.
    - apply (operand_footprint e o L); [|apply sub_refl|apply sub_refl]. apply inv_same; assumption.
  Qed.

  Lemma uimm_runs : forall s, s_kind s <> TImm (2 ^ 20) -> kind_ok (s_kind s) -> (value (s_op s) < 2 ^ 64)%N ->
    N.land (value (s_op s)) (N.lor (range 20 19) (range 56 1)) = 0%N ->
    safe (inv (N.lor (range 20 19) (range 56 1)) 0 s) (run_uimm_extended e s).
  Proof.
    intros s NK K V D. set (m := N.lor (range 20 19) (range 56 1)) in *.
    assert (F : fr m 0 s) by (constructor; [exact K|exact D|apply N.land_0_r]).
    assert (S1 : sub (range 56 1) m) by (apply sub_lor_r, sub_refl).
    assert (S2 : sub (range 20 19) m) by (apply sub_lor_l, sub_refl).
    assert (S3 : sub (range 20 19) (N.ldiff m (range 56 1))) by (apply sub_disjoint; [exact S2|reflexivity]).
    assert (B : forall z, s_kind s = TImm z -> 0 <= z <= 2 ^ 20 -> (u64_of_Z z < 2 ^ 20)%N).
    { intros z E H. apply u64_small; [|discriminate]. change (2 ^ Z.of_N 20) with (2 ^ 20). destruct (Z.eq_dec z (2 ^ 20)); [congruence|lia]. }
    apply (safe_both _ _ (fun _ => True)); unfold run_uimm_extended.
    - eapply safe_bind; [apply safe_convert|]. intros v (z & E & H & ->). specialize (B z E H).
      eapply (safe_bind _ _ (fun x => (fst x < 2 ^ 19)%N /\ exists m', fr m' 0 (snd x) /\ sub (range 20 19) m')).
      + destruct (N.leb_spec 524288 (u64_of_Z z)).
        * eapply safe_bind; [eapply (safe_shl _ _ _ _ _ 1); [exact F|reflexivity|exact S1]|]. intros s1 F1. cbn.
          split; [change (2 ^ 20)%N with 1048576%N in B; lia|]. eauto.
        * cbn. split; [assumption|eauto].
      + intros (v, s1) (L & m' & F1 & SM). cbn [fst snd] in *.
        eapply safe_bind; [eapply (safe_shl _ _ _ _ _ 19); [exact F1|exact L|exact SM]|]. intros s2 F2. eapply safe_weak; [eapply safe_advance; exact F2|auto].
    - eapply en_bind; [apply en_convert|]. intros v (z & E & H & ->). specialize (B z E H).
      pose proof (inv_same m 0 s K V) as IV.
      eapply (en_bind _ _ (fun x => (fst x < 2 ^ 19)%N /\ inv m 0 s (snd x))).
      + destruct (N.leb_spec 524288 (u64_of_Z z)).
        * eapply en_bind; [eapply (en_shl _ _ _ _ _ _ 1); [exact IV|reflexivity|exact S1]|]. intros s1 F1. apply en_ok. cbn.
          split; [change (2 ^ 20)%N with 1048576%N in B; lia|exact F1].
        * apply en_ok. cbn. split; assumption.
      + intros (v, s1) (L & F1). cbn [fst snd] in *.
        eapply en_bind; [eapply (en_shl _ _ _ _ _ _ 19); [exact F1|exact L|exact S2]|]. intros s2 F2. apply en_advance; exact F2.
  Qed.

  Lemma find_low : forall tbl t, (List.length tbl <= 2)%nat \/ (tbl = ["B0"; "B1"; "B2"; "B3"] /\ kind t <> id ".B2" /\ kind t <> id ".B3") ->
    ensures (fun r => (value_or r 0 < 2 ^ 1)%N) (find_in_table true tbl "." t).
  Proof.
    intros tbl t H r E. change (2 ^ 1)%N with 2%N. destruct H as [H|(-> & H2 & H3)].
    - pose proof (en_find true tbl "." t r E) as X. destruct r as [i|]; [|reflexivity]. specialize (X i eq_refl). cbn [value_or]. lia.
    - unfold find_in_table in E. destruct (kind t) as [|w| | | | | | | | | | | | |]; try (injection E as <-; reflexivity).
      destruct w as [|ch w]; [injection E as <-; reflexivity|]. cbn [lit list_ascii_of_string strip_prefix] in E.
      destruct (Ascii.eqb_spec "." ch) as [<-|]; [|injection E as <-; reflexivity]. cbn [index_of] in E.
      destruct (text_eqb w (lit "B0")); [injection E as <-; reflexivity|].
      destruct (text_eqb w (lit "B1")); [injection E as <-; reflexivity|].
      destruct (text_eqb w (lit "B2")) eqn:B2; [apply text_eqb_eq in B2; subst w; destruct (H2 eq_refl)|].
      destruct (text_eqb w (lit "B3")) eqn:B3; [apply text_eqb_eq in B3; subst w; destruct (H3 eq_refl)|].
      injection E as <-. reflexivity.
  Qed.
  Lemma selector_runs : forall ta sh shorts a s, (List.length shorts <= 2)%nat -> s_kind s <> id ".B2" -> s_kind s <> id ".B3" ->
    kind_ok (s_kind s) -> (value (s_op s) < 2 ^ 64)%N -> N.land (value (s_op s)) (range a 1) = 0%N ->
    safe (inv (range a 1) 0 s) (run_selector e ta sh shorts a s).
  Proof.
    intros ta sh shorts a s L N2 N3 K V D. unfold run_selector. cbv zeta.
    assert (F : fr (range a 1) 0 s) by (constructor; [exact K|exact D|apply N.land_0_r]).
    pose proof (inv_same (range a 1) 0 s K V) as IV.
    eapply safe_bind; [eapply safe_both; [apply safe_find|apply find_low]|].
    { match goal with |- context [if ?b then _ else _] => destruct b end; [left; exact L|right; auto]. }
    intros r R. cbv beta in R.
    eapply (safe_bind _ _ (fun s1 => fr (range a 1) 0 s1 /\ inv (range a 1) 0 s s1)).
    - destruct r; [|cbn; auto]. eapply safe_both; [eapply safe_advance; exact F|].
      intros s1 H. split.
      + pose proof (safe_advance _ _ _ F) as X. rewrite H in X. exact X.
      + pose proof (en_advance (range a 1) 0 s s IV) as X. exact (X s1 H).
    - intros s1 (F1 & I1). eapply safe_both; [eapply (safe_shl _ _ _ _ _ 1); [exact F1|exact R|apply sub_refl]|].
      eapply (en_shl _ _ _ _ _ _ 1); [exact I1|exact R|apply sub_refl].
  Qed.

  Lemma numbers_sub : forall tbl w i j, index_of i tbl w = Some j -> among (TIdent ("."%char :: w)) l = false -> sub j (numbers l i tbl).
  Proof.
    induction tbl as [|x tbl IH]; intros w i j H A; cbn [index_of numbers] in *; [discriminate|].
    destruct (text_eqb w (lit x)) eqn:E.
    - injection H as <-. apply text_eqb_eq in E. subst w. change (id (String "." x)) with (TIdent ("."%char :: lit x)). rewrite A. apply sub_lor_l, sub_refl.
    - match goal with |- context [if ?b then _ else _] => destruct b end; [|apply sub_lor_r]; eapply IH; eassumption.
  Qed.
  Lemma dot_runs : forall a tbl s, ~ In (s_kind s) l -> kind_ok (s_kind s) -> (value (s_op s) < 2 ^ 64)%N ->
    N.land (value (s_op s)) (N.shiftl (numbers l 0 tbl) a) = 0%N ->
    safe (inv (N.shiftl (numbers l 0 tbl) a) 0 s) (dot_table e None a tbl s).
  Proof.
    intros a tbl s NI K V D. unfold dot_table. set (m := N.shiftl _ a) in *.
    assert (F : fr m 0 s) by (constructor; [exact K|exact D|apply N.land_0_r]).
    pose proof (inv_same m 0 s K V) as IV.
    eapply (safe_bind _ _ (fun r => forall i, r = Some i -> sub (shl64 i a) m)).
    { eapply safe_both; [apply safe_find|]. intros r H i ->. unfold find_in_table in H. unfold s_kind in NI.
      destruct (kind (s_tok s)) as [|w| | | | | | | | | | | | |]; try discriminate. destruct w as [|ch w]; [discriminate|].
      cbn [lit list_ascii_of_string strip_prefix] in H. destruct (Ascii.eqb_spec "." ch) as [<-|]; [|discriminate].
      destruct (index_of 0 tbl w) as [j|] eqn:E; [|discriminate]. injection H as <-.
      apply numbers_sub in E; [|destruct (among _ _) eqn:A; [apply among_in in A; contradiction|reflexivity]].
      rewrite sub_spec in *. intros k Hk. unfold shl64 in Hk. change two64 with (2 ^ 64)%N in Hk. unfold m.
      destruct (N.ltb_spec k 64); [|rewrite N.mod_pow2_bits_high in Hk by assumption; discriminate]. rewrite N.mod_pow2_bits_low in Hk by assumption.
      destruct (N.leb_spec a k); [|rewrite N.shiftl_spec_low in Hk by assumption; discriminate].
      rewrite N.shiftl_spec_high' in Hk |- * by assumption. auto. }
    intros [i|] R; [|exact I]. specialize (R i eq_refl).
    eapply (safe_bind _ _ (fun s1 => fr m 0 s1 /\ inv m 0 s s1)).
    - eapply safe_both; [eapply safe_advance; exact F|]. intros s1 H. split.
      + pose proof (safe_advance _ _ _ F) as X. rewrite H in X. exact X.
      + pose proof (en_advance m 0 s s IV) as X. exact (X s1 H).
    - intros s1 (F1 & I1). eapply safe_both; [eapply safe_put; [exact F1|exact R|apply sub_refl]|].
      apply en_put; [exact I1|exact R|apply shl64_lt].
  Qed.
  Lemma slim_runs : forall o s, lit_ok_deep o = true -> wraps_ok o = true -> parts_ok o = true -> ~ In (s_kind s) l -> kind_ok (s_kind s) ->
    (value (s_op s) < 2 ^ 64)%N -> N.land (value (s_op s)) (N.ldiff (slim l o) (clears o)) = 0%N ->
    N.land (reuse (s_op s)) (reuse_mask o) = 0%N -> safe (inv (slim l o) (reuse_mask o) s) (run_operand e o s).
  Proof.
    intros o s L W P N K V D R.
    assert (A : forall k, among k l = true -> s_kind s <> k) by (intros k A E; apply N; rewrite E; apply among_in, A).
    pose proof (inv_same 0 0 s K V) as IV.
    destruct o; try (apply full_runs; assumption); cbn [slim clears reuse_mask] in *.
    - match goal with |- context [among ?k l] => destruct (among k l) eqn:E end; [|apply full_runs; assumption]. apply A in E. cbn [run_operand]. unfold assemble_flag.
      destruct (equal _ _) eqn:Q; [apply equal_iff in Q; contradiction|exact IV].
    - destruct default; [apply full_runs; assumption|]. destruct (among (id ".") l); [|apply full_runs; assumption].
      rewrite N.ldiff_0_r in D. apply dot_runs; assumption.
    - destruct (among (TImm (2 ^ 20)) l) eqn:E; [|apply full_runs; assumption]. apply A in E. rewrite N.ldiff_0_r in D. apply uimm_runs; assumption.
    - destruct ty; try (apply full_runs; assumption). destruct (among TMinus l) eqn:E; [|apply full_runs; assumption]. apply A in E.
      cbn [run_operand]. unfold opt_type. destruct (s_kind s); try exact IV. contradiction.
    - destruct (among (id ".B2") l) eqn:E2; [|apply full_runs; assumption]. destruct (among (id ".B3") l) eqn:E3; [|apply full_runs; assumption].
      destruct (Nat.leb_spec (List.length shorts) 2) as [LE|]; [|apply full_runs; assumption]. apply A in E2, E3. rewrite N.ldiff_0_r in D.
      apply selector_runs; assumption.
  Qed.
End Slim.

(** ** One form *)

(** What must not come next: [always], and what follows a token already read. *)
Record ban := Ban { always : list tkind; after : list (tkind * list tkind) }.
Definition banned (b : ban) (seen : list tkind) : list tkind :=
  always b ++ flat_map (fun p => if among (fst p) seen then snd p else []) (after b).

(** Bits [u] of the word may be set before the operands [ops] run, and the
    tokens [seen] were read. *)
Fixpoint flows (b : ban) (seen : list tkind) (u ru : N) (ops : list opnd) : bool :=
  match ops with
  | [] => true
  | o :: ops' =>
      if parts_ok o && wraps_ok o && semi_free o then
        match o with
        | OPo a1 a2 => flows b seen u ru ops' && apart u (mask o) && flows b (id ".PO" :: seen) (N.lor u (mask o)) ru ops'
        | OReqText w bits _ => apart u bits && flows b (id w :: seen) (N.lor u bits) ru ops'
        | _ =>
            let s := slim (banned b seen) o in
            apart u (N.ldiff s (clears o)) && apart ru (reuse_mask o) && flows b seen (N.lor u s) (N.lor ru (reuse_mask o)) ops'
        end
      else false
  end.

Definition ban_of (m : string) : ban :=
  Ban (if String.eqb m "IADD3" then [TImm (2 ^ 20)] else if one_of m ["VMAD"; "VMNMX"; "VSETP"] then [id ".B2"; id ".B3"] ++ (if String.eqb m "VSETP" then [id "."] else []) else [])
      (if String.eqb m "IADD" then [(id ".PO", [TMinus; id ".NEG"])]
       else if one_of m ["IADD32I"; "ISCADD"; "VMAD"] then [(id ".PO", [TMinus])]
       else if String.eqb m "SUST" then [(id ".D", [id ".BA"])] else []).
Lemma table_flows : forallb (fun i => apart (i_opcode i) (range 16 4) && flows (ban_of (i_mnemonic i)) [] (N.lor (i_opcode i) (range 16 4)) 0 (i_operands i)) table = true.
Proof. vm_compute. reflexivity. Qed.

Section Form.
  Variable code : text.
  Variable m : string.
  Variable pre : list tkind.
  Variable cm : cursor.
  Hypothesis named_here : scan (start code) (pre ++ [id m]) cm.
  Hypothesis free : assert_free code.
  Variable e : env.

  (** The tokens of the instruction read so far, [seen] among them. *)
  Definition trailing (seen : list tkind) (s : st) : Prop :=
    exists ks, scan cm (ks ++ [s_kind s]) (s_cur s) /\ ~ In TSemi ks /\ incl seen ks.

  Lemma trailing_operand : forall seen o s s', semi_free o = true -> trailing seen s -> run_operand e o s = Ok s' -> trailing seen s'.
  Proof.
    intros seen o s s' SF (ks & SC & N & IN) H.
    pose (A0 := fun c1 c2 : cursor => c1 = c2 /\ exists ks, scan cm ks c1 /\ ~ In TSemi ks /\ incl seen ks).
    pose (AC := fun (c1 : cursor) (t1 : token) (c2 : cursor) (t2 : token) =>
      c1 = c2 /\ t1 = t2 /\ exists ks, scan cm (ks ++ [kind t1]) c1 /\ ~ In TSemi ks /\ incl seen ks).
    assert (X : relres anything false (RS AC) (run_operand e o s) (run_operand e o s)).
    { apply (sim_operand A0 AC anything false); auto.
      - intros c1 t1 c2 t2 (<- & <- & l & S1 & N1 & I1) NS. split; [reflexivity|]. exists (l ++ [kind t1]). split; [exact S1|]. split.
        + rewrite in_app_iff. intros [I|[I|[]]]; [exact (N1 I)|exact (NS I)].
        + apply incl_appl. exact I1.
      - intros c1 t1 c2 t2 (_ & <- & _). reflexivity.
      - exact (fun _ _ _ _ _ _ => Logic.I).
      - intros c1 c2 (<- & l & S1 & N1 & I1). pose proof (tokenize_outcomes c1) as O. destruct (tokenize c1) as [(t, c')| | | | |] eqn:T; cbn in *; auto; try exact I.
        split; [reflexivity|]. split; [reflexivity|]. exists l. cbn. split; [eapply scan_snoc; eauto|auto].
      - split; [left; exact SF|right; reflexivity].
      - split; [|reflexivity]. split; [reflexivity|]. split; [reflexivity|]. exists ks. auto. }
    rewrite H in X. destruct X as ((_ & _ & l & S1 & N1 & I1) & _). exists l. auto.
  Qed.
  Lemma trailing_read : forall seen s s1 s2, trailing seen s -> s_kind s <> TSemi -> s_cur s1 = s_cur s -> advance_tok s1 = Ok s2 ->
    trailing (s_kind s :: seen) s2.
  Proof.
    intros seen s s1 s2 (ks & SC & N & IN) NS E H. unfold advance_tok in H. inv_bind H. destruct x as (t, c). injection H as <-.
    exists (ks ++ [s_kind s]). unfold s_kind at 2. cbn [s_cur s_tok]. rewrite E in Hx. split; [eapply scan_snoc; eassumption|]. split.
    - rewrite in_app_iff. intros [I|[I|[]]]; [exact (N I)|exact (NS I)].
    - intros x [<-|I]; apply in_app_iff; [right; left; reflexivity|left; exact (IN x I)].
  Qed.

  Lemma ban_kept : forall seen s, trailing seen s -> ~ In (s_kind s) (banned (ban_of m) seen).
  Proof.
    intros seen s (ks & SC & N & IN) H.
    assert (IS : inside code m ks (s_kind s)) by (eapply (cm_inside code m pre cm named_here); eassumption).
    unfold banned in H. apply in_app_iff in H as [H|H].
    - cbn [always ban_of] in H. destruct (String.eqb_spec m "IADD3") as [EM|].
      + destruct H as [H|[]]. rewrite EM, <- H in IS. exact (free immediates ltac:(cbn; tauto) ks IS).
      + destruct (one_of m _) eqn:O; [|destruct H]. apply one_of_in in O. apply in_app_iff in H as [H|H].
        * assert (W : exists w, In w [".B2"; ".B3"] /\ s_kind s = id w) by (destruct H as [<-|[<-|[]]]; eexists; split; [| reflexivity| |reflexivity]; cbn; tauto).
          destruct W as (w & IW & EW). rewrite EW in IS. exact (free bytes ltac:(cbn; tauto) m ks w O IW IS).
        * destruct (String.eqb_spec m "VSETP") as [EM|]; [|destruct H]. destruct H as [H|[]]. rewrite EM, <- H in IS.
          exact (free comparisons ltac:(cbn; tauto) ks IS).
    - apply in_flat_map in H as ((t & l) & IT & H). cbn [fst snd] in H. destruct (among t seen) eqn:A; [|destruct H].
      apply among_in in A. apply IN in A. cbn [after ban_of] in IT.
      destruct (String.eqb_spec m "IADD") as [EM|].
      { destruct IT as [[= <- <-]|[]]. eapply (free sums ltac:(cbn; tauto) m); [|exact IS|exact A|exact H]. rewrite EM. cbn. tauto. }
      destruct (one_of m _) eqn:O.
      { apply one_of_in in O. destruct IT as [[= <- <-]|[]]. eapply (free sums ltac:(cbn; tauto) m); [|exact IS|exact A|exact H].
        destruct O as [<-|[<-|[<-|[]]]]; cbn; tauto. }
      destruct (String.eqb_spec m "SUST") as [EM|]; [|destruct IT]. destruct IT as [[= <- <-]|[]]. destruct H as [H|[]].
      rewrite EM, <- H in IS. exact (free stores ltac:(cbn; tauto) ks A IS).
  Qed.

  Lemma put_sub : forall b s s1 u, put e b s = Ok s1 -> sub (value (s_op s)) u -> sub (value (s_op s1)) (N.lor u b).
  Proof.
    intros b s s1 u H V. unfold put, add_bits in H. destruct (_ && _); [discriminate|]. cbn [bind] in H. injection H as <-. cbn [s_op value].
    apply sub_lor; [apply sub_lor_l; exact V|apply sub_lor_r, sub_refl].
  Qed.
  Lemma flows_silent : forall ops seen u ru n s k, forallb lit_ok_deep ops = true -> flows (ban_of m) seen u ru ops = true ->
    trailing seen s -> kind_ok (s_kind s) -> (value (s_op s) < 2 ^ 64)%N -> sub (value (s_op s)) u -> sub (reuse (s_op s)) ru ->
    (forall n s, silent (k n s)) -> silent (run_operands e ops n s k).
  Proof.
    induction ops as [|o ops IH]; intros seen u ru n s k L F TR T W V R K; cbn [run_operands]; [apply K|].
    cbn [forallb flows] in L, F. apply andb_true_iff in L as (L1 & L2).
    destruct (parts_ok o && wraps_ok o && semi_free o) eqn:G; [|discriminate]. apply andb_true_iff in G as (G & G3). apply andb_true_iff in G as (G1 & G2).
    (* the usual step *)
    assert (STD : forall sl seen', apart u (N.ldiff sl (clears o)) = true -> apart ru (reuse_mask o) = true ->
      (N.land (value (s_op s)) (N.ldiff sl (clears o)) = 0%N -> N.land (reuse (s_op s)) (reuse_mask o) = 0%N ->
        safe (inv sl (reuse_mask o) s) (run_operand e o s)) ->
      (forall s', run_operand e o s = Ok s' -> trailing seen' s') ->
      flows (ban_of m) seen' (N.lor u sl) (N.lor ru (reuse_mask o)) ops = true ->
      silent (scored n (run_operand e o s) (fun s => run_operands e ops (n + 1) s k))).
    { intros sl seen' F1 F2 SR TR' F3. apply apart_eq in F1, F2.
      assert (Q : safe (inv sl (reuse_mask o) s) (run_operand e o s)).
      { apply SR; [eapply sub_land; [exact V|apply sub_refl|exact F1]|eapply sub_land; [exact R|apply sub_refl|exact F2]]. }
      destruct (run_operand e o s) as [s'| | | | |] eqn:E; cbn [scored]; try (intros w; discriminate); [|destruct Q].
      destruct Q as [T' W' V' (r & R1 & R2) _].
      eapply IH; [exact L2|exact F3|apply TR'; reflexivity|exact T'|exact W'| | |exact K].
      - eapply sub_value; eassumption.
      - rewrite R1. apply sub_lor; [apply sub_lor_l; exact R|apply sub_lor_r; exact R2]. }
    assert (USUAL : (let sl := slim (banned (ban_of m) seen) o in
        apart u (N.ldiff sl (clears o)) && apart ru (reuse_mask o) && flows (ban_of m) seen (N.lor u sl) (N.lor ru (reuse_mask o)) ops) = true ->
      silent (scored n (run_operand e o s) (fun s => run_operands e ops (n + 1) s k))).
    { cbv zeta. intros X. apply andb_true_iff in X as (X & F3). apply andb_true_iff in X as (F1 & F2).
      eapply STD; [exact F1|exact F2| |intros s' E; eapply trailing_operand; eassumption|exact F3].
      intros D1 D2. apply slim_runs; auto. apply ban_kept, TR. }
    destruct o; try exact (USUAL F); clear USUAL.
    - apply andb_true_iff in F as (F1 & F2). cbn [mask clears reuse_mask] in *.
      eapply STD; [rewrite N.ldiff_0_r; exact F1|apply N.eqb_eq, N.land_0_r| | |rewrite N.lor_0_r; exact F2].
      + intros D1 D2. apply full_runs; assumption.
      + intros s' E. cbn [run_operand] in E. unfold req_text in E. destruct (equal (s_tok s) _) eqn:Q; [|discriminate]. cbn [negb] in E.
        apply equal_iff in Q. inv_bind E. apply put_place in Hx as (P1 & P2). change (kind (s_tok s)) with (s_kind s) in Q. rewrite <- Q.
        eapply trailing_read; [exact TR|rewrite Q; discriminate|exact P1|exact E].
    - apply andb_true_iff in F as (F & F3). apply andb_true_iff in F as (F1 & F2). cbn [mask clears reuse_mask] in *.
      destruct (equal (s_tok s) ".PO") eqn:Q.
      + eapply STD; [rewrite N.ldiff_0_r; exact F2|apply N.eqb_eq, N.land_0_r| | |rewrite N.lor_0_r; exact F3].
        * intros D1 D2. apply full_runs; assumption.
        * intros s' E. cbn [run_operand] in E. unfold run_po in E. rewrite Q in E. cbn [negb] in E.
          apply equal_iff in Q. inv_bind E. apply put_place in Hx as (P1 & P2). change (kind (s_tok s)) with (s_kind s) in Q. rewrite <- Q.
          eapply trailing_read; [exact TR|rewrite Q; discriminate|exact P1|exact E].
      + cbn [run_operand]. unfold run_po. rewrite Q. cbn [negb scored]. exact (IH seen u ru _ s k L2 F1 TR T W V R K).
  Qed.

  Theorem form_silent : forall i gi gn, In i table -> i_mnemonic i = m -> (gi <= 7)%N ->
    silent (parse_insn e i cm (Opcode (N.shiftl (guard_bits gi gn) 16) 0 0)).
  Proof.
    intros i gi gn Hi M Hg. pose proof (forallb_in _ _ _ _ table_flows Hi) as F. cbv beta in F. rewrite M in F.
    apply andb_true_iff in F as (F1 & F2). apply apart_eq in F1.
    assert (G : (guard_bits gi gn < 2 ^ 4)%N) by (apply guard_word; exact Hg).
    assert (SG : sub (N.shiftl (guard_bits gi gn) 16) (range 16 4)).
    { apply sub_spec. intros k K. rewrite range_spec. destruct (N.leb_spec 16 k).
      - rewrite N.shiftl_spec_high' in K by assumption. destruct (N.ltb_spec k (16 + 4)); [reflexivity|].
        rewrite (bits_small _ 4) in K; [discriminate|exact G|lia].
      - rewrite N.shiftl_spec_low in K by assumption. discriminate. }
    unfold parse_insn, add_bits. cbn [value].
    rewrite (sub_land _ _ (i_opcode i) (i_opcode i) SG (sub_refl _)) by (rewrite N.land_comm; exact F1).
    rewrite N.eqb_refl, andb_false_r. cbn [bind reuse sched].
    pose proof (tokenize_outcomes cm) as O.
    destruct (tokenize cm) as [(t, c1)| | | | |] eqn:E; cbn [bind]; try (intros w; discriminate); [|contradiction].
    destruct (_ && _); [intros w; discriminate|].
    eapply flows_silent; [exact (forallb_in _ _ _ _ table_lits Hi)|exact F2| |eapply token_kind_ok; exact E| | | |].
    - exists []. split; [econstructor; [exact E|constructor]|]. split; [intros []|intros x []].
    - cbn [value s_op]. apply lor_lt; [|apply N.ltb_lt; exact (forallb_in _ _ _ _ table_opcodes Hi)].
      rewrite N.shiftl_mul_pow2. change (2 ^ 16)%N with 65536%N. change (2 ^ 64)%N with 18446744073709551616%N.
      change (2 ^ 4)%N with 16%N in G. lia.
    - cbn [value s_op]. apply sub_lor; [apply sub_lor_r; exact SG|apply sub_lor_l; apply sub_refl].
    - apply sub_0.
    - intros n s. pose proof (sched_silent s) as SS.
      destruct (assemble_sched s); cbn [scored]; try (intros w; discriminate); [|intros w; exact (SS w)||(exfalso; eapply SS; reflexivity)].
      unfold confirm_type. destruct (ttype_eqb _ _); cbn; intros w; discriminate.
  Qed.
End Form.

(** ** The count of ';' *)

Lemma semis_none : forall s, ~ In ";"%char s -> semis s = O.
Proof.
  induction s as [|ch s IH]; intros H; [reflexivity|]. cbn [semis]. rewrite IH by (intros I; apply H; right; exact I).
  destruct (Ascii.eqb_spec ch ";") as [->|]; [destruct H; left; reflexivity|]. destruct (Ascii.eqb_spec ";" ch); [subst; destruct H; left; reflexivity|reflexivity].
Qed.
Lemma ends_read_front : forall p q, ends_read (p ++ q) -> ends_read p.
Proof. intros p q H a x b I E. apply (H a x (b ++ q) I). rewrite E, <- app_assoc. reflexivity. Qed.
(** No name goes on from [p] into [q]. *)
Definition joint (p q : text) : Prop := p = [] \/ (exists p' ch, p = p' ++ [ch] /\ ~ inner ch) \/ ends q.
Lemma ends_read_back : forall p q r, joint p (q ++ r) -> ends_read (p ++ q) -> ends_read q.
Proof.
  intros p q r J H a x b I E. destruct (H (p ++ a) x b I) as (a' & ch & EA & N & NB); [rewrite E, <- app_assoc; reflexivity|].
  destruct a as [|y a _] using rev_ind; [|rewrite app_assoc in EA; apply app_inj_tail in EA as (_ & <-); exists a, y; auto].
  exfalso. rewrite app_nil_r in EA. destruct J as [->|[(p' & c & -> & NI)|J]].
  - destruct a'; discriminate.
  - apply app_inj_tail in EA as (_ & <-). exact (NI N).
  - rewrite E in J. destruct J as [J|(c & q' & J & S0)]; [discriminate|]. injection J as <- _. cbn in S0, I. intuition (subst; discriminate).
Qed.
Lemma blanks_joint : forall ws q, Forall (fun ch => In ch blanks) ws -> joint ws q.
Proof.
  intros ws q F. destruct ws as [|c ws _] using rev_ind; [left; reflexivity|]. right. left. exists ws, c. split; [reflexivity|]. intros N. apply N.
  apply Forall_app in F as (_ & F). inversion F as [|? ? I _]; subst. apply in_app_iff. left. exact I.
Qed.
Lemma gap_joint : forall g q, gap g q -> joint g q.
Proof.
  intros g q G. induction G as [ws q F|ws w g q F (_ & _ & E) G IH]; [apply blanks_joint, F|]. destruct g as [|c g _] using rev_ind; [right; right; exact E|].
  destruct IH as [X|[(p' & d & X & N)|X]]; [destruct g; discriminate| |right; right; exact X]. right. left. exists (ws ++ w ++ p'), d. rewrite X, <- !app_assoc. auto.
Qed.
Lemma lexeme_joint : forall s k q, lexeme s k q -> joint s q.
Proof.
  intros s k q L. destruct L; try (right; right; assumption).
  - right. left. exists [], ch. split; [reflexivity|]. intros N. apply N. unfold separators. rewrite !in_app_iff. right. left. apply in_map_iff. exists (ch, k). auto.
  - right. right. apply H0.
Qed.
Lemma ends_read_token : forall g s k q, gap g (s ++ q) -> lexeme s k q -> ends_read (g ++ s ++ q) -> ends_read g /\ ends_read s /\ ends_read q.
Proof.
  intros g s k q G L R. pose proof (gap_joint _ _ G) as J1. pose proof (lexeme_joint _ _ _ L) as J2.
  assert (R1 : ends_read (s ++ q)) by (apply (ends_read_back g (s ++ q) []); [rewrite app_nil_r; exact J1|exact R]).
  split; [exact (ends_read_front _ _ R)|]. split; [exact (ends_read_front _ _ R1)|]. apply (ends_read_back s q []); [rewrite app_nil_r; exact J2|exact R1].
Qed.
Lemma decimals_semi : forall s v, denotes 10 s v -> ~ In ";"%char s.
Proof.
  intros s v D I. apply decimals_iff in D. rewrite forallb_forall in D. apply D in I. discriminate.
Qed.
Lemma sign_semi : forall s b, sign s b -> ~ In ";"%char s.
Proof. intros s b [] I; cbn in I; intuition discriminate. Qed.
Lemma bang_semi : forall s b, bang s b -> ~ In ";"%char s.
Proof. intros s b [(-> & _)|(-> & _)] I; cbn in I; intuition discriminate. Qed.
Lemma Pp_semi : forall p, In p ["P"%char; "p"%char] -> p <> ";"%char.
Proof. intros p [<-|[<-|[]]]; discriminate. Qed.
Lemma inner_semi : forall t, Forall inner t -> ~ In ";"%char t.
Proof. intros t F I. rewrite Forall_forall in F. apply (F _ I). cbn. tauto. Qed.
Lemma name_semi : forall w, name w -> ends_read w -> ~ In ";"%char w.
Proof.
  intros w [(h & t & -> & F & _ & _ & O & _)|(b & neg & p & x & t & -> & B & P & X & F)] R I.
  - destruct I as [->|I]; [apply O; cbn; tauto|exact (inner_semi _ F I)].
  - apply in_app_iff in I as [I|[I|[->|I]]]; [exact (bang_semi _ _ B I)|exact (Pp_semi _ P I)| |exact (inner_semi _ F I)].
    destruct (R b p t P eq_refl) as (b' & ch & EB & _ & NB). destruct B as [(-> & _)|(-> & _)]; [destruct b'; discriminate|].
    apply (app_inj_tail [] b' "!"%char ch) in EB as (_ & <-). apply NB. reflexivity.
Qed.
Lemma predicate_semi : forall s i neg, predicate_name s i neg -> ~ In ";"%char s.
Proof.
  intros s i neg (b & p & x & -> & B & P & X) I.
  apply in_app_iff in I as [I|[I|[->|[]]]]; [exact (bang_semi _ _ B I)|exact (Pp_semi _ P I)|].
  destruct X as [(d & D & _)|([X|[X|[]]] & _)]; try discriminate. apply digit10 in D as (D & _). discriminate.
Qed.
Definition one_semi (k : tkind) : nat := match k with TSemi => 1 | _ => 0 end%nat.
Lemma lexeme_semis : forall s k q, lexeme s k q -> ends_read s -> semis s = one_semi k.
Proof.
  intros s k q H R. destruct H as [ch k q O _|s i neg q P _ _|s v q V _|s neg v k q (sg & ip & fp & -> & SG & _ & D & _) _|q _|s n q D _ _ _|q _ _|w q N _ _].
  - cbn in O. repeat destruct O as [O|O]; try (injection O as <- <-; reflexivity). destruct O.
  - apply semis_none, (predicate_semi _ _ _ P).
  - apply semis_none. intros I. apply integer_imm in V. rewrite forallb_forall in V. apply V in I. discriminate.
  - apply semis_none. intros I. apply decimals_semi in D. apply D. apply in_app_iff. apply in_app_iff in I as [I|I]; [destruct (sign_semi _ _ SG I)|].
    apply in_app_iff in I as [I|[I|I]]; [auto|discriminate|auto].
  - reflexivity.
  - apply semis_none. intros [I|I]; [discriminate|exact (decimals_semi _ _ D I)].
  - reflexivity.
  - apply semis_none, name_semi; assumption.
Qed.
Lemma blanks_semi : forall ws, Forall (fun ch => In ch blanks) ws -> ~ In ";"%char ws.
Proof. intros ws F I. rewrite Forall_forall in F. apply F in I. cbn in I. intuition discriminate. Qed.
Lemma gap_semis : forall g q, gap g q -> ends_read g -> semis g = O.
Proof.
  intros g q G. induction G as [ws q F|ws w g q F H G IH]; intros R.
  - apply semis_none, blanks_semi, F.
  - apply (ends_read_back ws (w ++ g) [] (blanks_joint _ _ F)) in R. pose proof (ends_read_front _ _ R) as R1.
    assert (R2 : ends_read g) by (apply (ends_read_back w g q); [right; right; apply H|exact R]). rewrite !semis_app, (IH R2).
    rewrite (semis_none _ (blanks_semi _ F)), (semis_none _ (name_semi _ (proj1 H) R1)). reflexivity.
Qed.
Lemma token_semis : forall c t c', ends_read (rest c) -> tokenize c = Ok (t, c') ->
  semis (rest c) = (one_semi (kind t) + semis (rest c'))%nat /\ ends_read (rest c').
Proof.
  intros c t c' R T. apply tokenize_iff in T as (g & s & cs & (E1 & _) & G & (E2 & _) & TT & _).
  rewrite E1, E2 in R. rewrite E2 in G. destruct TT as [L|(-> & -> & _)].
  - destruct (ends_read_token _ _ _ _ G L R) as (R1 & R2 & R3). split; [|exact R3].
    rewrite E1, E2, !semis_app, (gap_semis _ _ G R1), (lexeme_semis _ _ _ L R2). reflexivity.
  - cbn [app] in R, G, E2. rewrite E1, E2, semis_app, (gap_semis _ _ G (ends_read_front _ _ R)). split; [reflexivity|].
    apply (ends_read_back g (rest c') []); [rewrite app_nil_r; exact (gap_joint _ _ G)|exact R].
Qed.
Lemma tokens_semis : forall c tk c', tokens c tk c' -> ends_read (rest c) ->
  semis (rest c) = (List.length (filter is_semi (map kind tk)) + semis (rest c'))%nat /\ ends_read (rest c').
Proof.
  intros c tk c' H. induction H as [c|c t c1 ts c' T H IH]; intros R; [auto|]. destruct (token_semis _ _ _ R T) as (E & R1).
  destruct (IH R1) as (E1 & R2). split; [|exact R2]. rewrite E, E1. cbn [map filter]. destruct (kind t); cbn [is_semi one_semi List.length]; lia.
Qed.
Lemma end_semis : forall c, ~ In NUL (rest c) -> ends_read (rest c) -> at_end c -> semis (rest c) = O.
Proof.
  intros c N R (t & c' & T & K). destruct (token_semis _ _ _ R T) as (E & _). rewrite K in E. cbn [one_semi plus] in E. rewrite E.
  apply tokenize_iff in T as (g & s & cs & (E1 & _) & G & (E2 & _) & TT & _). destruct TT as [L|(_ & _ & EN)].
  - destruct (lexeme_some _ _ _ L K).
  - destruct EN as [->|(ch & q & EN & [<-|[]])]; [reflexivity|]. exfalso. apply N. rewrite E1, E2, EN. rewrite !in_app_iff. right. right. left. reflexivity.
Qed.

(** ** A whole text *)

Section Whole.
  Variable code : text.
  Hypothesis free : assert_free code.
  Notation inv := (boundary (start code)).

  Lemma safe_next : forall c, inv c -> safe (fun x => read_here code (fst x) (snd x)) (tokenize c).
  Proof.
    intros c (pre & SC). pose proof (tokenize_outcomes c) as O. destruct (tokenize c) as [(t, c')| | | | |] eqn:E; cbn in *; auto.
    exists pre. eapply scan_snoc; eauto.
  Qed.
  Definition read_by (x : token * cursor * options) : Prop := read_here code (fst (fst x)) (snd (fst x)).
  Lemma safe_line : forall l t, safe (fun _ => True) (check_option_line l t).
  Proof. intros l t. unfold check_option_line. destruct (_ =? _); exact Logic.I. Qed.
  Lemma safe_type : forall l t c o, read_here code t c -> safe read_by (parse_type l t c o).
  Proof.
    intros l t c o R. unfold parse_type. destruct (o_type o); [exact Logic.I|].
    eapply safe_bind; [apply safe_next, (read_boundary _ _ _ R)|]. intros (u, c1) R1. cbn [fst snd] in *.
    eapply safe_bind; [apply safe_line|]. intros _ _. destruct (program_type u); [exact R1|]. destruct (string_is_active _); exact Logic.I.
  Qed.
  Lemma safe_int : forall c msg, inv c -> safe (fun x => read_here code (snd (fst x)) (snd x)) (option_int c msg).
  Proof.
    intros c msg B. unfold option_int. eapply safe_bind; [apply safe_next, B|]. intros (u, c1) R1. cbn [fst snd] in *.
    destruct (kind u); try exact Logic.I. exact R1.
  Qed.
  Lemma safe_option : forall t c o, read_here code t c -> safe read_by (parse_option t c o).
  Proof.
    intros t c o R. rewrite parse_option_eq.
    eapply (safe_bind _ _ read_by).
    2:{ intros ((t1, c1), o1) R1. unfold read_by in R1. cbn [fst snd] in *. eapply safe_bind; [apply safe_next, (read_boundary _ _ _ R1)|].
        intros (t2, c2) R2. cbn [fst snd] in *. destruct (_ =? _); [exact Logic.I|exact R2]. }
    unfold option_body.
    destruct (equal t ".dksh"); [apply safe_type, R|]. destruct (equal t ".type"); [apply safe_type, R|].
    destruct (equal t ".num_gprs").
    { eapply safe_bind; [apply safe_next, (read_boundary _ _ _ R)|]. intros (u, c1) R1. cbn [fst snd] in *. destruct (kind u); exact Logic.I. }
    destruct (equal t ".workgroup_size").
    { eapply safe_bind; [apply safe_int, (read_boundary _ _ _ R)|]. intros ((z1, t1), c1) R1. cbn [fst snd] in *.
      eapply safe_bind; [apply safe_int, (read_boundary _ _ _ R1)|]. intros ((z2, t2), c2) R2. cbn [fst snd] in *.
      eapply safe_bind; [apply safe_int, (read_boundary _ _ _ R2)|]. intros ((z3, t3), c3) R3. cbn [fst snd] in *.
      eapply safe_bind; [apply safe_line|]. intros _ _. exact R3. }
    destruct (equal t ".shared_memory").
    { eapply safe_bind; [apply safe_int, (read_boundary _ _ _ R)|]. intros ((z1, t1), c1) R1. exact R1. }
    destruct (equal t ".local_memory").
    { eapply safe_bind; [apply safe_int, (read_boundary _ _ _ R)|]. intros ((z1, t1), c1) R1. exact R1. }
    exact R.
  Qed.
  Lemma safe_options : forall n t c o, read_here code t c -> safe read_by (parse_options n t c o).
  Proof.
    induction n as [|n IH]; intros t c o R; cbn [parse_options]; [exact Logic.I|]. destruct (is_option t); [|exact R].
    eapply safe_bind; [apply safe_option; exact R|]. intros ((t1, c1), o1) R1. apply IH, R1.
  Qed.

  Lemma safe_table : forall e t c gi gn tbl best, read_here code t c -> (gi <= 7)%N -> (forall i, In i tbl -> In i table) ->
    silent (parse_table e tbl t c (Opcode (N.shiftl (guard_bits gi gn) 16) 0 0) best).
  Proof.
    intros e t c gi gn tbl best (pre & SC) G SUB. revert best. induction tbl as [|i tbl IH]; intros best; cbn [parse_table].
    { destruct best as [(d, ?)|]; intros w; discriminate. }
    destruct (negb (equal t (i_mnemonic i))) eqn:E; [apply IH; intros j J; apply SUB; right; exact J|].
    apply negb_false_iff in E. apply equal_iff in E. rewrite E in SC.
    pose proof (form_silent code (i_mnemonic i) pre c SC free e i gi gn (SUB i (or_introl eq_refl)) eq_refl G) as FS.
    destruct (parse_insn _ _ _ _) as [[s|d n]| | | | |]; cbn [bind]; try (intros w; discriminate).
    - apply IH. intros j J; apply SUB; right; exact J.
    - exfalso. eapply FS. reflexivity.
  Qed.

  Lemma safe_instruction : forall a ls x, inv (c_cur x) -> silent (parse_instruction a ls x opcode0).
  Proof.
    intros a ls x B. change parse_instruction with (parse_instruction_with table). rewrite parse_instruction_eq.
    apply (safe_silent _ (fun _ => True)). pose proof (safe_next _ B) as N.
    destruct (tokenize (c_cur x)) as [(t, c)| | | | |] eqn:T; cbn [bind]; try exact N. cbn in N. rename N into R.
    pose proof (token_kind_ok _ _ _ T) as K. destruct (ttype_eqb _ _); [exact Logic.I|].
    unfold rest_of_instruction.
    match goal with |- safe _ (bind ?mm _) => destruct mm as [((t1, c1), o1)| | | | |] eqn:O end; cbn [bind]; try exact Logic.I.
    2:{ match type of O with parse_options ?n _ _ ?o = _ => pose proof (safe_options n t c o R) as X end. rewrite O in X. exact X. }
    assert (R1 : read_here code t1 c1).
    { match type of O with parse_options ?n _ _ ?o = _ => pose proof (safe_options n t c o R) as X end. rewrite O in X. exact X. }
    pose proof (Encode.options_token _ _ _ _ _ _ _ K O) as K1.
    eapply (safe_bind _ _ (fun y => read_here code (fst (fst y)) (snd (fst y)) /\ exists gi gn, (gi <= 7)%N /\ snd y = Opcode (N.shiftl (guard_bits gi gn) 16) 0 0)).
    - destruct (ttype_eqb _ _) eqn:E.
      + pose proof (safe_next _ (read_boundary _ _ _ R1)) as N. destruct (tokenize c1) as [(tp, cp)| | | | |] eqn:TP; cbn [bind]; try exact N. cbn in N. rename N into R2.
        destruct (assemble_predicate a tp opcode0 16 true) as [op1| | | | |] eqn:AP; cbn [raise bind]; try exact Logic.I.
        2:{ exfalso. unfold assemble_predicate in AP. destruct (kind tp); try discriminate. destruct (_ && _); [discriminate|].
          unfold add_bits in AP. cbn [value opcode0 N.land N.eqb negb] in AP. rewrite andb_false_r in AP. discriminate. }
        pose proof (safe_next _ (read_boundary _ _ _ R2)) as N. destruct (tokenize cp) as [(t3, c3)| | | | |] eqn:T3; cbn [bind]; try exact N. cbn in N.
        cbn [safe fst snd]. split; [exact N|].
        assert (GP : guard_parsed a t1 c1 opcode0 t3 c3 op1).
        { right. exists tp, cp. apply ttype_eqb_eq in E. split; [destruct (kind t1); try discriminate; reflexivity|]. auto. }
        apply guard_built in GP as (gi & gn & GI & -> & _); [|exact K1]. exists gi, gn. auto.
      + destruct (add_bits a opcode0 (shl64 7 16)) as [op1| | | | |] eqn:AB; cbn [bind safe]; try exact Logic.I.
        * cbn [fst snd]. split; [exact R1|]. assert (GP : guard_parsed a t1 c1 opcode0 t1 c1 op1).
          { left. repeat split; auto. intros Q. rewrite Q in E. discriminate. }
          apply guard_built in GP as (gi & gn & GI & -> & _); [|exact K1]. exists gi, gn. auto.
        * unfold add_bits in AB. cbn [value opcode0 N.land N.eqb negb] in AB. rewrite andb_false_r in AB. discriminate.
    - intros ((t2, c2), op) (R2 & gi & gn & GI & OP). cbn [fst snd] in *. subst op. destruct (kind t2) eqn:K2; try exact Logic.I.
      pose proof (safe_table (Env ls (bump (c_pc x)) a) t2 c2 gi gn table None R2 GI (fun _ H => H)) as ST.
      destruct (parse_table _ _ _ _ _ _); cbn [bind]; try exact Logic.I. exfalso. eapply ST. reflexivity.
  Qed.

  Lemma decode_free : forall a ls max n idx x acc w, inv (c_cur x) -> decode_loop n a ls max idx x acc = Abort w ->
    exists l y, decodes a ls x l y /\ Datatypes.S (idx + List.length l) <> max.
  Proof.
    intros a ls max n. induction n as [|n IH]; intros idx x acc w B H; cbn [decode_loop] in H; [discriminate|].
    destruct (Nat.leb max idx); [discriminate|]. apply bind_abort in H as [H|([(x' & op)|] & P & H)].
    - exfalso. revert H. apply safe_instruction, B.
    - pose proof (instruction_where (start code) table a ls x opcode0 B) as L. change (parse_instruction_with table) with parse_instruction in L.
      rewrite P in L. destruct (IH _ _ _ _ L H) as (l & y & D & NE). exists ((x', op) :: l), y. split; [econstructor; eassumption|]. cbn [List.length]. lia.
    - exists [], x. split; [constructor; exact P|]. destruct a; [|discriminate]. cbn [andb] in H. destruct (Nat.eqb_spec (S idx) max); [discriminate|].
      cbn [List.length]. lia.
  Qed.

  Theorem free_silent : forall a, silent (assemble a code).
  Proof.
    intros a w H. unfold assemble in H.
    apply bind_abort in H as [H|(ls & G & H)]; [destruct (generate_no_abort _ _ H)|].
    apply bind_abort in H as [H|((o & ops) & D & H)]; [|destruct (binary_no_abort _ _ _ _ H)].
    apply decode_free in H as (l & y & D & NE); [|apply boundary_refl].
    pose proof (free ends_read ltac:(cbn; tauto)) as ER. pose proof (free all_text ltac:(cbn; tauto)) as NN. unfold all_text in NN.
    destruct (decodes_sentence _ _ _ _ _ D 0 eq_refl) as (tk & ss & TK & SE & _ & _ & AE). cbn [c_cur] in *.
    destruct (tokens_semis _ _ _ TK ER) as (E & R'). apply sentence_semis in SE. rewrite fst_lined, map_length in SE.
    destruct (decodes_semis _ _ _ _ _ D) as (p & (MP & _) & _). cbn [c_cur rest] in *.
    rewrite (end_semis (c_cur y)) in E; [|intros I; apply NN; rewrite MP; apply in_app_iff; right; exact I|exact R'|exact AE].
    apply NE. rewrite count_semi_semis, E, SE. lia.
  Qed.
  Theorem free_builds_agree : assemble true code = assemble false code.
  Proof. symmetry. apply modes_same. apply free_silent. Qed.
End Whole.

(** ** Deciding the rules on a given text *)

Definition sum_b : list tkind -> tkind -> bool := fun ks k =>
  if existsb (is_named ".PO") ks then match k with TMinus => false | k => negb (is_named ".NEG" k) end else true.
Definition immediate_b : list tkind -> tkind -> bool := fun _ k => match k with TImm z => negb (Z.eqb z (2 ^ 20)) | _ => true end.
Definition store_b : list tkind -> tkind -> bool := fun ks k => negb (existsb (is_named ".D") ks && is_named ".BA" k).
Definition byte_b : list tkind -> tkind -> bool := fun _ k => negb (is_named ".B2" k || is_named ".B3" k).
Definition comparison_b : list tkind -> tkind -> bool := fun _ k => negb (is_named "." k).
Definition inner_b (ch : ascii) : bool := negb (existsb (Ascii.eqb ch) separators || Ascii.eqb ch "!").
Fixpoint ends_read_b (b : bool) (code : text) : bool :=
  match code with
  | p :: q =>
      (if b then true else if Ascii.eqb p "P" || Ascii.eqb p "p" then negb (Ascii.eqb (hd NUL q) ";") else true) && ends_read_b (inner_b p) q
  | [] => true
  end.
Definition assert_checks : list (text -> list tkind -> bool) :=
  [fun _ ts => forallb (fun m => inside_all m sum_b ts) ["IADD"; "IADD32I"; "ISCADD"; "VMAD"];
   fun _ ts => inside_all "IADD3" immediate_b ts;
   fun _ ts => inside_all "SUST" store_b ts;
   fun _ ts => forallb (fun m => inside_all m byte_b ts) ["VMAD"; "VMNMX"; "VSETP"];
   fun _ ts => inside_all "VSETP" comparison_b ts;
   fun code _ => ends_read_b false code;
   fun code _ => negb (existsb (Ascii.eqb NUL) code)].
Lemma inner_b_ok : forall ch, inner_b ch = true -> inner ch /\ ch <> "!"%char.
Proof.
  intros ch H. apply negb_true_iff in H. apply orb_false_iff in H as (H1 & H2). split.
  - intros I. assert (X : existsb (Ascii.eqb ch) separators = true) by (apply existsb_exists; exists ch; split; [exact I|apply Ascii.eqb_refl]). congruence.
  - intros ->. discriminate.
Qed.
Lemma ends_read_decided : forall code, ends_read_b false code = true -> ends_read code.
Proof.
  assert (X : forall a code b, ends_read_b b code = true -> forall p q, In p ["P"%char; "p"%char] -> code = a ++ p :: ";"%char :: q ->
    (a = [] /\ b = true) \/ exists a' ch, a = a' ++ [ch] /\ inner ch /\ ch <> "!"%char).
  { induction a as [|x a IH]; intros code b H p q I ->; cbn [app ends_read_b] in H; apply andb_true_iff in H as (H1 & H2).
    - left. split; [reflexivity|]. destruct b; [reflexivity|]. cbn [hd] in H1. destruct I as [<-|[<-|[]]]; discriminate.
    - right. destruct (IH _ _ H2 p q I eq_refl) as [(-> & E)|(a' & ch & -> & N)]; [exists [], x; split; [reflexivity|apply inner_b_ok; exact E]|exists (x :: a'), ch; auto]. }
  intros code H a p b I E. destruct (X a code false H p b I E) as [(_ & Y)|Y]; [discriminate|exact Y].
Qed.
Lemma no_nul_decided : forall code, negb (existsb (Ascii.eqb NUL) code) = true -> ~ In NUL code.
Proof.
  intros code H I. apply negb_true_iff in H. assert (X : existsb (Ascii.eqb NUL) code = true) by (apply existsb_exists; exists NUL; split; [exact I|reflexivity]).
  congruence.
Qed.
Lemma named_in : forall w ks, In (id w) ks -> existsb (is_named w) ks = true.
Proof. intros w ks I. apply existsb_exists. exists (id w). split; [exact I|apply named_id]. Qed.

Lemma assert_rule_decided : forall n code ts i r b, all_kinds n (start code) = Some ts -> nth_error assert_rules i = Some r ->
  nth_error assert_checks i = Some b -> b code ts = true -> r code.
Proof.
  intros n code ts i r b A R B H.
  unfold assert_rules, assert_checks in R, B. destruct i as [|[|[|[|[|[|[|i]]]]]]]; cbn [nth_error] in R, B; try (destruct i; discriminate); injection R as <-;
    match type of B with Some ?f = Some _ => assert (E : b = f) by congruence; clear B; subst b; cbv beta in H end.
  - intros m l ks k I X P K. assert (IM : In m ["IADD"; "IADD32I"; "ISCADD"; "VMAD"] /\ In k [TMinus; id ".NEG"]).
    { destruct I as [I|[I|[I|[I|[]]]]]; injection I as <- <-; (split; [cbn; tauto|]); cbn in K; cbn; tauto. }
    destruct IM as (IM & IK). pose proof (forallb_in _ _ _ _ H IM) as HM. pose proof (inside_decided _ _ _ _ _ _ _ A HM X) as Y. unfold sum_b in Y.
    rewrite (named_in _ _ P) in Y. destruct IK as [<-|[<-|[]]]; discriminate.
  - intros ks X. pose proof (inside_decided _ _ _ _ _ _ _ A H X) as Y. discriminate.
  - intros ks P X. pose proof (inside_decided _ _ _ _ _ _ _ A H X) as Y. unfold store_b in Y. rewrite (named_in _ _ P), named_id in Y. discriminate.
  - intros m ks w I W X. pose proof (forallb_in _ _ _ _ H I) as HM. pose proof (inside_decided _ _ _ _ _ _ _ A HM X) as Y. unfold byte_b in Y.
    destruct W as [<-|[<-|[]]]; rewrite named_id in Y; [|rewrite orb_true_r in Y]; discriminate.
  - intros ks X. pose proof (inside_decided _ _ _ _ _ _ _ A H X) as Y. unfold comparison_b in Y. rewrite named_id in Y. discriminate.
  - apply ends_read_decided. exact H.
  - apply no_nul_decided. exact H.
Qed.
Definition assert_rules_b (skip : nat) (code : text) : bool :=
  match all_kinds (Datatypes.S (List.length code)) (start code) with
  | None => false
  | Some ts => forallb (fun i => if Nat.eqb i skip then true else match nth_error assert_checks i with Some b => b code ts | None => true end) (seq 0 7)
  end.
Lemma assert_rules_decided : forall skip code, assert_rules_b skip code = true -> forall i r, nth_error assert_rules i = Some r -> i <> skip -> r code.
Proof.
  intros skip code H i r R NE. unfold assert_rules_b in H. destruct (all_kinds _ _) as [ts|] eqn:A; [|discriminate].
  assert (L : (i < 7)%nat) by (apply (nth_error_Some assert_rules i); congruence).
  assert (I : In i (seq 0 7)) by (apply in_seq; lia). pose proof (forallb_in _ _ _ _ H I) as X. cbv beta in X.
  destruct (Nat.eqb_spec i skip); [contradiction|]. destruct (nth_error assert_checks i) as [b|] eqn:B.
  - eapply assert_rule_decided; eassumption.
  - apply nth_error_None in B. cbn in B. lia.
Qed.
Lemma free_decided : forall code, assert_rules_b 7 code = true -> assert_free code.
Proof.
  intros code H r I. apply In_nth_error in I as (i & I). eapply (assert_rules_decided 7); [exact H|exact I|].
  assert (L : (i < 7)%nat) by (apply (nth_error_Some assert_rules i); congruence). lia.
Qed.

(** ** Every rule is needed: one text per rule *)

Definition clashing : list string :=
  ["IADD.PO R0, -R1, R2;"; "IADD3 R0, R1, 0x100000, R3;"; "SUST.D.BA.2D.32 [R1], R2, R3;"; "VMAD R0, R1.B2, R2, R3;";
   "VSETP..OR P0, PT, R1, R2, PT;"; "P;: EXIT;"].
Definition aborts (m : res (list N)) : bool := match m with Abort _ => true | _ => false end.
Definition returns (m : res (list N)) : bool := match m with Ok _ => true | _ => false end.
Lemma clashing_ok :
  forallb (fun i => let code := lit (nth i clashing "") in
    assert_rules_b i code && aborts (assemble true code) && returns (assemble false code)) (seq 0 6) = true.
Proof. vm_compute. reflexivity. Qed.
Definition nul_text : text := [NUL; ";"%char].
Lemma nul_scan : forall c ks c', scan c ks c' -> rest c = nul_text -> forall k, In k ks -> k = TNone.
Proof.
  intros c ks c' SC. induction SC as [c|c t c1 ks c' T SC IH]; intros R k I; [destruct I|].
  destruct c as [q a b]. cbn [rest] in R. subst q. cbv in T. injection T as <- <-. destruct I as [<-|I]; [reflexivity|]. apply IH; [reflexivity|exact I].
Qed.
Lemma nul_inside : forall m ks k, ~ inside nul_text m ks k.
Proof.
  intros m ks k ((pre & c & SC) & _). pose proof (nul_scan _ _ _ SC eq_refl (id m)) as X.
  assert (Y : id m = TNone) by (apply X; apply in_app_iff; right; left; reflexivity). discriminate.
Qed.
Theorem assert_rules_needed : forall i r, nth_error assert_rules i = Some r -> exists code w why,
  (forall j r', nth_error assert_rules j = Some r' -> j <> i -> r' code) /\
  assemble true code = Abort why /\ assemble false code = Ok w.
Proof.
  intros i r R. assert (L : (i < 7)%nat) by (apply (nth_error_Some assert_rules i); congruence).
  destruct (Nat.eq_dec i 6) as [->|NE].
  - exists nul_text, [], "index == max_decode_instructions". split; [|split; reflexivity].
    intros j r' J NJ. unfold assert_rules in J. destruct j as [|[|[|[|[|[|[|j]]]]]]]; cbn [nth_error] in J; try (destruct j; discriminate); injection J as <-.
    + intros m l ks k _ X. destruct (nul_inside _ _ _ X).
    + intros ks. apply nul_inside.
    + intros ks _. apply nul_inside.
    + intros m ks w _ _. apply nul_inside.
    + intros ks. apply nul_inside.
    + apply ends_read_decided. reflexivity.
    + congruence.
  - assert (I : In i (seq 0 6)) by (apply in_seq; lia). pose proof (forallb_in _ _ _ _ clashing_ok I) as X. cbv beta zeta in X.
    set (code := lit (nth i clashing "")) in *. clearbody code.
    apply andb_true_iff in X as (X & X3). apply andb_true_iff in X as (X1 & X2).
    destruct (assemble true code) as [| | |why| |] eqn:E1; try discriminate. destruct (assemble false code) as [w| | | | |] eqn:E2; try discriminate.
    exists code, w, why. split; [|auto]. exact (assert_rules_decided i code X1).
Qed.

(** ** Both builds and the language *)
Theorem free_language : forall a code w, assert_free code -> tame code -> Z.of_nat (List.length code) <= 2 ^ 57 ->
  (assemble a code = Ok w <-> means code w).
Proof.
  intros a code w F T L. assert (NN : ~ In NUL code) by (apply (F all_text); cbn; tauto).
  replace (assemble a code) with (assemble false code) by (destruct a; [symmetry; apply free_builds_agree, F|reflexivity]).
  apply accepted_iff; assumption.
Qed.
Theorem free_total : forall a code, assert_free code -> tame code -> Z.of_nat (List.length code) <= 2 ^ 57 ->
  (exists w, assemble a code = Ok w) \/ (exists d, assemble a code = Fatal d).
Proof.
  intros a code F T L. assert (NN : ~ In NUL code) by (apply (F all_text); cbn; tauto).
  pose proof (assemble_outcomes a code) as O. pose proof (tame_assembles code NN T L a) as U. pose proof (free_silent code F a) as A.
  destruct (assemble a code) as [w|d|d|w|u|] eqn:E; eauto; try contradiction; [destruct (A w)|destruct (U u)]; reflexivity.
Qed.
