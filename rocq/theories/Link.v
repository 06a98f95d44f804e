(** * Link: the words of a program do not depend on its line numbers, nor on whole groups in front of it. *)
From Verif Require Import Base Float Lexer Operand Catalogue Table Parse Assemble Spec LexFacts SchedFuel Param Reach ParseFacts
  Outcomes Decode Program Encode Emit Layout SpecOperand SpecInsn SpecOpts SpecSafe Insn Position Literals SpecLex Lexemes Stream
  Opts SpecContainer Container Text Compose Safe SpecProgram Language SpecLink.
From Coq Require Import Lia.
Local Open Scope string_scope.
Local Open Scope list_scope.
Open Scope Z_scope.

(** ** Line numbers *)

Lemma sentence_alike : forall lab n ts ss ops, sentence lab n ts ss ops -> forall us, alike ts us -> sentence lab n us ss ops.
Proof.
  intros lab n ts ss ops S. induction S as [n|n s t us v ts ss ops W O N S IH|n pre i post gi gn kg kf us ts ss op ops T G F P M S IH]; intros vs (l & E1 & E2 & L).
  - symmetry in E1. apply map_eq_nil in E1 as ->. subst vs. constructor.
  - symmetry in E1. apply map_eq_cons in E1 as (x & l1 & -> & X & E1). apply map_eq_app in E1 as (lu & l2 & -> & U & E1).
    apply map_eq_cons in E1 as (y & l3 & -> & Y & E1). subst vs.
    assert (W' : map fst (t :: us) = map fst (map (fun x : tkind * (Z * Z) => (fst x, snd (snd x))) (x :: lu))).
    { rewrite <- X, <- U. cbn [map fst]. f_equal. rewrite !map_map. apply map_ext. reflexivity. }
    assert (DOT : exists nm, fst x = TIdent ("."%char :: nm)).
    { rewrite W' in W. cbn [map] in W. inversion W; eexists; reflexivity. }
    destruct DOT as (nm & DOT). cbn [map]. rewrite map_app. cbn [map]. eapply sentence_option.
    + cbn [map] in W' |- *. rewrite <- W'. exact W.
    + intros H. apply Forall_forall. intros z I. apply in_map_iff in I as (z' & <- & I). cbn [snd].
      specialize (O H). rewrite Forall_forall in O. rewrite <- U in O. specialize (O _ (in_map _ _ _ I)). cbn [snd] in O. rewrite <- X in O. cbn [snd] in O.
      apply (L x z' nm); [left; reflexivity|right; apply in_or_app; left; exact I|exact DOT|exact O].
    + cbn [snd]. intros H. apply N. rewrite <- X, <- Y. cbn [snd]. apply (L x y nm); [left; reflexivity|right; apply in_or_app; right; left; reflexivity|exact DOT|exact H].
    + apply (IH ((fst y, snd (snd y)) :: map (fun x => (fst x, snd (snd x))) l3)). exists (y :: l3). split; [cbn [map]; rewrite Y, E1; reflexivity|]. split; [reflexivity|].
      intros a b c A B. apply L; right; apply in_or_app; right; assumption.
  - symmetry in E1. apply map_eq_app in E1 as (lu & l2 & -> & U & E1). subst vs. rewrite map_app.
    eapply sentence_instruction; try eassumption.
    + rewrite <- M, <- U, !map_map. apply map_ext. reflexivity.
    + apply IH. exists l2. split; [symmetry; exact E1|]. split; [reflexivity|]. intros a b c A B. apply L; apply in_or_app; right; assumption.
Qed.

Lemma alike_sym : forall ts us, alike ts us -> alike us ts.
Proof.
  intros ts us (l & E1 & E2 & L). exists (map (fun x => (fst x, (snd (snd x), fst (snd x)))) l).
  split; [rewrite map_map; exact E2|]. split; [rewrite map_map; exact E1|]. intros x y s X Y.
  apply in_map_iff in X as (x' & <- & X), Y as (y' & <- & Y). cbn [fst snd]. intros D. symmetry. apply (L x' y' s); assumption.
Qed.
Lemma same_places_labelled : forall code code' lab, same_places code code' -> labelled code lab -> labelled code' lab.
Proof.
  intros code code' lab P L name z. rewrite (L name z). split.
  - intros (p & F & ->). destruct (proj1 (P name (semis p))) as (p' & F' & E); [eauto|]. exists p'. rewrite E. auto.
  - intros (p & F & ->). destruct (proj2 (P name (semis p))) as (p' & F' & E); [eauto|]. exists p'. rewrite E. auto.
Qed.
Lemma same_places_file : forall code code' ss out w, same_places code code' -> file code ss out w -> file code' ss out w.
Proof.
  intros code code' ss out w P F. destruct F as [T|p head T C F M S K]; [constructor; exact T|].
  destruct (proj1 (P (lit "main") (semis p))) as (p' & F' & E); [eauto|]. rewrite <- E in M, K. econstructor; eassumption.
Qed.
Lemma same_places_sym : forall code code', same_places code code' -> same_places code' code.
Proof. intros code code' P name n. symmetry. apply P. Qed.

Lemma alike_means : forall code code' ts ts' w, lexes code 0 ts -> lexes code' 0 ts' -> alike ts ts' -> same_places code code' ->
  (forall us, lexes code 0 us -> us = ts) -> means code w -> means code' w.
Proof.
  intros code code' ts ts' w L L' A P U (us & lab & ss & ops & LX & LB & S & F). apply U in LX as ->.
  exists ts', lab, ss, ops. split; [exact L'|]. split; [eapply same_places_labelled; eassumption|]. split; [eapply sentence_alike; eassumption|].
  eapply same_places_file; eassumption.
Qed.

Lemma lexes_unique : forall ts c us, lexes (rest c) (line c) ts -> lexes (rest c) (line c) us -> us = ts.
Proof.
  induction ts as [|t ts IH]; intros c us A B; destruct (lexes_step _ _ A) as (x & c1 & T & [(E & K & R)|(l & E & L)]); try discriminate;
    destruct (lexes_step _ _ B) as (x' & c1' & T' & [(E' & K' & R')|(l' & E' & L')]); rewrite T in T'; injection T' as <- <-.
  - exact E'.
  - exfalso. rewrite E' in B. apply (lexes_some _ _ _ B (lined x)); [left; reflexivity|exact K].
  - exfalso. rewrite E in A. apply (lexes_some _ _ _ A (lined x)); [left; reflexivity|exact K'].
  - injection E as -> ->. rewrite E'. f_equal. apply (IH c1); assumption.
Qed.
Lemma lexes_same : forall code n ts us, lexes code n ts -> lexes code n us -> us = ts.
Proof. intros code n ts us. apply (lexes_unique ts (Cursor code n 0)). Qed.

Theorem alike_accepted : forall code code' ts ts' w,
  ~ In NUL code -> tame code -> Z.of_nat (List.length code) <= 2 ^ 57 ->
  ~ In NUL code' -> tame code' -> Z.of_nat (List.length code') <= 2 ^ 57 ->
  lexes code 0 ts -> lexes code' 0 ts' -> alike ts ts' -> same_places code code' ->
  (assemble false code = Ok w <-> assemble false code' = Ok w).
Proof.
  intros code code' ts ts' w N T S N' T' S' L L' A P. rewrite !accepted_iff by assumption. split; intros M.
  - apply (alike_means code code' ts ts'); try assumption. intros us X. exact (lexes_same _ _ _ _ L X).
  - apply (alike_means code' code ts' ts); try assumption; [apply alike_sym, A|apply same_places_sym, P|]. intros us X. exact (lexes_same _ _ _ _ L' X).
Qed.
Theorem alike_rejected : forall code code' ts ts',
  ~ In NUL code -> tame code -> Z.of_nat (List.length code) <= 2 ^ 57 ->
  ~ In NUL code' -> tame code' -> Z.of_nat (List.length code') <= 2 ^ 57 ->
  lexes code 0 ts -> lexes code' 0 ts' -> alike ts ts' -> same_places code code' ->
  ((exists d, assemble false code = Fatal d) <-> (exists d, assemble false code' = Fatal d)).
Proof.
  intros code code' ts ts' N T S N' T' S' L L' A P. rewrite !rejected_iff by assumption.
  split; intros H w M; apply (H w), accepted_iff; auto; [rewrite (alike_accepted code code' ts ts')|rewrite <- (alike_accepted code code' ts ts')]; auto; apply accepted_iff; auto.
Qed.

(** ** Two texts side by side *)

Definition semi_last (ks : list tkind) : Prop := ks = [] \/ exists k, ks = k ++ [TSemi].
Lemma semi_last_tail : forall k ks, semi_last (k :: ks) -> (ks = [] /\ k = TSemi) \/ (semi_last ks /\ In TSemi ks).
Proof.
  intros k ks [E|(l & E)]; [discriminate|]. destruct l as [|x l]; cbn in E; injection E as -> ->; [left; auto|].
  right. split; [right; eauto|]. apply in_or_app. right. left. reflexivity.
Qed.
Lemma sentence_semi : forall lab n ts ss ops, sentence lab n ts ss ops -> semi_last (map fst ts).
Proof.
  intros lab n ts ss ops S. induction S as [n|n s t us v ts ss ops W O N S IH|n pre i post gi gn kg kf us ts ss op ops T G F P M S IH].
  - left. reflexivity.
  - right. destruct IH as [E|(k & E)]; [discriminate|]. exists (map fst (t :: us) ++ k). rewrite <- app_assoc, <- E. cbn [map app]. rewrite map_app. reflexivity.
  - right. destruct F as (ko & kn & notes & w & r & -> & _). rewrite map_app, M. destruct IH as [->|(k & ->)].
    + exists (kg ++ id (i_mnemonic i) :: ko ++ kn). rewrite app_nil_r, <- !app_assoc. cbn [app]. rewrite <- app_assoc. reflexivity.
    + eexists. rewrite app_assoc. reflexivity.
Qed.
Lemma lexes_semi : forall q n ts, lexes q n ts -> In TSemi (map fst ts) -> exists u v, q = u ++ ";"%char :: v.
Proof.
  intros q n ts L. induction L as [g n G|g s k q n ts G X L IH]; intros I; [contradiction|]. cbn [map fst] in I. destruct I as [->|I].
  - assert (E : s = [";"%char]) by (apply (semi_text s q); left; exact X). subst s. exists g, q. reflexivity.
  - destruct (IH I) as (u & v & ->). exists (g ++ s ++ u), v. rewrite <- !app_assoc. reflexivity.
Qed.
Lemma line_start_tail : forall x q, line_start (x ++ q) -> line_start q.
Proof.
  intros x q [E|(p & E)]; [apply app_eq_nil in E as (_ & ->); left; reflexivity|].
  destruct q as [|ch q] using rev_ind; [left; reflexivity|]. rewrite app_assoc in E. apply app_inj_tail in E as (_ & ->). right. eauto.
Qed.
Lemma gap_blanks : forall ws g r, Forall (fun ch => In ch blanks) ws -> gap g r -> gap (ws ++ g) r.
Proof.
  intros ws g r W G. destruct G as [ws' q W'|ws' w g q W' L G].
  - apply gap_blank. apply Forall_app. auto.
  - rewrite app_assoc. apply gap_label; [apply Forall_app; auto|exact L|exact G].
Qed.
Lemma ends_more : forall g r, ends g -> g <> [] -> ends (g ++ r).
Proof. intros g r [E|(ch & q & -> & I)] N; [contradiction|]. right. exists ch, (q ++ r). auto. Qed.
Lemma gap_join : forall g x, gap g x -> x = [] -> line_start g -> forall g2 r, gap g2 r -> gap (g ++ g2) r.
Proof.
  intros g x G. induction G as [ws q W|ws w g q W (N & C & E) G IH]; intros -> LS g2 r G2; [apply gap_blanks; assumption|].
  rewrite app_nil_r in E. assert (NE : g <> []).
  { intros ->. rewrite app_nil_r in LS. destruct C as (w' & ->). rewrite app_assoc in LS. destruct LS as [LS|(p & LS)]; [destruct (ws ++ w'); discriminate|].
    apply app_inj_tail in LS as (_ & LS). discriminate. }
  rewrite <- !app_assoc. apply gap_label; [exact W| |].
  - split; [exact N|]. split; [exact C|]. rewrite <- app_assoc. apply ends_more; assumption.
  - apply IH; [reflexivity| |exact G2]. rewrite app_assoc in LS. eapply line_start_tail, LS.
Qed.

Lemma lexes_app : forall p n ts, lexes p n ts -> semi_last (map fst ts) -> line_start p -> forall q us, lexes q (n + newlines p) us -> lexes (p ++ q) n (ts ++ us).
Proof.
  intros p n ts L. induction L as [g n G|g s k p n ts G X L IH]; intros SL LS q us Q.
  - cbn [app]. remember (n + newlines g) as m eqn:M. destruct Q as [g2 m G2|g2 s k r m us G2 X L].
    + apply lexes_end. eapply gap_join; eauto.
    + subst m. rewrite <- Z.add_assoc, <- newlines_app. rewrite app_assoc. apply lexes_token; [eapply gap_join; eauto|exact X|].
      rewrite <- Z.add_assoc, <- newlines_app, app_assoc in L. exact L.
  - cbn [map fst] in SL. cbn [app]. rewrite <- !app_assoc.
    assert (LS' : line_start p) by (rewrite app_assoc in LS; eapply line_start_tail, LS).
    assert (H : lexeme s k (p ++ q) /\ s ++ p <> []).
    { destruct (semi_last_tail _ _ SL) as [(E & ->)|(_ & I)].
      - assert (ES : s = [";"%char]) by (apply (semi_text s p); left; exact X). subst s. split; [|discriminate].
        constructor; [cbn; auto 12|]. intros [A|[A|[]]]; discriminate.
      - destruct (lexes_semi _ _ _ L I) as (u & v & ->). split; [|destruct s, u; discriminate]. rewrite <- app_assoc. eapply lexeme_beyond, X. }
    destruct H as (X' & NE). apply lexes_token.
    + rewrite app_assoc. eapply gap_ext; [exact G|]. intros E. apply ends_more; assumption.
    + exact X'.
    + apply IH; [|exact LS'|].
      * destruct (semi_last_tail _ _ SL) as [(E & _)|(S & _)]; [left; exact E|exact S].
      * replace (n + newlines (g ++ s) + newlines p) with (n + newlines (g ++ s ++ p)) by (rewrite !newlines_app; lia). exact Q.
Qed.
Lemma lexes_shift : forall q n ts, lexes q n ts -> forall d, lexes q (n + d) (map (fun x => (fst x, snd x + d)) ts).
Proof.
  intros q n ts L. induction L as [g n G|g s k q n ts G X L IH]; intros d; [apply lexes_end, G|].
  cbn [map fst snd]. replace (n + newlines g + d) with (n + d + newlines g) by lia. apply lexes_token; [exact G|exact X|].
  replace (n + d + newlines (g ++ s)) with (n + newlines (g ++ s) + d) by lia. apply IH.
Qed.
Lemma shift_alike : forall d ts, alike ts (map (fun x => (fst x, snd x + d)) ts).
Proof.
  intros d ts. exists (map (fun x => (fst x, (snd x, snd x + d))) ts). rewrite !map_map. cbn [fst snd].
  split; [rewrite <- (map_id ts) at 1; apply map_ext; intros (k, z); reflexivity|]. split; [reflexivity|].
  intros x y s X Y _. apply in_map_iff in X as (x' & <- & _), Y as (y' & <- & _). cbn [fst snd]. lia.
Qed.

(** ** Labels *)

Lemma label_plain : forall name, label_name name -> ~ In "010"%char name /\ name <> [].
Proof.
  intros name L. apply label_name_chars in L as (N & _ & F). split; [|exact N]. intros I. rewrite Forall_forall in F. apply F in I. discriminate.
Qed.
Lemma defines_app : forall p q r name, line_start p -> (defines (p ++ q) r name <-> defines p r name \/ exists r', r = p ++ r' /\ defines q r' name).
Proof.
  intros p q r name LP. split.
  - intros (LS & LN & x & E). destruct (app_eq_split _ _ _ _ E) as [(m & -> & EM)|(m & -> & EM)].
    + destruct m as [|ch m] using rev_ind.
      * right. exists []. rewrite !app_nil_r. split; [reflexivity|]. split; [left; reflexivity|]. split; [exact LN|]. exists x. symmetry. exact EM.
      * clear IHm. left. split; [exact LS|]. split; [exact LN|].
        assert (CH : ch = ascii_of_N 10).
        { apply line_start_tail in LP. destruct LP as [LP|(p' & LP)]; [destruct m; discriminate|]. apply app_inj_tail in LP as (_ & ->). reflexivity. }
        subst ch. change (ascii_of_N 10) with "010"%char in *.
        symmetry in EM. change (name ++ ":"%char :: x) with (name ++ [":"%char] ++ x) in EM. rewrite app_assoc in EM.
        destruct (app_eq_split _ _ _ _ EM) as [(v & E1 & E2)|(v & E1 & E2)].
        -- exists v. rewrite E1, <- !app_assoc. reflexivity.
        -- exfalso. assert (I : In "010"%char (name ++ [":"%char])) by (rewrite E1; apply in_or_app; left; apply in_or_app; right; left; reflexivity).
           apply in_app_or in I as [I|[I|[]]]; [exact (proj1 (label_plain _ LN) I)|discriminate].
    + right. exists m. split; [reflexivity|]. split; [eapply line_start_tail, LS|]. split; [exact LN|]. exists x. exact EM.
  - intros [(LS & LN & x & E)|(r' & -> & LS & LN & x & E)].
    + split; [exact LS|]. split; [exact LN|]. exists (x ++ q). rewrite E, <- !app_assoc. reflexivity.
    + split; [|split; [exact LN|exists x; rewrite E, <- !app_assoc; reflexivity]].
      destruct LS as [->|(r & ->)]; [rewrite app_nil_r; exact LP|]. right. exists (p ++ r). rewrite app_assoc. reflexivity.
Qed.
Lemma defines_short : forall p r name, defines p r name -> (List.length r < List.length p)%nat.
Proof. intros p r name (_ & _ & x & ->). rewrite !app_length. cbn [List.length]. lia. Qed.
Lemma first_app : forall p q r name, line_start p ->
  (first_defines (p ++ q) r name <-> first_defines p r name \/ (~ defined p name /\ exists r', r = p ++ r' /\ first_defines q r' name)).
Proof.
  intros p q r name LP. split.
  - intros (D & M). apply defines_app in D; [|exact LP]. destruct D as [D|(r' & -> & D)].
    + left. split; [exact D|]. intros p' D'. apply M, defines_app; auto.
    + right. split.
      * intros (p' & D'). specialize (M p'). apply defines_short in D' as S. rewrite app_length in M. enough (List.length p + List.length r' <= List.length p')%nat by lia.
        apply M, defines_app; auto.
      * exists r'. split; [reflexivity|]. split; [exact D|]. intros p' D'. specialize (M (p ++ p')). rewrite !app_length in M.
        enough (List.length p + List.length r' <= List.length p + List.length p')%nat by lia. apply M, defines_app; [exact LP|]. right. eauto.
  - intros [(D & M)|(N & r' & -> & D & M)].
    + split; [apply defines_app; auto|]. intros p' D'. apply defines_app in D'; [|exact LP]. destruct D' as [D'|(r' & -> & _)]; [auto|].
      apply defines_short in D. rewrite app_length. lia.
    + split; [apply defines_app; eauto|]. intros p' D'. apply defines_app in D'; [|exact LP]. destruct D' as [D'|(r2 & -> & D')]; [destruct N; exists p'; exact D'|].
      rewrite !app_length. specialize (M _ D'). lia.
Qed.
Lemma undefined : forall code lab name, labelled code lab -> lab name = None -> ~ defined code name.
Proof.
  intros code lab name L E (p & D). remember (List.length p) as n eqn:EN. revert p D EN.
  induction n as [n IH] using (well_founded_induction lt_wf). intros p D ->.
  enough (lab name = Some (addr (semis p))) by congruence. apply L. exists p. split; [|reflexivity]. split; [exact D|].
  intros p' D'. destruct (le_lt_dec (List.length p) (List.length p')) as [X|X]; [exact X|]. destruct (IH _ X p' D' eq_refl).
Qed.

(** ** Addresses *)

Lemma addr_shift : forall n m, (n mod 3 = 0)%nat -> addr (n + m) = addr m + (addr n - addr 0).
Proof.
  intros n m H. unfold addr. assert (E : exists a, n = (3 * a)%nat) by (exists (n / 3)%nat; pose proof (Nat.div_mod n 3); lia). destruct E as (a & ->).
  replace (Z.of_nat (3 * a + m)) with (Z.of_nat m + Z.of_nat a * 3) by lia. replace (Z.of_nat (3 * a)) with (Z.of_nat a * 3) by lia.
  rewrite Z.div_add, Z_mod_plus_full, Z.div_mul, Z.mod_mul by lia. change (Z.of_nat 0 / 3) with 0. change (Z.of_nat 0 mod 3) with 0. lia.
Qed.

(** ** Forms at another address *)

Lemma spells_place : forall o lab lab' pc pc' w ks nx b r, place_free o = true -> spells lab pc o w ks nx b r -> spells lab' pc' o w ks nx b r.
Proof.
  induction o; intros lab lab' pc pc' w ks nx b r P H; try exact H; [discriminate|]. cbn [place_free] in P. cbn [spells] in H |- *.
  destruct H as [(ks' & b' & E & H & B)|(N & H)]; [left; exists ks', b'; eauto|right; eauto].
Qed.
Lemma spell_list_place : forall lab lab' pc pc' nx ops w ks w' r, forallb place_free ops = true ->
  spell_list lab pc nx ops w ks w' r -> spell_list lab' pc' nx ops w ks w' r.
Proof.
  intros lab lab' pc pc' nx ops w ks w' r P H. induction H as [w|o ops w ks1 ks2 b r1 r2 w' S H IH]; [constructor|].
  cbn [forallb] in P. apply andb_true_iff in P as (P1 & P2). econstructor; [eapply spells_place; eauto|auto].
Qed.
Lemma form_place : forall lab lab' pc pc' i gi gn ks op, forallb place_free (i_operands i) = true ->
  form_spells lab pc i gi gn ks op -> form_spells lab' pc' i gi gn ks op.
Proof.
  intros lab lab' pc pc' i gi gn ks op P (ko & kn & notes & w & r & E & A & S & N). exists ko, kn, notes, w, r.
  split; [exact E|]. split; [exact A|]. split; [|exact N]. eapply spell_list_place; eassumption.
Qed.

(** The operands of jumps. *)
Definition jump_operand (o : opnd) : bool := match o with OFlag _ _ | OComma | OLabel | OCcTests _ _ | ODotTable _ _ _ => true | _ => false end.
Definition no_comma (o : opnd) : bool := match o with OFlag _ _ | OLabel | OCcTests _ _ => true | _ => false end.
Definition is_comma (o : opnd) : bool := match o with OComma => true | _ => false end.
Definition jump_name (i : insn) : bool := existsb (fun m => text_eqb (lit m) (lit (i_mnemonic i))) jumps.
Definition place_bound (i : insn) : bool := negb (forallb place_free (i_operands i)).
Lemma jump_forms : forallb (fun i => if place_bound i then jump_name i && forallb jump_operand (i_operands i) else true) table = true.
Proof. vm_compute. reflexivity. Qed.
(** Of two forms of a jump, only one has a comma. *)
Fixpoint commas_tell (pre l : list insn) : bool :=
  match l with
  | [] => true
  | i :: l =>
      (if place_bound i then
         forallb (fun j => if text_eqb (lit (i_mnemonic j)) (lit (i_mnemonic i)) then existsb is_comma (i_operands j) && forallb no_comma (i_operands i) else true) pre
       else forallb (fun j => if place_bound j then negb (text_eqb (lit (i_mnemonic j)) (lit (i_mnemonic i))) else true) pre) && commas_tell (i :: pre) l
  end.
Lemma table_commas : commas_tell [] table = true.
Proof. vm_compute. reflexivity. Qed.
Lemma commas_split : forall l seen, commas_tell seen l = true -> forall pre i post, l = pre ++ i :: post -> forall j, In j pre ->
  i_mnemonic j = i_mnemonic i -> place_bound j = true -> existsb is_comma (i_operands j) = true /\ forallb no_comma (i_operands i) = true.
Proof.
  assert (G : forall l seen, commas_tell seen l = true -> forall pre i post, l = pre ++ i :: post -> forall j, In j (rev pre ++ seen) ->
    i_mnemonic j = i_mnemonic i -> place_bound j = true -> existsb is_comma (i_operands j) = true /\ forallb no_comma (i_operands i) = true).
  { induction l as [|x l IH]; intros seen C pre i post E j J M B; [destruct pre; discriminate|].
    cbn [commas_tell] in C. apply andb_true_iff in C as (C1 & C2). destruct pre as [|y pre]; cbn [app] in E; injection E as -> ->.
    - cbn [rev app] in J. destruct (place_bound i) eqn:PB.
      + pose proof (forallb_in _ _ _ _ C1 J) as X. cbv beta in X. rewrite M, text_eqb_refl in X. apply andb_true_iff in X. exact X.
      + pose proof (forallb_in _ _ _ _ C1 J) as X. cbv beta in X. rewrite B, M, text_eqb_refl in X. discriminate.
    - apply (IH (y :: seen) C2 pre i post eq_refl); auto. cbn [rev] in J. rewrite <- app_assoc in J. exact J. }
  intros l seen C pre i post E j J. eapply G; eauto. apply in_or_app. left. apply in_rev. rewrite rev_involutive. exact J.
Qed.

Lemma spell_comma : forall lab pc nx ops w ks w' r, spell_list lab pc nx ops w ks w' r -> existsb is_comma ops = true -> In TComma ks.
Proof.
  intros lab pc nx ops w ks w' r H. induction H as [w|o ops w ks1 ks2 b r1 r2 w' S H IH]; intros E; [discriminate|].
  cbn [existsb] in E. apply in_or_app. destruct (is_comma o) eqn:C; [left; destruct o; try discriminate C; destruct S as (-> & _); left; reflexivity|right; auto].
Qed.
Lemma spell_no_comma : forall lab pc nx ops w ks w' r, spell_list lab pc nx ops w ks w' r -> forallb no_comma ops = true -> ~ In TComma ks.
Proof.
  intros lab pc nx ops w ks w' r H. induction H as [w|o ops w ks1 ks2 b r1 r2 w' S H IH]; intros E I; [contradiction|].
  cbn [forallb] in E. apply andb_true_iff in E as (E1 & E2). apply in_app_or in I as [I|I]; [|exact (IH E2 I)].
  destruct o; try discriminate E1; cbn [spells] in S.
  - destruct S as (_ & [(-> & _)|(-> & _)]); [destruct I as [I|[]]; discriminate|contradiction].
  - destruct S as (t & [(nm & -> & _)| ->] & _); destruct I as [I|[]]; discriminate.
  - destruct S as (_ & [(k & j & -> & (x & _ & -> & _) & _)|(-> & _)]); [destruct I as [I|[I|[]]]; discriminate|contradiction].
Qed.
Lemma notes_no_comma : forall l ks, notes_tokens l ks -> ~ In TComma ks.
Proof.
  intros l ks H. induction H as [|x l k ks N H IH]; intros I; [contradiction|]. apply in_app_or in I as [I|I]; [|exact (IH I)].
  destruct x; cbn [note_tokens] in N; try (subst k; cbn in I; repeat (destruct I as [I|I]; [discriminate|]); contradiction).
  destruct N as [-> | ->]; cbn in I; repeat (destruct I as [I|I]; [discriminate|]); contradiction.
Qed.
Lemma form_comma : forall lab pc lab' pc' i j gi gn gi' gn' ks op op', existsb is_comma (i_operands j) = true -> forallb no_comma (i_operands i) = true ->
  form_spells lab pc i gi gn ks op -> ~ form_spells lab' pc' j gi' gn' ks op'.
Proof.
  intros lab pc lab' pc' i j gi gn gi' gn' ks op op' C N (ko & kn & notes & w & r & E & _ & S & NT & _) (ko' & kn' & notes' & w' & r' & E' & _ & S' & _).
  assert (I : In TComma ks) by (rewrite E'; apply in_or_app; left; eapply spell_comma; eassumption).
  rewrite E in I. apply in_app_or in I as [I|I]; [exact (spell_no_comma _ _ _ _ _ _ _ _ S N I)|].
  apply in_app_or in I as [I|[I|[]]]; [exact (notes_no_comma _ _ NT I)|discriminate].
Qed.

(** Labels moved by [d]. *)
Section Moved.
  Variables (lab lab' : text -> option Z) (d : Z).
  Hypothesis moved : forall name z, lab name = Some z -> lab' name = Some (z + d).

  Lemma jump_tokens : forall pc nx ops w ks w' r, forallb jump_operand ops = true -> spell_list lab pc nx ops w ks w' r -> ~ In TAt ks /\ ~ In TSemi ks.
  Proof.
    intros pc nx ops w ks w' r E H. induction H as [w|o ops w ks1 ks2 b r1 r2 w' S H IH]; [split; intros []|].
    cbn [forallb] in E. apply andb_true_iff in E as (E1 & E2). destruct (IH E2) as (A & B).
    assert (X : forall k, In k ks1 -> k <> TAt /\ k <> TSemi).
    { intros k I. destruct o; try discriminate E1; cbn [spells] in S.
      - destruct S as (-> & _). destruct I as [<-|[]]. split; discriminate.
      - destruct S as (_ & [(-> & _)|(-> & _)]); [destruct I as [<-|[]]; split; discriminate|contradiction].
      - destruct S as (_ & [(k' & j & -> & (x & _ & -> & _) & _)|(j & -> & _)]); [destruct I as [<-|[]]; split; discriminate|contradiction].
      - destruct S as (t & [(nm & -> & _)| ->] & _); destruct I as [<-|[]]; split; discriminate.
      - destruct S as (_ & [(k' & j & -> & (x & _ & -> & _) & _)|(-> & _)]); [destruct I as [<-|[<-|[]]]; split; discriminate|contradiction]. }
    split; intros I; apply in_app_or in I as [I|I]; try contradiction; destruct (X _ I); contradiction.
  Qed.
  Lemma jump_moved : forall pc nx ops w ks w' r, forallb jump_operand ops = true -> (d = 0 \/ forall z, ~ In (TImm z) ks) ->
    spell_list lab pc nx ops w ks w' r -> spell_list lab' (pc + d) nx ops w ks w' r.
  Proof.
    intros pc nx ops w ks w' r E Z H. induction H as [w|o ops w ks1 ks2 b r1 r2 w' S H IH]; [constructor|].
    cbn [forallb] in E. apply andb_true_iff in E as (E1 & E2). econstructor.
    - destruct o; try discriminate E1; try exact S. cbn [spells] in S |- *. destruct S as (t & K & (R & B) & RR). cbv zeta in R, B.
      exists (t + d). split; [|split; [|exact RR]].
      + destruct K as [(nm & -> & L)| ->]; [left; exists nm; split; [reflexivity|apply moved, L]|].
        destruct Z as [-> |Z]; [right; rewrite Z.add_0_r; reflexivity|]. destruct (Z t). left. reflexivity.
      + cbv zeta. replace (t + d - (pc + d + 8)) with (t - (pc + 8)) by lia. auto.
    - apply IH; [exact E2|]. destruct Z as [Z|Z]; [left; exact Z|]. right. intros z I. apply (Z z), in_or_app. right. exact I.
  Qed.

  Definition symbolic_kinds (ks : list tkind) : Prop :=
    forall pre m mid z post, ks = pre ++ id m :: mid ++ TImm z :: post -> In m jumps -> In TAt mid \/ In TSemi mid.
  Lemma symbolic_tail : forall x ks, symbolic_kinds (x ++ ks) -> symbolic_kinds ks.
  Proof. intros x ks H pre m mid z post -> M. apply (H (x ++ pre) m mid z post); [rewrite app_assoc; reflexivity|exact M]. Qed.

  Lemma form_moved : forall pc i gi gn kg kf rest op, In i table -> (d = 0 \/ symbolic_kinds ((kg ++ id (i_mnemonic i) :: kf) ++ rest)) ->
    form_spells lab pc i gi gn kf op -> form_spells lab' (pc + d) i gi gn kf op.
  Proof.
    intros pc i gi gn kg kf rest op I SY F. destruct (place_bound i) eqn:PB.
    2:{ eapply form_place; [|exact F]. unfold place_bound in PB. apply negb_false_iff in PB. exact PB. }
    pose proof (forallb_in _ _ _ _ jump_forms I) as X. cbv beta in X. rewrite PB in X. apply andb_true_iff in X as (JN & JO).
    destruct F as (ko & kn & notes & w & r & E & A & S & N). exists ko, kn, notes, w, r. split; [exact E|]. split; [exact A|]. split; [|exact N].
    apply jump_moved; [exact JO| |exact S]. destruct SY as [SY|SY]; [left; exact SY|]. right. intros z IZ. apply in_split in IZ as (mid & tl & EK).
    unfold jump_name in JN. apply existsb_exists in JN as (m & MI & ME). apply text_eqb_eq in ME.
    destruct (jump_tokens _ _ _ _ _ _ _ JO S) as (NA & NS).
    destruct (SY kg m mid z (tl ++ (kn ++ [TSemi]) ++ rest)) as [Y|Y]; [|exact MI| |].
    - rewrite E, EK. rewrite <- !app_assoc. unfold id. rewrite ME. cbn [app]. rewrite <- !app_assoc. cbn [app]. rewrite <- !app_assoc. reflexivity.
    - apply NA. rewrite EK. apply in_or_app. left. exact Y.
    - apply NS. rewrite EK. apply in_or_app. left. exact Y.
  Qed.

  Lemma sentence_moved : forall k, (forall n, addr (k + n) = addr n + d) -> forall n ts ss ops, sentence lab n ts ss ops ->
    d = 0 \/ symbolic_kinds (map fst ts) -> sentence lab' (k + n) ts ss ops.
  Proof.
    intros k AD n ts ss ops S. induction S as [n|n s t us v ts ss ops W O N S IH|n pre i post gi gn kg kf us ts ss op ops T G F P M S IH]; intros SY.
    - constructor.
    - apply sentence_option; auto. apply IH. destruct SY as [SY|SY]; [left; exact SY|]. right. cbn [map] in SY. rewrite map_app in SY. eapply (symbolic_tail (fst t :: map fst us)), SY.
    - assert (IT : In i table) by (rewrite T; apply in_or_app; right; left; reflexivity).
      eapply sentence_instruction; try eassumption.
      + rewrite AD. eapply form_moved; [exact IT| |exact F]. destruct SY as [SY|SY]; [left; exact SY|]. right. rewrite map_app, M in SY. exact SY.
      + intros j op' J MN FS. destruct (place_bound j) eqn:PB.
        * destruct (commas_split _ _ table_commas _ _ _ T _ J MN PB) as (C1 & C2). eapply form_comma; eassumption.
        * apply (P j op' J MN). eapply form_place; [|exact FS]. unfold place_bound in PB. apply negb_false_iff in PB. exact PB.
      + rewrite <- plus_n_Sm in IH. apply IH. destruct SY as [SY|SY]; [left; exact SY|]. right. rewrite map_app in SY. eapply symbolic_tail, SY.
  Qed.
End Moved.

Lemma sentence_app : forall lab n ts ss ops, sentence lab n ts ss ops -> forall us ss' ops', sentence lab (n + List.length ops) us ss' ops' ->
  sentence lab n (ts ++ us) (ss ++ ss') (ops ++ ops').
Proof.
  intros lab n ts ss ops S. induction S as [n|n s t us v ts ss ops W O N S IH|n pre i post gi gn kg kf us ts ss op ops T G F P M S IH]; intros vs ss' ops' V.
  - cbn in *. rewrite Nat.add_0_r in V. exact V.
  - cbn [app]. rewrite <- app_assoc. cbn [app]. apply sentence_option; auto. exact (IH _ _ _ V).
  - rewrite <- app_assoc. cbn [app]. eapply sentence_instruction; try eassumption. apply IH. cbn [List.length] in V. rewrite <- plus_n_Sm in V. exact V.
Qed.

(** ** Words *)

Lemma seq_moved : forall m b z, seq (b + z) m = map (fun j => b + j)%nat (seq z m).
Proof. induction m as [|m IH]; intros b z; [reflexivity|]. cbn [seq map]. rewrite <- IH, plus_n_Sm. reflexivity. Qed.
Lemma code_words_app : forall ops1 ops2, (List.length ops1 mod 3 = 0)%nat -> code_words (ops1 ++ ops2) = code_words ops1 ++ code_words ops2.
Proof.
  intros ops1 ops2 H. unfold code_words, layout. rewrite !map_length, app_length.
  assert (E : exists a, List.length ops1 = (3 * a)%nat) by (exists (List.length ops1 / 3)%nat; pose proof (Nat.div_mod (List.length ops1) 3); lia).
  destruct E as (a & EA). rewrite EA.
  replace ((3 * a + List.length ops2 + 2) / 3)%nat with (a + (List.length ops2 + 2) / 3)%nat.
  2:{ replace (3 * a + List.length ops2 + 2)%nat with (List.length ops2 + 2 + a * 3)%nat by lia. rewrite Nat.div_add by lia. lia. }
  replace ((3 * a + 2) / 3)%nat with a by (replace (3 * a + 2)%nat with (2 + a * 3)%nat by lia; rewrite Nat.div_add by lia; reflexivity).
  rewrite Nat.mul_add_distr_l, seq_app, map_app. f_equal.
  - apply map_ext_in. intros j J. apply in_seq in J. unfold layout_word. rewrite !map_app.
    assert (J4 : (j / 4 < a)%nat) by (apply Nat.div_lt_upper_bound; lia).
    assert (RC : forall k, (k < 3 * a)%nat -> record (map (fun op => (sched op, reuse op)) ops1 ++ map (fun op => (sched op, reuse op)) ops2) k = record (map (fun op => (sched op, reuse op)) ops1) k).
    { intros k K. unfold record. rewrite nth_error_app1; [reflexivity|]. rewrite map_length. lia. }
    unfold control_word. rewrite !RC by lia. destruct (Nat.eqb_spec (j mod 4) 0) as [_|NZ]; [reflexivity|].
    pose proof (Nat.mod_upper_bound j 4). rewrite app_nth1; [reflexivity|]. rewrite map_length. lia.
  - change (0 + 4 * a)%nat with (4 * a)%nat. rewrite <- (Nat.add_0_r (4 * a)) at 1. rewrite seq_moved.
    rewrite map_map. apply map_ext. intros j. unfold layout_word. rewrite !map_app.
    replace (4 * a + j)%nat with (j + a * 4)%nat by lia. rewrite Nat.mod_add, Nat.div_add by lia.
    assert (RC : forall k, record (map (fun op => (sched op, reuse op)) ops1 ++ map (fun op => (sched op, reuse op)) ops2) (3 * a + k) = record (map (fun op => (sched op, reuse op)) ops2) k).
    { intros k. unfold record. rewrite nth_error_app2; rewrite map_length; [|lia]. replace (3 * a + k - List.length ops1)%nat with k by lia. reflexivity. }
    destruct (Nat.eqb_spec (j mod 4) 0) as [_|NZ].
    + unfold control_word. replace (3 * (j / 4 + a))%nat with (3 * a + 3 * (j / 4))%nat by lia. rewrite <- !Nat.add_assoc, !RC. reflexivity.
    + rewrite app_nth2; rewrite map_length; [|lia]. f_equal. lia.
Qed.

(** ** Linking *)

Theorem link_parts : forall p q ops1 ops2, line_start p -> part p ops1 -> part q ops2 -> (List.length ops1 mod 3 = 0)%nat ->
  (forall name, defined q name -> ~ defined p name) -> symbolic q -> part (p ++ q) (ops1 ++ ops2).
Proof.
  intros p q ops1 ops2 LS (ts1 & lab1 & L1 & B1 & S1 & C1) (ts2 & lab2 & L2 & B2 & S2 & C2) M D SY.
  set (d := addr (List.length ops1) - addr 0).
  set (lab := fun name => match lab1 name with Some z => Some z | None => match lab2 name with Some z => Some (z + d) | None => None end end).
  exists (ts1 ++ map (fun x => (fst x, snd x + newlines p)) ts2), lab. split; [|split; [|split]].
  - apply lexes_app; [exact L1|eapply sentence_semi, S1|exact LS|]. rewrite Z.add_0_l. rewrite <- (Z.add_0_l (newlines p)) at 1. apply lexes_shift, L2.
  - intros name z. unfold lab. destruct (lab1 name) as [z1|] eqn:E1.
    + split.
      * intros [= <-]. apply B1 in E1 as (r & F & ->). exists r. split; [|reflexivity]. apply first_app; auto.
      * intros (r & F & ->). apply first_app in F; [|exact LS]. destruct F as [F|(N & _)].
        -- assert (X : lab1 name = Some (addr (semis r))) by (apply B1; eauto). congruence.
        -- destruct N. apply B1 in E1 as (r1 & (F1 & _) & _). exists r1. exact F1.
    + pose proof (undefined _ _ _ B1 E1) as U. split.
      * destruct (lab2 name) as [z2|] eqn:E2; [|discriminate]. intros [= <-]. apply B2 in E2 as (r & F & ->). exists (p ++ r). split; [apply first_app; eauto|].
        rewrite semis_app, C1. symmetry. apply addr_shift, M.
      * intros (r & F & ->). apply first_app in F; [|exact LS]. destruct F as [(F & _)|(_ & r' & -> & F)]; [destruct U; exists r; exact F|].
        assert (X : lab2 name = Some (addr (semis r'))) by (apply B2; eauto). rewrite X, semis_app, C1. f_equal. unfold d. symmetry. apply addr_shift, M.
  - change (@nil setting) with (@nil setting ++ []). apply sentence_app.
    + assert (X : sentence lab (0 + 0) ts1 [] ops1); [|exact X]. apply (sentence_moved lab1 lab 0); [|intros n; cbn; lia|exact S1|left; reflexivity].
      intros name z E. unfold lab. rewrite E, Z.add_0_r. reflexivity.
    + eapply sentence_alike; [|apply shift_alike]. cbn [plus]. rewrite <- (Nat.add_0_r (List.length ops1)). apply (sentence_moved lab2 lab d).
      * intros name z E. unfold lab. destruct (lab1 name) as [z1|] eqn:E1; [|rewrite E; reflexivity].
        exfalso. apply B1 in E1 as (r1 & (F1 & _) & _). apply B2 in E as (r2 & (F2 & _) & _). apply (D name); [exists r2; exact F2|exists r1; exact F1].
      * intros n. unfold d. apply addr_shift, M.
      * exact S2.
      * right. intros pre m mid z post E J. eapply SY; eassumption.
  - rewrite semis_app, app_length. congruence.
Qed.

Lemma part_means : forall code ops, part code ops -> means code (code_words ops).
Proof.
  intros code ops (ts & lab & L & B & S & _). exists ts, lab, [], ops. split; [exact L|]. split; [exact B|]. split; [exact S|].
  apply file_raw. left. reflexivity.
Qed.
Lemma optionless_sentence : forall lab n ts ss ops, sentence lab n ts ss ops ->
  (forall pre s post, map fst ts = pre ++ TIdent ("."%char :: s) :: post -> last pre TSemi <> TSemi) -> ss = [].
Proof.
  intros lab n ts ss ops S. induction S as [n|n s t us v ts ss ops W O N S IH|n pre i post gi gn kg kf us ts ss op ops T G F P M S IH]; intros H; [reflexivity| |].
  - exfalso. assert (X : exists x, fst t = TIdent ("."%char :: x)).
    { clear - W. cbn [map] in W. inversion W; eexists; reflexivity. }
    destruct X as (x & X). apply (H [] x (map fst (us ++ v :: ts))); [cbn [map app]; rewrite X; reflexivity|reflexivity].
  - apply IH. intros pr s ps E L. destruct F as (ko & kn & notes & w & r & -> & _).
    apply (H ((kg ++ id (i_mnemonic i) :: ko ++ kn ++ [TSemi]) ++ pr) s ps); [rewrite map_app, M, E, !app_assoc; reflexivity|].
    destruct pr as [|k pr] using rev_ind.
    + rewrite app_nil_r. replace (kg ++ id (i_mnemonic i) :: ko ++ kn ++ [TSemi]) with ((kg ++ id (i_mnemonic i) :: ko ++ kn) ++ [TSemi]) by (rewrite <- !app_assoc; cbn [app]; rewrite <- app_assoc; reflexivity).
      apply last_last.
    + rewrite last_last in L. rewrite app_assoc, last_last. exact L.
Qed.
Theorem part_assembled : forall code w, ~ In NUL code -> optionless code -> assemble true code = Ok w -> exists ops, part code ops /\ w = code_words ops.
Proof.
  intros code w NN OL H. apply assemble_ok in H as (ls & l & y & P & B). pose proof P as (G & D & _).
  destruct (decodes_sentence _ _ _ _ _ D 0 eq_refl) as (tk & ss & TK & SE & AS & ES & AE). cbn [ctx0 c_cur c_opts] in *.
  rewrite (program_emit _ _ _ _ _ P) in B. apply settings_settle in AS.
  assert (LX : lexes code 0 (map lined tk)).
  { apply (tokens_lexes (Cursor code 0 0) tk (c_cur y) TK NN); [|exact AE].
    destruct ES as [->|(k & KE)]; [constructor|]. apply kinds_some. rewrite KE. eapply scan_not_end; [|discriminate]. rewrite <- KE. apply tokens_scan, TK. }
  assert (SN : ss = []) by (eapply optionless_sentence; [exact SE|]; intros pre s post E; eapply OL; eassumption).
  subst ss. apply (binary_file code ls [] (c_opts y) _ NN G AS) in B.
  exists (map snd l). split.
  - exists (map lined tk), (find_label ls). split; [exact LX|]. split; [intros name z; apply (first_definition code ls NN G)|]. split; [exact SE|].
    rewrite map_length. symmetry. apply (debug_count code ls l y P).
  - inversion B as [T|p head T C]; [reflexivity|discriminate].
Qed.
Theorem link_words : forall p q w1 w2, ~ In NUL (p ++ q) -> tame (p ++ q) -> Z.of_nat (List.length (p ++ q)) <= 2 ^ 57 ->
  line_start p -> optionless p -> optionless q -> symbolic q -> (forall name, defined q name -> ~ defined p name) -> (semis p mod 3 = 0)%nat ->
  assemble true p = Ok w1 -> assemble true q = Ok w2 -> assemble false (p ++ q) = Ok (w1 ++ w2).
Proof.
  intros p q w1 w2 NN T SH LS O1 O2 SY D M A1 A2.
  destruct (part_assembled p w1) as (ops1 & P1 & ->); [intros I; apply NN, in_or_app; auto|exact O1|exact A1|].
  destruct (part_assembled q w2) as (ops2 & P2 & ->); [intros I; apply NN, in_or_app; auto|exact O2|exact A2|].
  assert (C : semis p = List.length ops1) by (destruct P1 as (? & ? & _ & _ & _ & C); exact C). rewrite C in M.
  rewrite <- code_words_app by exact M. apply accepted_iff; auto. apply part_means, link_parts; assumption.
Qed.

(** ** Deciding the side conditions *)

Lemma lexed : forall n c ks, all_kinds n c = Some ks -> forall ts, lexes (rest c) (line c) ts -> map fst ts = ks.
Proof.
  induction n as [|n IH]; intros c ks A ts L; [discriminate|]. destruct (lexes_step _ _ L) as (t & c' & T & X).
  cbn [all_kinds] in A. rewrite T in A. destruct X as [(-> & K & R)|(us & -> & H)].
  - rewrite K, R in A. injection A as <-. reflexivity.
  - assert (NK : kind t <> TNone) by (apply (lexes_some _ _ _ L (lined t)); left; reflexivity).
    assert (E : exists ks1, all_kinds n c' = Some ks1 /\ ks = kind t :: ks1).
    { destruct (all_kinds n c') as [ks1|]; [exists ks1|]; destruct (rest c'), (kind t); try contradiction; try discriminate A; injection A as <-; auto. }
    destruct E as (ks1 & E1 & ->). cbn [map lined fst]. f_equal. apply (IH _ _ E1), H.
Qed.
Lemma optionless_decided : forall n code ks, all_kinds n (start code) = Some ks -> starts_plain true ks = true -> optionless code.
Proof.
  intros n code ks A ST ts pre s post L E. rewrite (lexed _ (start code) _ A ts L) in E. subst ks. clear A L.
  enough (G : forall b, starts_plain b (pre ++ TIdent ("."%char :: s) :: post) = true -> b = true \/ pre <> [] -> last pre TSemi <> TSemi) by (apply (G true); auto).
  clear ST. induction pre as [|k pre IH]; intros b ST B; cbn [app starts_plain] in ST; apply andb_true_iff in ST as (S1 & S2).
  - destruct B as [-> |B]; [discriminate|contradiction].
  - destruct pre as [|k' pre]; [|apply (IH _ S2); right; discriminate]. cbn [last]. intros ->. cbn in S2. discriminate.
Qed.
Fixpoint symbolic_b (armed : bool) (ks : list tkind) : bool :=
  match ks with
  | [] => true
  | k :: ks =>
      match k with
      | TImm _ => if armed then false else symbolic_b armed ks
      | TAt | TSemi => symbolic_b false ks
      | TIdent s => if existsb (fun m => text_eqb (lit m) s) jumps then symbolic_b true ks else symbolic_b armed ks
      | _ => symbolic_b armed ks
      end
  end.
Lemma symbolic_decided : forall n code ks, all_kinds n (start code) = Some ks -> symbolic_b false ks = true -> symbolic code.
Proof.
  intros n code ks A ST ts pre m mid z post L E M. rewrite (lexed _ (start code) _ A ts L) in E. subst ks. clear A L.
  assert (G2 : forall l, symbolic_b true (l ++ TImm z :: post) = true -> In TAt l \/ In TSemi l).
  { induction l as [|k l IH]; intros H; [discriminate|]. cbn [app symbolic_b] in H. destruct k; try discriminate; try (destruct (IH H) as [X|X]; [left|right]; right; exact X).
    - destruct (existsb _ jumps); destruct (IH H) as [X|X]; [left|right|left|right]; right; exact X.
    - left. left. reflexivity.
    - right. left. reflexivity. }
  apply G2. clear G2. revert ST. generalize false as b. induction pre as [|k pre IH]; intros b H; cbn [app symbolic_b] in H.
  - unfold id in H. assert (X : existsb (fun m0 => text_eqb (lit m0) (lit m)) jumps = true) by (apply existsb_exists; exists m; split; [exact M|apply text_eqb_refl]).
    rewrite X in H. exact H.
  - destruct k; try (exact (IH _ H)); [destruct (existsb _ jumps); exact (IH _ H)|destruct b; [discriminate|exact (IH _ H)]].
Qed.
Lemma disjoint_decided : forall p q ls1 ls2, ~ In NUL p -> ~ In NUL q -> generate_labels p = Ok ls1 -> generate_labels q = Ok ls2 ->
  forallb (fun x => match find_label ls1 (fst x) with Some _ => false | None => true end) ls2 = true -> forall name, defined q name -> ~ defined p name.
Proof.
  intros p q ls1 ls2 N1 N2 G1 G2 F name D2.
  assert (L1 : labelled p (find_label ls1)) by (intros nm z; apply (first_definition p ls1 N1 G1)).
  assert (L2 : labelled q (find_label ls2)) by (intros nm z; apply (first_definition q ls2 N2 G2)).
  destruct (find_label ls2 name) as [z|] eqn:E; [|destruct (undefined _ _ _ L2 E D2)].
  apply (undefined _ _ _ L1). assert (I : exists v, In (name, v) ls2).
  { clear - E. induction ls2 as [|(k, v) ls IH]; [discriminate|]. cbn [find_label] in E. destruct (text_eqb k name) eqn:X.
    - apply text_eqb_eq in X as ->. exists v. left. reflexivity.
    - destruct (IH E) as (v' & I). exists v'. right. exact I. }
  destruct I as (v & I). pose proof (forallb_in _ _ _ _ F I) as X. cbn [fst] in X. destruct (find_label ls1 name); [discriminate|reflexivity].
Qed.
Definition alike_b (l : list (tkind * (Z * Z))) : bool :=
  forallb (fun x => match fst x with
    | TIdent (ch :: _) => if Ascii.eqb ch "." then forallb (fun y => Bool.eqb (fst (snd y) =? fst (snd x)) (snd (snd y) =? snd (snd x))) l else true
    | _ => true
    end) l.
Lemma alike_decided : forall l, alike_b l = true -> alike (map (fun x => (fst x, fst (snd x))) l) (map (fun x => (fst x, snd (snd x))) l).
Proof.
  intros l H. exists l. split; [reflexivity|]. split; [reflexivity|]. intros x y s X Y D.
  pose proof (forallb_in _ _ _ _ H X) as F. cbv beta in F. rewrite D in F. cbn [Ascii.eqb Bool.eqb] in F.
  pose proof (forallb_in _ _ _ _ F Y) as E. apply Bool.eqb_prop in E.
  destruct (Z.eqb_spec (fst (snd y)) (fst (snd x))), (Z.eqb_spec (snd (snd y)) (snd (snd x))); try discriminate E; split; intros; congruence.
Qed.
(** Lines of the tokens of a text. *)
Fixpoint all_lined (n : nat) (c : cursor) : option (list (tkind * Z)) :=
  match n with
  | O => None
  | S n =>
      match tokenize c with
      | Ok (t, c') =>
          match kind t with
          | TNone => match rest c' with [] => Some [] | _ => None end
          | _ => match all_lined n c' with Some ts => Some (lined t :: ts) | None => None end
          end
      | _ => None
      end
  end.
Lemma all_lined_lexes : forall n c ts, ~ In NUL (rest c) -> all_lined n c = Some ts -> lexes (rest c) (line c) ts.
Proof.
  induction n as [|n IH]; intros c ts N H; [discriminate|]. cbn [all_lined] in H. destruct (tokenize c) as [(t, c')| | | | |] eqn:T; try discriminate.
  destruct (kind t) eqn:K; try (destruct (all_lined n c') as [us|] eqn:A; [|discriminate]; injection H as <-; apply (step_lexes c t c'); [exact N|exact T|congruence|apply IH; [eapply token_nul; eassumption|exact A]]).
  destruct (rest c') eqn:R; [|discriminate]. injection H as <-. apply end_lexes; [exact N|]. exists t, c'. auto.
Qed.
Lemma same_places_decided : forall code code' ls ls', ~ In NUL code -> ~ In NUL code' -> generate_labels code = Ok ls -> generate_labels code' = Ok ls' ->
  (forall name, find_label ls name = find_label ls' name) -> same_places code code'.
Proof.
  intros code code' ls ls' N N' G G' F name n.
  pose proof (first_definition code ls N G name (addr n)) as A. pose proof (first_definition code' ls' N' G' name (addr n)) as B. rewrite F in A.
  assert (I : forall a b, addr a = addr b -> a = b).
  { intros a b E. unfold addr in E. pose proof (Z.div_mod (Z.of_nat a) 3). pose proof (Z.div_mod (Z.of_nat b) 3). 
    pose proof (Z.mod_pos_bound (Z.of_nat a) 3). pose proof (Z.mod_pos_bound (Z.of_nat b) 3). lia. }
  split; intros (p & D & <-).
  - destruct (proj1 B (proj2 A (ex_intro _ p (conj D eq_refl)))) as (p' & D' & E). exists p'. split; [exact D'|]. symmetry. apply I, E.
  - destruct (proj1 A (proj2 B (ex_intro _ p (conj D eq_refl)))) as (p' & D' & E). exists p'. split; [exact D'|]. symmetry. apply I, E.
Qed.
