(** * Unique: the word of an instruction determines its guard and operands (C49). *)
From Verif Require Import Base Float Lexer Operand Catalogue Table Parse Assemble Spec SpecOperand SpecInsn SpecSame Bits LexFacts
  SchedFuel Param Reach ParseFacts Outcomes Decode Program Footprint Encode Operands Operands3 Quiet Notes Insn Words Clash Recover
  Fields Fields3 Same.
From Coq Require Import Lia.
Local Open Scope string_scope.
Local Open Scope list_scope.
Open Scope Z_scope.

Definition start_mask (i : insn) : N := N.lor (i_opcode i) (range 16 4).
Definition is_late (i : insn) : bool := existsb (String.eqb (i_mnemonic i)) ["TEXS"; "TLDS"].
Lemma table_clean : forallb (fun i => is_late i || clean (unclear_tokens i) (start_mask i) (i_operands i)) table = true.
Proof. vm_compute. reflexivity. Qed.
Lemma table_guard : forallb (fun i => N.eqb (N.land (i_opcode i) (range 16 4)) 0 && N.eqb (N.land (writes (i_operands i)) (range 16 4)) 0) table = true.
Proof. vm_compute. reflexivity. Qed.

Lemma guard_inj : forall gi gn gi' gn', (gi <= 7)%N -> (gi' <= 7)%N -> guard_field gi gn = guard_field gi' gn' -> gi = gi' /\ gn = gn'.
Proof. intros gi [] gi' [] G G' E; unfold guard_field in E; split; try reflexivity; lia. Qed.

Lemma same_all_app : forall q lab lab' pc pc' ops1 ops2 k1 k1' k2 k2',
  same_all q lab lab' pc pc' ops1 k1 k1' -> same_all q lab lab' pc pc' ops2 k2 k2' ->
  same_all q lab lab' pc pc' (ops1 ++ ops2) (k1 ++ k2) (k1' ++ k2').
Proof.
  intros q lab lab' pc pc' ops1 ops2 k1 k1' k2 k2' H1 H2. induction H1; [exact H2|].
  rewrite <- !app_assoc. cbn [app]. constructor; assumption.
Qed.

(** ** Types that replace bits written before *)

Lemma range3_eq : forall w w', field w 53 2 = field w' 53 2 -> N.testbit w 55 = N.testbit w' 55 ->
  N.land w (range 53 3) = N.land w' (range 53 3).
Proof.
  intros w w' F T. apply N.bits_inj. intros k. rewrite !N.land_spec, range_spec.
  destruct (N.leb_spec 53 k) as [L|L]; [|rewrite !andb_false_r; reflexivity].
  destruct (N.ltb_spec k (53 + 3)) as [L'|L']; [|rewrite !andb_false_r; reflexivity]. rewrite !andb_true_r.
  assert (K : k = 53%N \/ k = 54%N \/ k = 55%N) by lia.
  destruct K as [->|[->| ->]]; [| |exact T].
  - apply (f_equal (fun x => N.testbit x 0)) in F. rewrite !field_spec in F. exact F.
  - apply (f_equal (fun x => N.testbit x 1)) in F. rewrite !field_spec in F. exact F.
Qed.
Lemma split_mask : forall w P U, sub w P -> w = N.lor (N.land w (N.ldiff P U)) (N.land w (N.land P U)).
Proof.
  intros w P U S. rewrite sub_spec in S. apply N.bits_inj. intros k. specialize (S k). rewrite N.lor_spec, !N.land_spec, N.ldiff_spec.
  destruct (N.testbit w k); [rewrite S by reflexivity|reflexivity]. destruct (N.testbit U k); reflexivity.
Qed.

Section Late.
  Variable q : bool.
  Variables lab lab' : text -> option Z.
  Variables pc pc' : Z.
  Variables nx nx' : tkind.
  Variables (pre post : list opnd) (ty : opnd) (P0 : N).
  Let P := N.lor P0 (writes pre).
  Hypothesis SO : forallb spec_ok (pre ++ ty :: post) = true.
  Hypothesis SH : forallb sharp (pre ++ ty :: post) = true.
  Hypothesis C1 : clean [] P0 pre = true.
  Hypothesis C2 : clean [] (N.lor P (mask ty)) post = true.
  Hypothesis A1 : N.land (writes post) (mask ty) = 0%N.
  Hypothesis A2 : N.land P (N.ldiff (mask ty) (clears ty)) = 0%N.
  Hypothesis R1 : reuse_mask ty = 0%N.
  Hypothesis R2 : reuse_masks post = 0%N.

  Theorem late_same : forall w ks ks' e r r', sub w P0 -> Forall kind_ok ks -> Forall kind_ok ks' ->
    spell_list lab pc nx (pre ++ ty :: post) w ks e r -> spell_list lab' pc' nx' (pre ++ ty :: post) w ks' e r' -> (q = true -> r = r') ->
    (forall ka wa ra n0 k1 b r1 n1 k2 ka' wa' ra' n0' k1' r1' n1' k2', ks = ka ++ k1 ++ k2 -> ks' = ka' ++ k1' ++ k2' ->
       spell_list lab pc n0 pre w ka wa ra -> spell_list lab' pc' n0' pre w ka' wa' ra' ->
       spells lab pc ty wa k1 n1 b r1 -> spells lab' pc' ty wa' k1' n1' b r1' ->
       N.land wa (N.land P (writes (ty :: post))) = N.land wa' (N.land P (writes (ty :: post)))) ->
    same_all q lab lab' pc pc' (pre ++ ty :: post) ks ks'.
  Proof.
    intros w ks ks' e r r' SW F F' H H' Q T.
    apply spell_app in H as (ka & kr & wa & ra & rr & -> & -> & H1 & H). apply spell_app in H' as (ka' & kr' & wa' & ra' & rr' & -> & -> & H1' & H').
    inversion H as [|? ? ? k1 k2 b r1 r2 ? S H2]; subst. inversion H' as [|? ? ? k1' k2' b' r1' r2' ? S' H2']; subst.
    rewrite !Forall_app in F, F'. destruct F as (F0 & F1 & F2), F' as (F0' & F1' & F2').
    pose proof SO as SO'. rewrite forallb_app in SO'. apply andb_true_iff in SO' as (SO0 & SO'). cbn [forallb] in SO'. apply andb_true_iff in SO' as (SO1 & SO2).
    pose proof SH as SH'. rewrite forallb_app in SH'. apply andb_true_iff in SH' as (SH0 & SH'). cbn [forallb] in SH'. apply andb_true_iff in SH' as (SH1 & SH2).
    assert (X : forall lb p n ka kb wa ra b w1 n' k1 n1 r1 rb, Forall kind_ok ka -> Forall kind_ok kb -> Forall kind_ok k1 ->
      spell_list lb p n pre w ka wa ra -> spells lb p ty wa k1 n1 b r1 -> w1 = N.lor (N.ldiff wa (clears ty)) b ->
      spell_list lb p n' post w1 kb e rb ->
      b = N.land e (mask ty) /\ N.land wa (N.ldiff P (writes (ty :: post))) = N.land e (N.ldiff P (writes (ty :: post))) /\
      sub wa P /\ sub w1 (N.lor P (mask ty)) /\ r1 = 0%N /\ rb = 0%N).
    { clear - SO0 SO1 SO2 SW A1 A2 R1 R2. intros lb p n ka kb wa ra b w1 n' k1 n1 r1 rb F0 F2 F1 H1 S E H2.
      destruct (list_keeps _ _ _ _ _ _ _ _ SO0 F0 H1) as (_ & B1 & _). destruct (list_keeps _ _ _ _ _ _ _ _ SO2 F2 H2) as (B2 & _ & RB).
      pose proof (spells_sub _ _ _ _ _ _ _ _ SO1 F1 S) as SB. pose proof (spells_reuse _ _ _ _ _ _ _ _ S) as RR.
      assert (WA : sub wa P) by (eapply sub_trans; [exact B1|apply sub_lor; [apply sub_lor_l; exact SW|apply sub_lor_r, sub_refl]]).
      split; [|split; [|split; [|split; [|split]]]].
      - rewrite (B2 _ A1), E, N.land_lor_distr_l, (Recover.sub_land _ _ SB).
        replace (N.land (N.ldiff wa (clears ty)) (mask ty)) with (N.land wa (N.ldiff (mask ty) (clears ty))).
        + rewrite (sub_apart _ _ _ WA A2). symmetry. apply N.lor_0_l.
        + apply N.bits_inj. intros k. rewrite !N.land_spec, !N.ldiff_spec. destruct (N.testbit wa k), (N.testbit (mask ty) k), (N.testbit (clears ty) k); reflexivity.
      - assert (D : N.land (writes post) (N.ldiff P (writes (ty :: post))) = 0%N).
        { apply N.bits_inj. intros k. cbn [writes]. rewrite N.land_spec, N.ldiff_spec, !N.lor_spec, N.bits_0.
          destruct (N.testbit (writes post) k), (N.testbit P k), (N.testbit (mask ty) k), (N.testbit (clears ty) k); reflexivity. }
        rewrite (B2 _ D), E. apply N.bits_inj. intros k. rewrite sub_spec in SB. specialize (SB k). cbn [writes].
        rewrite !N.land_spec, !N.lor_spec, !N.ldiff_spec, !N.lor_spec. destruct (N.testbit b k); [rewrite SB by reflexivity|].
        + destruct (N.testbit wa k), (N.testbit P k), (N.testbit (clears ty) k), (N.testbit (writes post) k); reflexivity.
        + destruct (N.testbit wa k), (N.testbit P k), (N.testbit (clears ty) k), (N.testbit (mask ty) k), (N.testbit (writes post) k); reflexivity.
      - exact WA.
      - rewrite E. apply sub_lor; [apply sub_lor_l|apply sub_lor_r; exact SB]. eapply sub_trans; [|exact WA].
        apply sub_spec. intros k. rewrite N.ldiff_spec. destruct (N.testbit wa k); [reflexivity|discriminate].
      - rewrite R1 in RR. unfold sub in RR. rewrite N.ldiff_0_r in RR. exact RR.
      - rewrite R2 in RB. unfold sub in RB. rewrite N.ldiff_0_r in RB. exact RB. }
    destruct (X _ _ _ _ _ _ _ _ _ _ _ _ _ _ F0 F2 F1 H1 S eq_refl H2) as (B & W & SA & SB & -> & ->).
    destruct (X _ _ _ _ _ _ _ _ _ _ _ _ _ _ F0' F2' F1' H1' S' eq_refl H2') as (B' & W' & SA' & SB' & -> & ->).
    assert (b' = b) as -> by congruence. clear B B'.
    specialize (T _ _ _ _ _ _ _ _ _ _ _ _ _ _ _ _ _ eq_refl eq_refl H1 H1' S S').
    assert (wa' = wa) as ->.
    { rewrite (split_mask _ _ (writes (ty :: post)) SA), (split_mask _ _ (writes (ty :: post)) SA'). congruence. }
    rewrite !N.lor_0_r in Q.
    apply same_all_app; [|apply same_cons].
    - eapply list_same; [exact C1|exact SO0|exact SH0|exact SW|exact F0|exact F0'|intros k []|intros k []|exact H1|exact H1'|exact Q].
    - do 4 eexists. exact S.
    - do 4 eexists. exact S'.
    - eapply spells_same; [exact SO1|exact SH1|exact F1|exact F1'|reflexivity|exact S|exact S'|reflexivity].
    - eapply list_same; [exact C2|exact SO2|exact SH2|exact SB|exact F2|exact F2'|intros k []|intros k []|exact H2|exact H2'|reflexivity].
  Qed.
End Late.

Definition texs_pre : list opnd := [op_sample_size 59] ++ [op_texs_mode 53] ++ texs_before.
Definition tlds_pre : list opnd := [op_sample_size 59] ++ [op_tld_lod 53; op_aoffi 54; op_ms 55] ++ texs_before.
Lemma texs_lod : forall lab pc nx gi gn ka wa ra, (gi <= 7)%N -> Forall kind_ok ka ->
  spell_list lab pc nx texs_pre (bare_word texs_form gi gn) ka wa ra -> (field wa 53 2 < 3)%N.
Proof.
  intros lab pc nx gi gn ka wa ra G KA SL.
  destruct (run_bits _ _ texs_form _ _ [op_sample_size 59] [op_texs_mode 53] texs_before _ _ _ _ (range 53 3) G KA eq_refl eq_refl eq_refl SL)
    as (k0 & km & k2 & w0 & w1 & r0 & r1 & -> & S0 & S1 & Z0 & Z1).
  inversion S1 as [|? ? ? ks1 ks2 b r2 r3 ? SO SN]; subst. inversion SN; subst. clear SN S1. rewrite app_nil_r in *.
  cbn [spells op_texs_mode] in SO. destruct SO as (kl & kd & lod & dc & -> & -> & -> & L & D).
  assert (W : N.land wa (range 53 3) = N.land (place (lod + dc) 53) (range 53 3)).
  { rewrite Z1. cbn [clears op_texs_mode]. rewrite N.ldiff_0_r, N.land_lor_distr_l, Z0, N.lor_0_l. reflexivity. }
  rewrite (field_of _ _ _ 53 2 W eq_refl).
  destruct L as [(_ & ->)|[(_ & ->)|(_ & -> & _)]]; destruct D as [(_ & ->)|(_ & -> & _)]; reflexivity.
Qed.
Lemma tlds_lod : forall lab pc nx gi gn ka wa ra, (gi <= 7)%N -> Forall kind_ok ka ->
  spell_list lab pc nx tlds_pre (bare_word tlds_form gi gn) ka wa ra -> N.testbit wa 53 = true -> In (id ".LL") ka.
Proof.
  intros lab pc nx gi gn ka wa ra G KA SL TB.
  destruct (run_bits _ _ tlds_form _ _ [op_sample_size 59] [op_tld_lod 53] (op_aoffi 54 :: op_ms 55 :: texs_before) _ _ _ _ (range 53 1) G KA eq_refl eq_refl eq_refl SL)
    as (k0 & km & k2 & w0 & w1 & r0 & r1 & -> & S0 & S1 & Z0 & Z1).
  inversion S1 as [|? ? ? kl ks b r2 r3 ? SL1 SN]; subst. clear S1. inversion SN; subst. clear SN.
  rewrite app_nil_r in *. cbn [spells op_tld_lod] in SL1.
  destruct SL1 as (_ & [(kk & x & -> & E & ->)|(x & _ & _ & [= ] & _)]). apply in_or_app. right. apply in_or_app. left. left.
  assert (W : N.land wa (range 53 1) = N.land (place x 53) (range 53 1)).
  { rewrite Z1. cbn [clears op_tld_lod]. rewrite N.ldiff_0_r, N.land_lor_distr_l, Z0, N.lor_0_l. reflexivity. }
  rewrite bit_of_field, (field_of _ _ _ 53 1 W eq_refl) in TB.
  pose proof (entry_lt _ _ _ _ E) as L. cbn [List.length] in L. change (N.of_nat 2) with 2%N in L.
  destruct E as (t & E & -> & _). assert (x = 0%N \/ x = 1%N) as [->| ->] by lia; [discriminate TB|].
  injection E as <-. reflexivity.
Qed.

(** ** Forms *)

Theorem form_same : forall q lab lab' pc pc' i gi gn gi' gn' kf kf' op op', In i table -> (gi <= 7)%N -> (gi' <= 7)%N ->
  Forall kind_ok kf -> Forall kind_ok kf' -> form_spells lab pc i gi gn kf op -> form_spells lab' pc' i gi' gn' kf' op' ->
  ~ unclear i kf -> ~ unclear i kf' -> value op = value op' -> (q = true -> reuse op = reuse op') ->
  gi = gi' /\ gn = gn' /\ same_operands q lab lab' pc pc' i kf kf'.
Proof.
  intros q lab lab' pc pc' i gi gn gi' gn' kf kf' op op' I G G' K K' (ko & kn & notes & w & r & -> & _ & S & NT & _ & ->)
    (ko' & kn' & notes' & w' & r' & -> & _ & S' & NT' & _ & ->) U U' V Q. cbn [value reuse] in V, Q. subst w'.
  apply Forall_app in K as (K & _). apply Forall_app in K' as (K' & _).
  pose proof (forallb_in _ _ _ _ table_guard I) as TG. cbn beta in TG. apply andb_true_iff in TG as (TG1 & TG2). apply N.eqb_eq in TG1, TG2.
  pose proof (forallb_in _ _ _ _ table_spec I) as TS. cbn beta in TS.
  pose proof (forallb_in _ _ _ _ table_sharp I) as TH. cbn beta in TH.
  pose proof (forallb_in _ _ _ _ table_clean I) as TC. cbn beta in TC.
  assert (GE : gi = gi' /\ gn = gn').
  { destruct (list_keeps _ _ _ _ _ _ _ _ TS K S) as (A & _). destruct (list_keeps _ _ _ _ _ _ _ _ TS K' S') as (A' & _).
    specialize (A _ TG2). specialize (A' _ TG2). rewrite A in A'. unfold bare_word in A'. rewrite !N.land_lor_distr_l, TG1, !N.lor_0_r in A'.
    apply (f_equal (fun x => field x 16 4)) in A'. rewrite !field_land in A' by apply sub_refl.
    rewrite !field_place in A' by (unfold guard_field; change (2 ^ 4)%N with 16%N; destruct gn, gn'; lia).
    apply guard_inj; assumption. }
  destruct GE as (<- & <-). split; [reflexivity|]. split; [reflexivity|].
  exists ko, kn, ko', kn', notes, notes'. split; [reflexivity|]. split; [reflexivity|]. split; [exact NT|]. split; [exact NT'|].
  pose proof (bare_sub i gi gn G) as SW.
  destruct (is_late i) eqn:L.
  - unfold is_late in L. cbn [existsb] in L. apply orb_true_iff in L as [L|L].
    + apply String.eqb_eq in L. apply texs_only in L; [|exact I]. subst i.
      change (i_operands texs_form) with (texs_pre ++ op_texs_type 53 :: [op_comma; op_texs_swizzle]) in *.
      refine (late_same q lab lab' pc pc' _ _ texs_pre [op_comma; op_texs_swizzle] (op_texs_type 53) (start_mask texs_form)
        eq_refl eq_refl eq_refl eq_refl eq_refl eq_refl eq_refl eq_refl _ _ _ _ _ _ SW K K' S S' Q _).
      intros ka wa ra n0 k1 b r1 n1 k2 ka' wa' ra' n0' k1' r1' n1' k2' -> -> H H' T T'.
      rewrite !Forall_app in K, K'. destruct K as (K & _), K' as (K' & _).
      pose proof (texs_lod _ _ _ _ _ _ _ _ G K H) as B. pose proof (texs_lod _ _ _ _ _ _ _ _ G K' H') as B'.
      cbn [spells op_texs_type] in T, T'. destruct T as (s & c & IN & -> & -> & _), T' as (s' & c' & IN' & -> & E & _).
      apply place_inj in E as <-. change (53 + 2)%N with 55%N in IN, IN'.
      change (N.land (N.lor (start_mask texs_form) (writes texs_pre)) (writes (op_texs_type 53 :: [op_comma; op_texs_swizzle]))) with (range 53 3).
      assert (BB : forallb (fun p => forallb (fun q => match p, q with (s, lod, dc, c), (s', lod', dc', c') =>
        implb (N.ltb lod 3 && N.ltb lod' 3 && N.eqb c c') (N.eqb lod lod' && Bool.eqb dc dc') end)
        texs_codes) texs_codes = true) by reflexivity.
      pose proof (forallb_in _ _ _ _ BB IN) as Z. cbn beta in Z. pose proof (forallb_in _ _ _ _ Z IN') as Z'. cbn beta iota in Z'.
      apply N.ltb_lt in B, B'. rewrite B, B', N.eqb_refl in Z'. cbn [andb implb] in Z'. apply andb_true_iff in Z' as (Z1 & Z2).
      apply N.eqb_eq in Z1. apply eqb_prop in Z2. apply range3_eq; assumption.
    + rewrite orb_false_r in L. apply String.eqb_eq in L. apply tlds_only in L; [|exact I]. subst i.
      change (i_operands tlds_form) with (tlds_pre ++ op_tlds_type 53 :: [op_comma; op_texs_swizzle]) in *.
      refine (late_same q lab lab' pc pc' _ _ tlds_pre [op_comma; op_texs_swizzle] (op_tlds_type 53) (start_mask tlds_form)
        eq_refl eq_refl eq_refl eq_refl eq_refl eq_refl eq_refl eq_refl _ _ _ _ _ _ SW K K' S S' Q _).
      intros ka wa ra n0 k1 b r1 n1 k2 ka' wa' ra' n0' k1' r1' n1' k2' -> -> H H' T T'.
      rewrite !Forall_app in K, K'. destruct K as (K & _), K' as (K' & _).
      pose proof (tlds_lod _ _ _ _ _ _ _ _ G K H) as B. pose proof (tlds_lod _ _ _ _ _ _ _ _ G K' H') as B'.
      cbn [spells op_tlds_type] in T, T'. destruct T as (s & c & IN & -> & -> & _), T' as (s' & c' & IN' & -> & E & _).
      apply place_inj in E as <-. change (53 + 1)%N with 54%N in IN, IN'. change (53 + 2)%N with 55%N in IN, IN'.
      change (N.land (N.lor (start_mask tlds_form) (writes tlds_pre)) (writes (op_tlds_type 53 :: [op_comma; op_texs_swizzle]))) with (range 53 3).
      assert (BB : forallb (fun p => forallb (fun q => match p, q with (s, ll, ao, ms, c), (s', ll', ao', ms', c') =>
        implb (N.eqb c c') (Bool.eqb ao ao' && Bool.eqb ms ms' && String.eqb s s' &&
          (Bool.eqb ll ll' || existsb (String.eqb s) ["3D"; "ARRAY_2D"])) end)
        tlds_codes) tlds_codes = true) by reflexivity.
      pose proof (forallb_in _ _ _ _ BB IN) as Z. cbn beta in Z. pose proof (forallb_in _ _ _ _ Z IN') as Z'. cbn beta iota in Z'.
      rewrite N.eqb_refl in Z'. cbn [implb] in Z'. rewrite !andb_true_iff in Z'. destruct Z' as (((Z1 & Z2) & Z3) & Z4).
      apply eqb_prop in Z1, Z2. apply String.eqb_eq in Z3. subst s'.
      assert (LL : N.testbit wa 53 = N.testbit wa' 53).
      { apply orb_true_iff in Z4 as [Z4|Z4]; [apply eqb_prop in Z4; exact Z4|]. cbn [existsb] in Z4. rewrite orb_false_r in Z4.
        assert (X : forall kz wz kz2 kz3, (N.testbit wz 53 = true -> In (id ".LL") kz) ->
          ~ unclear tlds_form ((kz ++ [id s] ++ kz2) ++ kz3) -> N.testbit wz 53 = false).
        { clear - Z4. intros kz wz kz2 kz3 B U. destruct (N.testbit wz 53); [|reflexivity]. destruct U. right. split; [reflexivity|].
          split; [apply in_or_app; left; apply in_or_app; left; apply B; reflexivity|].
          apply orb_true_iff in Z4 as [Z4|Z4]; apply String.eqb_eq in Z4; subst s; [left|right];
            apply in_or_app; left; apply in_or_app; right; left; reflexivity. }
        rewrite (X _ _ _ _ B U), (X _ _ _ _ B' U'). reflexivity. }
      apply range3_eq; [|exact Z2]. apply N.bits_inj. intros k. rewrite !field_spec.
      destruct (N.ltb_spec k 2); [|reflexivity]. cbn [andb]. assert (k = 0%N \/ k = 1%N) as [->| ->] by lia; assumption.
  - cbn [orb] in TC. eapply list_same; [exact TC|exact TS|exact TH|exact SW|exact K|exact K'| | |exact S|exact S'|exact Q].
    + intros k B J. apply U. left. exists k. split; [exact B|]. apply in_or_app. left. exact J.
    + intros k B J. apply U'. left. exists k. split; [exact B|]. apply in_or_app. left. exact J.
Qed.

Theorem assembled_same : forall q a code ls k i gi gn kf op a' code' ls' k' gi' gn' kf' op',
  assembled a code ls k i gi gn kf op -> assembled a' code' ls' k' i gi' gn' kf' op' ->
  ~ unclear i kf -> ~ unclear i kf' -> value op = value op' -> (q = true -> reuse op = reuse op') ->
  gi = gi' /\ gn = gn' /\ same_operands q (find_label ls) (find_label ls') (addr k) (addr k') i kf kf'.
Proof.
  intros q a code ls k i gi gn kf op a' code' ls' k' gi' gn' kf' op' H H' U U' V Q.
  destruct (assembled_ok _ _ _ _ _ _ _ _ _ H) as (I & K & G & F). destruct (assembled_ok _ _ _ _ _ _ _ _ _ H') as (_ & K' & G' & F').
  eapply form_same; eassumption.
Qed.
