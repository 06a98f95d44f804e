(** * Words: the fields of a word belong to its operands. *)
From Verif Require Import Base Float Lexer Operand Catalogue Table Parse Spec SpecOperand SpecInsn Bits LexFacts
  SchedFuel ParseFacts Footprint Operands Operands2 Operands3 Encode Notes Insn.
From Coq Require Import Lia.
Local Open Scope string_scope.
Local Open Scope list_scope.
Open Scope Z_scope.

(** ** The bits of an operand lie in its mask *)

Lemma place_sub : forall v a n, (v < 2 ^ n)%N -> sub (place v a) (range a n).
Proof.
  intros v a n H. apply sub_spec. intros k Hk. unfold place in Hk. rewrite <- N.shiftl_mul_pow2 in Hk.
  rewrite range_spec. destruct (N.leb_spec a k) as [L|L].
  - rewrite N.shiftl_spec_high' in Hk by exact L. destruct (N.ltb_spec k (a + n)); [reflexivity|].
    rewrite (bits_small v n) in Hk by (auto; lia). discriminate.
  - rewrite N.shiftl_spec_low in Hk by exact L. discriminate.
Qed.
Lemma place_sub' : forall v a n m, (v < 2 ^ n)%N -> (n <= m)%N -> sub (place v a) (range a m).
Proof. intros v a n m H L. eapply sub_trans; [apply place_sub; exact H|apply sub_range; lia]. Qed.
Lemma place_sub_in : forall v a n b m, (v < 2 ^ n)%N -> (b <= a)%N -> (a + n <= b + m)%N -> sub (place v a) (range b m).
Proof. intros v a n b m H L1 L2. eapply sub_trans; [apply place_sub; exact H|apply sub_range; lia]. Qed.
Lemma pow_sub : forall a, sub (2 ^ a) (range a 1).
Proof. intros a. rewrite <- (N.mul_1_l (2 ^ a)). apply (place_sub 1 a 1). reflexivity. Qed.
Lemma flag_sub : forall b a, sub (flag_bit b a) (range a 1).
Proof. intros [] a; [apply pow_sub|apply sub_0]. Qed.
Lemma to_N_mod : forall z n, (Z.to_N (z mod 2 ^ Z.of_N n) < 2 ^ n)%N.
Proof.
  intros z n. assert (P : 0 < 2 ^ Z.of_N n) by (apply Z.pow_pos_nonneg; lia).
  pose proof (Z.mod_pos_bound z _ P). apply N2Z.inj_lt. rewrite Z2N.id, N2Z.inj_pow by lia. change (Z.of_N 2) with 2. lia.
Qed.
Lemma to_N_lt : forall z n, 0 <= z < 2 ^ Z.of_N n -> (Z.to_N z < 2 ^ n)%N.
Proof. intros z n H. apply N2Z.inj_lt. rewrite Z2N.id, N2Z.inj_pow by lia. change (Z.of_N 2) with 2. lia. Qed.

Ltac ss := match goal with
  | |- sub 0%N _ => apply sub_0
  | |- sub (N.lor _ _) _ => apply sub_lor; ss
  | |- sub _ (N.lor _ _) => first [solve [apply sub_lor_l; ss] | solve [apply sub_lor_r; ss]]
  | |- sub (2 ^ ?a) (range ?a 1) => apply pow_sub
  | |- sub (flag_bit _ ?a) (range ?a 1) => apply flag_sub
  | |- sub (place ?v ?a) (range ?a ?n) => apply place_sub; bnd
  end
with bnd := match goal with
  | |- _ => assumption
  | |- (Z.to_N (_ mod 2 ^ Z.of_N ?n) < 2 ^ ?n)%N => apply to_N_mod
  | H : entry ?tbl _ _ ?i |- (?i < 2 ^ index_bits ?d ?tbl)%N => apply index_lt; eapply entry_lt; exact H
  | |- (?i < 2 ^ index_bits (Some ?i) _)%N => apply default_lt
  | |- (Z.to_N ?z < 2 ^ ?n)%N => apply to_N_lt; lia
  | |- (?i < 2 ^ ?n)%N => reflexivity
  end.

Lemma reg_kind : forall a ks nx n r, register a ks nx n r -> Forall kind_ok ks -> (n < 2 ^ 8)%N.
Proof.
  intros a ks nx n r [(-> & _)|(-> & _)] F; inversion F as [|? ? K]; subst; change (n <= 255)%N in K; change (2 ^ 8)%N with 256%N; lia.
Qed.
Lemma list_lt : forall A (l : list (A * N)) s v n, In (s, v) l -> forallb (fun p => N.ltb (snd p) n) l = true -> (v < n)%N.
Proof. intros A l s v n I F. rewrite forallb_forall in F. apply N.ltb_lt. apply (F _ I). Qed.
Lemma memory_sub : forall imm addr size shr ks b r, Forall kind_ok ks -> memory imm addr size shr ks b r ->
  sub b (N.lor (range 8 8) (if imm then range addr size else 0%N)).
Proof.
  intros imm addr size shr ks b r F (kr & ki & n & o & -> & R & O & ->).
  assert (L : (n < 2 ^ 8)%N).
  { inversion F as [|? ? _ F1]; subst. apply Forall_app in F1 as (F1 & _).
    destruct R as [(-> & -> & _)|[(-> & _)|(-> & _)]]; [reflexivity| |]; inversion F1 as [|? ? K]; subst;
      change (n <= 255)%N in K; change (2 ^ 8)%N with 256%N; lia. }
  apply sub_lor; [apply sub_lor_l, place_sub; exact L|]. apply sub_lor_r.
  destruct O as [(_ & ->)|(-> & _)].
  - rewrite Z.div_0_l, Z.mod_0_l by (apply Z.pow_nonzero; lia). apply sub_0.
  - apply place_sub, to_N_mod.
Qed.
Lemma single_lt : forall ks f, single ks f -> Forall kind_ok ks -> (f < 2 ^ 32)%N.
Proof.
  intros ks f [->|[(z & -> & ->)|[(neg & _ & ->)|(neg & _ & ->)]]] F.
  - inversion F as [|? ? K]; subst. apply f32_ok_lt. exact K.
  - apply f32_ok_lt, f32_of_Z_ok.
  - destruct neg; reflexivity.
  - destruct neg; reflexivity.
Qed.
Lemma spells_sub : forall lab pc o w ks nx b r, spec_ok o = true -> Forall kind_ok ks ->
  spells lab pc o w ks nx b r -> sub b (mask o).
Proof.
  intros lab pc o. induction o; intros w ks nx b r SO F H; cbn [spells mask spec_ok] in *.
  - destruct H as (_ & -> & _). ss.
  - destruct H as (_ & [(_ & ->)|(_ & _ & ->)]); ss.
  - destruct H as (z & _ & B & -> & _). apply place_sub. apply size_lt. lia.

  - destruct H as (z & _ & _ & -> & _). ss.
  - destruct H as (_ & [(k & i & _ & E & ->)|(i & _ & _ & -> & ->)]); ss.
  - destruct H as (k & i & _ & E & -> & _). ss.
  - destruct H as (_ & -> & _). apply sub_refl.
  - destruct H as (_ & -> & _). apply sub_refl.
  - destruct H as (_ & -> & _). ss.
  - destruct H as (z & _ & B & -> & _). apply sub_lor; [apply sub_lor_r, flag_sub|]. apply sub_lor_l.
    destruct (Z.leb_spec (2 ^ 19) z).
    + apply (place_sub_in _ 20 20); [apply to_N_lt; change (Z.of_N 20) with 20; lia|lia|lia].
    + apply (place_sub_in _ 20 20); [apply to_N_lt; change (Z.of_N 20) with 20; lia|lia|lia].
  - destruct H as (tg & _ & (_ & ->) & _). change (2 ^ 24) with (2 ^ Z.of_N 24). ss.
  - destruct H as (n & R & ->). apply place_sub. eapply reg_kind; eauto.
  - destruct H as (n & _ & _ & ->). ss.
  - destruct H as (bank & off & _ & B & O & _ & -> & _).
    apply sub_lor; [apply sub_lor_l, place_sub, to_N_lt; change (Z.of_N 5) with 5; lia|].
    apply sub_lor_r, place_sub, to_N_lt. change (Z.of_N 14) with 14. pose proof (Z.mod_pos_bound off (2 ^ 16)).
    split; [apply Z.div_pos; lia|]. apply Z.div_lt_upper_bound; lia.
  - destruct H as (z & _ & _ & -> & _). change (2 ^ 19) with (2 ^ Z.of_N 19). ss.
  - destruct H as (f & SI & _ & B). apply single_lt in SI; [|exact F].
    destruct (N.eqb bits 20).
    + subst b. apply sub_lor.
      * apply sub_lor_l, place_sub. apply N.div_lt_upper_bound; [discriminate|]. apply N.mod_lt. discriminate.
      * apply sub_lor_r, place_sub. apply N.div_lt_upper_bound; [discriminate|]. exact SI.
    + subst b. ss.
  - destruct H as (mag & neg & D & -> & _). apply sub_lor; [|ss]. apply sub_lor_l, place_sub.
    apply N.div_lt_upper_bound; [discriminate|]. change (2 ^ 44 * 2 ^ 19)%N with (2 ^ 63)%N.
    destruct D as [(f & _ & -> & _)|[(z & _ & -> & _)|[(_ & ->)|(_ & ->)]]]; try reflexivity; apply N.mod_lt; discriminate.
  - destruct H as (h & neg & sp & HH & _ & B).
    assert (HL : (h < 2 ^ 16)%N).
    { destruct HH as [(f & _ & -> & _)|[(z & _ & -> & _)|[(_ & -> & _)|(_ & -> & _)]]]; try reflexivity; apply fp16_lt. }
    assert (N9 : forall h, (h mod 2 ^ 15 / 2 ^ 6 < 2 ^ 9)%N).
    { intros x. apply N.div_lt_upper_bound; [discriminate|]. apply N.mod_lt. discriminate. }
    destruct neg_bit as [s|].
    + subst b. apply sub_lor; [apply sub_lor_r, flag_sub|]. apply sub_lor_l.
      destruct (N.eqb bits 9); apply place_sub; [apply N9|exact HL].
    + apply sub_lor_l. destruct (N.eqb bits 9); subst b; apply place_sub; [apply N9|].
      destruct (sp && neg) eqn:S; [|exact HL]. apply andb_true_iff in S as (-> & ->).
      destruct HH as [(f & _ & -> & [= ] & _)|[(z & _ & -> & [= ] & _)|[(_ & -> & _)|(_ & -> & _)]]]; reflexivity.
  - destruct H as (i & neg & -> & _ & B). inversion F as [|? ? K]; subst. change (i <= 7)%N in K.
    assert (IL : (i < 2 ^ 3)%N) by (change (2 ^ 3)%N with 8%N; lia).
    destruct negable.
    + subst b. apply sub_lor; [eapply place_sub_in; [exact IL|lia|lia]|].
      eapply sub_trans; [apply flag_sub|]. apply sub_range; lia.
    + destruct B as (_ & ->). ss.
  - destruct H as (i & -> & -> & _). inversion F as [|? ? K]; subst. change (i <= 7)%N in K.
    apply place_sub. change (2 ^ 3)%N with 8%N. lia.
  - destruct H as (_ & [(k & _ & _ & ->)|(_ & _ & ->)]); ss.
  - apply andb_true_iff in SO as (SO & SI). destruct H as [(ks' & b' & -> & H & ->)|(_ & H)].
    + apply sub_lor; [ss|]. apply sub_lor_r. eapply IHo; [exact SI| |exact H].
      inversion F as [|? ? _ F1]; subst. apply Forall_app in F1 as (F1 & _). exact F1.
    + apply sub_lor_r. eapply IHo; eauto.
  - destruct H as (_ & [(_ & ->)|(_ & _ & ->)]); ss.
  - destruct H as (_ & -> & _). ss.
  - eapply memory_sub; eauto.
  - destruct H as (_ & [(k & i & _ & E & ->)|(_ & _ & ->)]); ss.
  - destruct H as (z & _ & B & -> & _). ss.
  - destruct H as (kr & kp & z & n & -> & R & _ & _ & ->). change (2 ^ 11) with (2 ^ Z.of_N 11).
    assert (n < 2 ^ 8)%N. { eapply reg_kind; [exact R|]. inversion F as [|? ? _ F1]; subst. inversion F1 as [|? ? _ F2]; subst.
      apply Forall_app in F2 as (F2 & _). exact F2. }
    ss.
  - destruct H as (kr & n & -> & R & ->).
    apply place_sub. eapply reg_kind; [exact R|]. inversion F as [|? ? _ F1]; subst. inversion F1 as [|? ? _ F2]; subst.
      apply Forall_app in F2 as (F2 & _). exact F2.
  - destruct H as (_ & [(s1 & s2 & _ & ->)|(_ & _ & _ & ->)]); [|ss].
    apply sub_lor; (eapply sub_trans; [apply flag_sub|apply sub_range; lia]).
  - destruct H as (_ & [(s & v & I & _ & ->)|(_ & _ & ->)]); [|ss].
    destruct (N.eqb _ _); cbn [In rounding_same rounding_convert] in I;
      repeat (destruct I as [I|I]; [injection I as _ <-; reflexivity|]); destruct I.
  - destruct H as (k & i & _ & _ & [(E & ->)|(_ & E & ->)]).
    + apply sub_lor_l. eapply place_sub'; [apply (index_lt i None); eapply entry_lt; exact E|lia].
    + apply sub_lor; [ss|]. apply sub_lor_l. eapply place_sub'; [apply (index_lt i None); eapply entry_lt; exact E|lia].
  - destruct H as (bank & km & b' & -> & B & M & ->).
    assert (FK : Forall kind_ok km) by (do 4 (inversion F as [|? ? _ F1]; subst; clear F; rename F1 into F); exact F).
    apply memory_sub in M; [|exact FK]. apply sub_lor; [apply sub_lor_l, place_sub, to_N_lt; change (Z.of_N 5) with 5; lia|].
    apply sub_lor_r. exact M.
  - destruct H as (_ & H).
    assert (SM : forall v, (v < 2 ^ 6)%N -> sub (place v 20) (range 20 (N.max 6 (index_bits None tbl)))).
    { intros v V. eapply place_sub'; [exact V|lia]. }
    destruct H as [(s & v & I & _ & ->)|[(_ & _ & ->)|[(s & v & I & _ & ->)|(k & i & _ & _ & _ & E & ->)]]].
    + apply SM. eapply list_lt; [exact I|reflexivity].
    + apply SM. reflexivity.
    + apply SM. eapply list_lt; [exact I|reflexivity].
    + eapply place_sub'; [apply (index_lt i None); eapply entry_lt; exact E|lia].
  - destruct H as (_ & [(s & v & I & _ & ->)|[(_ & ->)|(_ & _ & ->)]]); [|ss|ss].
    apply place_sub. eapply list_lt; [exact I|reflexivity].
  - destruct H as (_ & [(k & i & _ & E & ->)|(_ & _ & ->)]); [|ss]. destruct (N.eqb _ _).
    + eapply place_sub'; [apply (index_lt i None); eapply entry_lt; exact E|lia].
    + eapply place_sub'; [apply (index_lt i None); eapply entry_lt; exact E|]. change (index_bits None ["B0"; "B1"; "B2"; "B3"]) with 2%N. lia.
  - destruct H as (_ & [(s & v & I & _ & ->)|[(_ & ->)|[(_ & ->)|(_ & _ & ->)]]]); [|ss|ss|ss].
    apply place_sub. eapply list_lt; [exact I|reflexivity].
  - assert (E4 : forall l p k i, entry l p k i -> List.length l = 4%nat -> (i < 2 ^ 2)%N).
    { intros l p k i E L. apply entry_lt in E. rewrite L in E. exact E. }
    destruct H as (_ & [(k & i & _ & E & ->)|[(k & i & _ & _ & E & ->)|(_ & _ & _ & ->)]]).
    + apply E4 in E; [|reflexivity]. ss.
    + apply E4 in E; [|reflexivity]. ss.
    + ss.
  - destruct H as (s & v & I & _ & -> & _). apply place_sub. eapply list_lt; [exact I|reflexivity].
  - destruct H as (_ & -> & _). ss.
  - destruct H as (kl & kd & lod & dc & _ & -> & _ & L & D). apply place_sub.
    destruct L as [(_ & ->)|[(_ & ->)|(_ & -> & _)]]; destruct D as [(_ & ->)|(_ & -> & _)]; reflexivity.
  - destruct H as (s & code & I & _ & -> & _). apply place_sub. eapply list_lt; [exact I|reflexivity].
  - destruct H as (s & code & I & _ & -> & _). apply sub_lor_r, place_sub. eapply list_lt; [exact I|reflexivity].
  - destruct H as (s & v & I & _ & -> & _). apply place_sub.
    destruct (N.eqb _ _); (eapply list_lt; [exact I|reflexivity]).
Qed.
