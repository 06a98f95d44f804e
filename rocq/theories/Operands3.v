(** * Operands3: every operand of the table is written as [SpecOperand] says. *)
From Verif Require Import Base Float Lexer Operand Catalogue Table Parse Spec SpecOperand Bits LexFacts
  ParseFacts Decode Footprint Operands Operands2.
From Coq Require Import Lia.
Local Open Scope string_scope.
Local Open Scope list_scope.
Open Scope Z_scope.

Definition texs_names : list string :=
  ["1D"; "2D"; ""; ""; ""; ""; ""; "ARRAY_2D"; ""; ""; "3D"; ""; "CUBE"; ""].
Section Run.
  Variable ls : labels.
  Variable pc : Z.
  Local Notation env0 := (Env ls pc false).
  Local Notation sp := (spells (find_label ls) pc).

  (** Registers. *)
    Lemma m_texs : forall a, (a + 3 <= 64)%N -> meets ls pc (OTexsType a).
  Proof.
    intros a A.
    assert (P : forall v, (v < 8)%N -> shl64 v a = place v a) by (intros v L; now apply (shl_place _ _ 3)).
    assert (C : forall w, andnot w (shl64 7 a) = N.ldiff w (place 7 a)).
    { intros w. unfold andnot. rewrite P by reflexivity. reflexivity. }
    assert (DC : forall w, negb (N.eqb (N.land (N.shiftr w a) 4) 0) = N.testbit w (a + 2)).
    { intros w. rewrite dc_bit, N.shiftr_spec'. f_equal. lia. }
    assert (FT : forall t, kind_ok (kind t) -> forall s i,
       In (s, i) [("1D", 0); ("2D", 1); ("ARRAY_2D", 7); ("3D", 10); ("CUBE", 12)]%N -> kind t = id s ->
       find_in_table true texs_names "" t = Ok (Some i)).
    { intros t KO s i I K. apply find_some. rewrite K. exists s.
      cbn [In] in I; repeat (destruct I as [I|I]; [injection I as <- <-|]); [..|destruct I];
      (split; [reflexivity|]; split; [reflexivity|]; intros j L Q);
      repeat (destruct j as [|j]; [discriminate Q|]); cbn in L; lia. }
    assert (LB : forall w, (field w a 2 < 4)%N).
    { intros w. apply (field_lt w a 2). }
    start; unfold run_texs_type in *; cbv zeta in *; fold texs_names in *; cbn [s_op s_tok value] in *;
      rewrite ?C, ?DC in *; change (N.land (N.shiftr w a) 3) with (field w a 2) in *.
    - xfind H; [|discriminate H]. destruct (texture_entry _ _ _ F KO) as (s & K & I & NE). clear F.
      unfold set_value in H. cbn [s_tok s_op s_cur value reuse sched] in H. rewrite ?C, ?DC in H.
      assert (LC : (field w a 2 = 0 \/ field w a 2 = 1 \/ field w a 2 = 2 \/ field w a 2 = 3)%N) by (specialize (LB w); lia).
      change (N.land (N.shiftr w a) 3) with (field w a 2) in H.
      destruct LC as [LC|[LC|[LC|LC]]]; rewrite LC in H; destruct (N.testbit w (a + 2)) eqn:B2; inl I;
        try (exfalso; now apply NE); cbn [N.eqb Pos.eqb LOD_NONE LOD_LL LOD_LZ negb orb] in H; try discriminate H; repeat xs H.
      all: match goal with K : kind ?t = id ?s |- _ =>
             let c := match goal with |- context [Opcode (N.lor _ ?c) _ _] => c | _ => constr:(0%N) end in
             let m := eval vm_compute in (c / 2 ^ 53)%N in
             exists [id s], (place m 53), 0%N; split; [mk|]; split;
               [cbn [spells]; rewrite LC, B2; exists s, m; split; [cbn [In texs_codes]; tauto|auto]
               |cbn [clears]; rewrite ?place_0, ?N.lor_0_r; try (change (place m 53) with c); reflexivity] end.
    - destruct S as (s & code & I & -> & -> & ->). rd R. specialize (FT t KO s).
      remember (field w a 2) as lod eqn:EL. remember (N.testbit w (a + 2)) as dc eqn:ED.
      cbn [In texs_codes] in I.
      repeat (destruct I as [I|I]; [try discriminate I; injection I as <- <- <- <-|]); try destruct I;
      (first [rewrite (FT 0%N) by (cbn; auto 8)|rewrite (FT 1%N) by (cbn; auto 8)|rewrite (FT 7%N) by (cbn; auto 8)|
              rewrite (FT 10%N) by (cbn; auto 8)|rewrite (FT 12%N) by (cbn; auto 8)]);
      cbn [bind]; unfold set_value; cbn [s_tok s_op s_cur value reuse sched]; rewrite ?C, ?DC, <- ?ED;
      change (N.land (N.shiftr w a) 3) with (field w a 2); rewrite <- ?EL;
      cbn [N.eqb Pos.eqb LOD_NONE LOD_LL LOD_LZ negb orb]; gg; cbn [clears]; rewrite ?N.lor_0_r; reflexivity.
  Qed.

  (** ** All operands *)

  Definition below (a n : N) : bool := N.leb (a + n) 64.
  Definition keeps (o : opnd) : bool := N.eqb (clears o) 0.
  (** Operands whose fields lie inside the word. *)
  Fixpoint spec_ok (o : opnd) : bool :=
    match o with
    | OComma | OOptText _ | OReqText _ _ _ | OReqTextAfter _ _ _ _ | OUimmExtended | OLabel | OCbuf | OImm20
    | ODimm | OImmAttr | OPatchAttr | OPhysAttr | OXmadSigns | OF2fRounding | OLdcAddress | OLdgSize | OZero
    | OTexsSwizzle => true
    | OFlag _ a | OOptType _ a => below a 1
    | OUint mx a => below a (N.size (Z.to_N mx))
    | OInt n a => below a n
    | ODotTable d a tbl => below a (index_bits d tbl)
    | OReqTable _ a tbl _ => below a (index_bits None tbl)
    | OGpr a | OMirrorGpr a | ODefaultRz a => below a 8
    | OFimm n => N.eqb n 20 || N.eqb n 32
    | OHalf n a nb => (N.eqb n 9 || N.eqb n 16) && below a n && match nb with Some s => below s 1 | None => true end
    | OPred a negable => below a (if negable then 4 else 3)
    | OInvPred a => below a 3
    | OAbs a inner => below a 1 && keeps inner && spec_ok inner
    | OPo a1 a2 => below a1 1 && below a2 1
    | OMemAddress _ addr size shr => below shr size && below addr size && N.leb 1 size
    | OCcTests tests a => below a (index_bits (Some 15%N) tests)
    | OIntFormat u sg a sa _ => below a (N.max (index_bits None u) (index_bits None sg)) && below sa 1
    | OS2r tbl => below 20 (N.max 6 (index_bits None tbl))
    | OSelector _ _ shorts a => below a (N.max 2 (index_bits None shorts))
    | OAtomicSize a | OTexType a | OTexsMode a | OTexsType a => below a 3
    | OSrcFormat a sa => below a 2 && below sa 1
    | OTldsType a => below a 4
    end.
  Ltac bounds := repeat match goal with
    | H : _ && _ = true |- _ => apply andb_true_iff in H; destruct H
    | H : below _ _ = true |- _ => apply N.leb_le in H
    | H : N.leb _ _ = true |- _ => apply N.leb_le in H
    | H : keeps _ = true |- _ => apply N.eqb_eq in H
    | H : _ || _ = true |- _ => apply orb_true_iff in H; destruct H
    | H : N.eqb _ _ = true |- _ => apply N.eqb_eq in H; subst
    end.
  Theorem operand_meets : forall o, spec_ok o = true -> meets ls pc o.
  Proof.
    induction o; cbn [spec_ok]; intros H; bounds;
      first [apply m_comma | apply m_zero | apply m_rz; assumption | apply m_flag; lia | apply m_po; lia
            | apply m_opttype; lia | apply m_opttext | apply m_reqtext | apply m_reqafter | apply m_uint; assumption
            | apply m_int; assumption | apply m_imm20 | apply m_uimm | apply m_label | apply m_dot; assumption
            | apply m_req; assumption | apply m_cc; assumption | apply m_intformat; [assumption|lia]
            | apply m_selector; assumption | apply m_srcformat; [assumption|lia] | apply m_xmad | apply m_f2f
            | apply m_s2r; assumption | apply m_ldg | apply m_atomic; assumption | apply m_textype; assumption
            | apply m_gpr; assumption | apply m_mirror; assumption | apply m_pred; assumption | apply m_invpred; assumption
            | apply m_abs; [lia|assumption|auto] | apply m_fimm; auto | apply m_dimm
            | apply m_half; [auto|destruct neg_bit; bounds; [lia|exact I]]
            | apply m_mem; assumption | apply m_ldc | apply m_cbuf | apply m_immattr | apply m_phys | apply m_patch
            | apply m_texsmode; assumption | apply m_tlds; assumption | apply m_swizzle | apply m_texs; assumption ].
  Qed.

  Theorem run_ops_meets : forall ops, forallb spec_ok ops = true -> forall c t w ru sc c' t' op', kind_ok (kind t) ->
    (run_ops env0 ops (St c t (Opcode w ru sc)) = Ok (St c' t' op') <->
     exists ks w' r, reads t c ks t' c' /\ spell_list (find_label ls) pc (kind t') ops w ks w' r /\
       op' = Opcode w' (N.lor ru r) sc).
  Proof.
    induction ops as [|o ops IH]; intros F c t w ru sc c' t' op' KO; cbn [run_ops].
    - split.
      + intros H. apply ok_st in H as (-> & -> & <-). exists [], w, 0%N. split; [constructor|]. split; [constructor|].
        now rewrite N.lor_0_r.
      + intros (ks & w' & r & R & S & ->). inversion S; subst. rd R. now rewrite N.lor_0_r.
    - cbn [forallb] in F. apply andb_true_iff in F as (F1 & F2). pose proof (operand_meets o F1) as M. split.
      + intros H. apply bind_ok in H as ([c1 t1 op1] & H1 & H2).
        apply M in H1 as (ks1 & b & r1 & R1 & S1 & ->); [|exact KO].
        apply IH in H2 as (ks2 & w' & r2 & R2 & S2 & ->); [|exact F2|eapply reads_ok; eauto].
        exists (ks1 ++ ks2), w', (N.lor r1 r2). split; [eapply reads_app; eauto|]. split.
        * eapply spell_cons; [|exact S2]. rewrite <- (reads_hd _ _ _ _ _ R2). exact S1.
        * now rewrite N.lor_assoc.
      + intros (ks & w' & r & R & S & ->). inversion S; subst. apply reads_split in R as (t1 & c1 & R1 & R2).
        apply bind_ok. exists (St c1 t1 (Opcode (N.lor (N.ldiff w (clears o)) b) (N.lor ru r1) sc)). split.
        * apply M; [exact KO|]. exists ks1, b, r1. split; [exact R1|]. split; [|reflexivity].
          rewrite (reads_hd _ _ _ _ _ R2). assumption.
        * apply IH; [exact F2|eapply reads_ok; eauto|]. exists ks2, w', r2. split; [exact R2|]. split; [assumption|].
          now rewrite N.lor_assoc.
  Qed.
End Run.

Lemma table_spec : forallb (fun i => forallb spec_ok (i_operands i)) table = true.
Proof. vm_compute. reflexivity. Qed.
