(** * Container: the output of a program with options. *)
From Verif Require Import Base Float Lexer Operand Catalogue Table Parse Assemble Spec SpecOperand SpecInsn SpecOpts SpecContainer Bits LexFacts
  SchedFuel Param Reach ParseFacts Outcomes Decode Emit Program Footprint Encode Layout Operands Stream Opts.
From Coq Require Import Lia ZifyNat.
Local Open Scope string_scope.
Local Open Scope list_scope.
Open Scope Z_scope.

(** ** Rounding *)

Lemma land_high : forall x k, (k <= 64)%N -> (x < two64)%N -> N.land x (two64 - 2 ^ k) = (2 ^ k * (x / 2 ^ k))%N.
Proof.
  intros x k K B.
  assert (E : (two64 - 2 ^ k)%N = N.ldiff (N.ones 64) (N.ones k)).
  { rewrite <- N.sub_nocarry_ldiff.
    - rewrite !N.ones_equiv. change two64 with (2 ^ 64)%N. pose proof (N.pow_le_mono_r 2 k 64 ltac:(lia) K). pose proof (N.pow_nonzero 2 k ltac:(lia)). lia.
    - apply N.bits_inj. intros i. rewrite N.ldiff_spec, N.bits_0. destruct (N.lt_ge_cases i k).
      + rewrite (N.ones_spec_low k), (N.ones_spec_low 64) by lia. reflexivity.
      + rewrite (N.ones_spec_high k) by lia. reflexivity. }
  rewrite E. replace (N.land x (N.ldiff (N.ones 64) (N.ones k))) with (N.ldiff (N.land x (N.ones 64)) (N.ones k)).
  - rewrite N.land_ones. change (2 ^ 64)%N with two64. rewrite N.mod_small by exact B. rewrite N.ldiff_ones_r, N.shiftl_mul_pow2, N.shiftr_div_pow2. lia.
  - apply N.bits_inj. intros i. rewrite N.ldiff_spec, !N.land_spec, N.ldiff_spec, andb_assoc. reflexivity.
Qed.
(** The rounded size as a machine word. *)
Lemma align_word : forall z k, (k <= 32)%N ->
  Z.of_N (N.land ((u64_of_Z z + (2 ^ k - 1)) mod two64) (two64 - 2 ^ k)) mod 2 ^ 32 = round_up (2 ^ Z.of_N k) z mod 2 ^ 32.
Proof.
  intros z k K. rewrite land_high by (try lia; apply N.mod_lt; discriminate).
  unfold u64_of_Z, round_up. set (m := Z.of_N k) in *.
  assert (P : 0 < 2 ^ m) by (apply Z.pow_pos_nonneg; lia).
  assert (PK : Z.of_N (2 ^ k) = 2 ^ m) by (rewrite N2Z.inj_pow; reflexivity).
  assert (PN : (1 <= 2 ^ k)%N) by lia.
  rewrite N2Z.inj_mul, N2Z.inj_div, N2Z.inj_mod, N2Z.inj_add, N2Z.inj_sub, PK by lia.
  rewrite Z2N.id by (apply Z.mod_pos_bound; reflexivity). change (Z.of_N 1) with 1. change (Z.of_N two64) with (2 ^ 64).
  rewrite Zplus_mod_idemp_l. replace (z + 2 ^ m - 1) with (z + (2 ^ m - 1)) by lia. set (x := z + (2 ^ m - 1)).
  assert (S : 2 ^ 64 = 2 ^ m * 2 ^ (64 - m)) by (rewrite <- Z.pow_add_r by lia; f_equal; lia).
  assert (P2 : 0 < 2 ^ (64 - m)) by (apply Z.pow_pos_nonneg; lia).
  assert (E : x mod 2 ^ 64 / 2 ^ m = (x / 2 ^ m) mod 2 ^ (64 - m)).
  { rewrite S, Z.rem_mul_r by lia. rewrite Z.add_comm, Z.mul_comm, Z.div_add_l by lia.
    rewrite (Z.div_small (x mod 2 ^ m)) by (apply Z.mod_pos_bound; lia). lia. }
  rewrite E, <- Z.mul_mod_distr_l by lia. rewrite <- S.
  replace (2 ^ 64) with (2 ^ 32 * 2 ^ 32) by reflexivity. rewrite Z.rem_mul_r by lia.
  rewrite Z.mul_comm with (n := 2 ^ 32), Z.mod_add by lia. apply Z.mod_mod. lia.
Qed.
Lemma align256_word : forall z, u32 (align256 (u64_of_Z z)) = uint32 (round_up 256 z).
Proof.
  intros z. pose proof (align_word z 8 ltac:(lia)) as H. unfold uint32. change (2 ^ Z.of_N 8) with 256 in H. rewrite <- H.
  unfold u32, align256. change (2 ^ 8)%N with 256%N. change (256 - 1)%N with 255%N. change (2 ^ 32) with (Z.of_N two32). rewrite <- N2Z.inj_mod, N2Z.id. reflexivity.
Qed.
Lemma align256_nat : forall n, u32 (align256 (N.of_nat n * 8)) = uint32 (round_up 256 (8 * Z.of_nat n)).
Proof.
  intros n. rewrite <- align256_word. unfold align256, u32. f_equal. f_equal. unfold u64_of_Z.
  replace (8 * Z.of_nat n) with (Z.of_N (N.of_nat n * 8)) by lia. rewrite <- N2Z.inj_mod, N2Z.id.
  rewrite N.add_mod_idemp_l by discriminate. reflexivity.
Qed.
Lemma align16_word : forall z, s32_of_Z (Z.of_N (align8 (u64_of_Z z))) = int32 (round_up 16 z).
Proof.
  intros z. rewrite s32_int32. unfold int32. pose proof (align_word z 4 ltac:(lia)) as H. change (2 ^ Z.of_N 4) with 16 in H.
  rewrite Zplus_mod. unfold align8. change (2 ^ 4)%N with 16%N in H. change (16 - 1)%N with 15%N in H. rewrite H. rewrite <- Zplus_mod. reflexivity.
Qed.
Lemma int32_bound : forall z, - 2 ^ 31 <= int32 z < 2 ^ 31.
Proof. intros z. unfold int32. pose proof (Z.mod_pos_bound (z + 2 ^ 31) (2 ^ 32) ltac:(reflexivity)). lia. Qed.
Lemma int32_small : forall z, - 2 ^ 31 <= z < 2 ^ 31 -> int32 z = z.
Proof. intros z H. unfold int32. rewrite Z.mod_small; lia. Qed.

(** ** Packing *)

Lemma half_next : forall k, (S (S k) / 2 = S (k / 2))%nat.
Proof. intros k. replace (S (S k)) with (1 * 2 + k)%nat by lia. rewrite Nat.div_add_l by lia. reflexivity. Qed.
Lemma pack_word32 : forall n l k, (List.length l <= n)%nat -> Forall (fun v => (v < 2 ^ 32)%N) l -> word32 (pack_words l) k = nth k l 0%N.
Proof.
  induction n as [|n IH]; intros l k L F; unfold word32.
  - destruct l; [|cbn in L; lia]. cbn [pack_words]. destruct (k / 2)%nat; destruct k; cbn [nth]; unfold field; rewrite N.shiftr_0_l; reflexivity.
  - destruct l as [|x [|y l]].
    + cbn [pack_words]. destruct (k / 2)%nat; destruct k; cbn [nth]; unfold field; rewrite N.shiftr_0_l; reflexivity.
    + apply Forall_inv in F. cbn [pack_words]. destruct k as [|[|k]].
      * cbn [nth Nat.div Nat.divmod fst Nat.modulo snd Nat.sub]. change (32 * N.of_nat 0)%N with 0%N. unfold field. rewrite N.shiftr_0_r, N.land_ones. apply N.mod_small, F.
      * cbn [nth Nat.div Nat.divmod fst Nat.modulo snd Nat.sub]. unfold field. change (32 * N.of_nat 1)%N with 32%N. rewrite N.shiftr_div_pow2, N.div_small by exact F. reflexivity.
      * replace (S (S k) / 2)%nat with (S (k / 2)) by (symmetry; apply half_next).
        cbn [nth]. destruct (k / 2)%nat; destruct k; unfold field; rewrite N.shiftr_0_l; reflexivity.
    + pose proof (Forall_inv F) as FX. pose proof (Forall_inv (Forall_inv_tail F)) as FY. cbn [pack_words].
      destruct k as [|[|k]].
      * cbn [nth Nat.div Nat.divmod fst Nat.modulo snd Nat.sub]. change (32 * N.of_nat 0)%N with 0%N. unfold field.
        rewrite N.shiftr_0_r, N.land_lor_distr_l, !N.land_ones, N.shiftl_mul_pow2, N.mod_mul by discriminate. rewrite N.mod_small by exact FX. apply N.lor_0_r.
      * cbn [nth Nat.div Nat.divmod fst Nat.modulo snd Nat.sub]. unfold field. change (32 * N.of_nat 1)%N with 32%N.
        rewrite N.shiftr_lor, N.shiftr_shiftl_l by lia. change (32 - 32)%N with 0%N. rewrite N.shiftl_0_r.
        rewrite N.shiftr_div_pow2, N.div_small by exact FX. rewrite N.lor_0_l, N.land_ones. apply N.mod_small, FY.
      * replace (S (S k) / 2)%nat with (S (k / 2)) by (symmetry; apply half_next).
        replace (S (S k) mod 2)%nat with (k mod 2)%nat by (replace (S (S k)) with (k + 1 * 2)%nat by lia; rewrite Nat.mod_add by lia; reflexivity).
        cbn [nth]. apply (IH l k); [cbn in L; lia|apply Forall_inv_tail, Forall_inv_tail in F; exact F].
Qed.

(** ** The header *)

Lemma local_word : forall l o, settles l o -> s32_of_Z (Z.of_N (align8 (u64_of_Z (o_local o)))) = int32 (local_size l).
Proof. intros l o (_ & _ & _ & _ & -> & _). rewrite align16_word. reflexivity. Qed.
Lemma local_bound : forall l, - 2 ^ 31 <= local_size l <= 2 ^ 31.
Proof.
  intros l. unfold local_size, round_up. pose proof (int32_bound (latest local_of 0 l)) as B. set (z := int32 _) in *. clearbody z.
  pose proof (Z.div_mod (z + 16 - 1) 16 ltac:(lia)) as D. pose proof (Z.mod_pos_bound (z + 16 - 1) 16 ltac:(lia)) as M.
  set (q := (z + 16 - 1) / 16) in *. lia.
Qed.
Lemma scratch_ok : forall l, (scratch_fits l /\ scratch_size (int32 (local_size l)) = Ok (scratch l) /\ int32 (local_size l) = local_size l) \/
  (~ scratch_fits l /\ scratch_size (int32 (local_size l)) = Undef UB_signed_overflow).
Proof.
  intros l. pose proof (local_bound l) as B. unfold scratch_size, scratch_fits, scratch, INT32_MIN, INT32_MAX. set (z := local_size l) in *. clearbody z.
  destruct (Z.eq_dec z (2 ^ 31)) as [->|N].
  - right. split; [lia|]. reflexivity.
  - rewrite int32_small by lia.
    destruct (Z.ltb_spec (z * 32) (-2147483648)); [right; split; [lia|reflexivity]|].
    destruct (Z.ltb_spec 2147483647 (z * 32)); [right; split; [lia|reflexivity]|].
    destruct (Z.ltb_spec 2147483647 (z * 32 + 2048)); [right; split; [lia|reflexivity]|].
    left. cbn [orb]. split; [lia|]. split; [f_equal; lia|reflexivity].
Qed.

Lemma dksh_outcome : forall ls o l n, settles l o -> o_type o = Some 5%N ->
  write_dksh ls o (N.of_nat n) =
  match find_label ls (lit "main") with
  | None => fatal_plain entry_message
  | Some entry =>
      if negb (Z.rem entry 32 =? 8) then fatal_plain "entrypoint is not aligned"
      else let* _ := scratch_size (int32 (local_size l)) in
           Ok (pack_words (header_fields l entry n ++ repeat 0%N 44))
  end.
Proof.
  intros ls o l n S T. unfold write_dksh. rewrite T. destruct (find_label ls (lit "main")) as [entry|]; [|reflexivity].
  destruct (negb (Z.rem entry 32 =? 8)); [reflexivity|]. cbv zeta. rewrite (local_word _ _ S).
  destruct (scratch_ok l) as [(F & -> & E)|(_ & ->)]; [|reflexivity]. cbn [bind]. rewrite E.
  destruct S as (_ & _ & _ & G & _ & SH & DM). rewrite SH, G, DM, align256_word, align256_nat. unfold header_fields.
  destruct (latest group_of (1, 1, 1) l) as ((x, y), z). reflexivity.
Qed.

(** Everything that can happen when the writer is reached. *)
Theorem container_outcome : forall a code ls l y ss, program a code ls l y ->
  options_before (start code) (map (fun p => c_cur (fst p)) l) ss ->
  let opts := List.concat ss in
  let out := layout (recs (map snd l)) (words (map snd l)) in
  assemble a code =
  binary ls (c_opts y) out /\
  (types opts = [] -> ~ container opts /\ assemble a code = Ok out) /\
  (forall ty, In ty (types opts) -> ty <> 5%N -> forall w, assemble a code <> Ok w) /\
  (types opts = [5%N] -> ~ container opts -> assemble a code = Ok out) /\
  (types opts = [5%N] -> container opts ->
    match find_label ls (lit "main") with
    | None => assemble a code = Fatal (Diag None entry_message)
    | Some entry =>
        (Z.rem entry 32 <> 8 -> assemble a code = Fatal (Diag None "entrypoint is not aligned")) /\
        (Z.rem entry 32 = 8 -> ~ scratch_fits opts -> assemble a code = Undef UB_signed_overflow) /\
        (Z.rem entry 32 = 8 -> scratch_fits opts -> assemble a code =
           Ok (pack_words (header_fields opts entry (List.length out) ++ repeat 0%N 44) ++ out ++ repeat 0%N (padding (List.length out))))
    end).
Proof.
  intros a code ls l y ss P OB opts out. destruct (program_options _ _ _ _ _ P) as (ss' & OB' & S).
  rewrite <- (options_before_unique _ _ _ _ OB OB') in S. fold opts in S. clear ss' OB'.
  assert (E : assemble a code = binary ls (c_opts y) out).
  { unfold assemble. destruct P as (G & D & A). rewrite G. cbn [bind].
    change (Ctx (Cursor code 0 0) 0 options0) with (ctx0 code).
    rewrite (decode_loop_complete a ls _ _ l y D).
    - cbn [bind rev app]. rewrite (program_emit a code ls l y) by (split; [|split]; assumption). reflexivity.
    - cbn; lia.
    - cbn. rewrite count_semi_semis. lia.
    - intros Ha. rewrite count_semi_semis, (A Ha). reflexivity. }
  rewrite E. split; [reflexivity|]. pose proof S as S0. destruct S as (ST1 & ST2 & ST3 & _). set (o := c_opts y) in *.
  split; [|split; [|split]].
  - intros TN. assert (NC : ~ container opts).
    { intros (ty & I). assert (X : In ty (types opts)) by (apply in_flat_map; exists (SType true ty); split; [exact I|left; reflexivity]). rewrite TN in X. exact X. }
    split; [exact NC|]. rewrite TN in ST2. cbn [hd_error] in ST2. unfold binary. rewrite ST2. destruct (o_dksh o); [destruct NC; apply ST3; reflexivity|].
    cbn [bind]. rewrite app_nil_r. reflexivity.
  - intros ty I NE w. unfold binary.
    assert (OT : o_type o = Some ty).
    { rewrite ST2. destruct (types opts) as [|ty' [|]]; cbn in ST1, I |- *; [contradiction|destruct I as [->|[]]; reflexivity|lia]. }
    rewrite OT. replace (N.eqb ty 5) with false by (symmetry; apply N.eqb_neq, NE). cbn [negb].
    destruct (if o_dksh o then _ else _); discriminate.
  - intros T NC. rewrite T in ST2. cbn [hd_error] in ST2. unfold binary. rewrite ST2. destruct (o_dksh o); [destruct NC; apply ST3; reflexivity|].
    cbn [bind N.eqb Pos.eqb negb]. rewrite app_nil_r. reflexivity.
  - intros T C. rewrite T in ST2. cbn [hd_error] in ST2. apply ST3 in C. unfold binary. rewrite C, ST2. cbn [N.eqb Pos.eqb negb].
    rewrite N.add_0_r, (dksh_outcome _ _ _ _ S0 ST2). destruct (find_label ls (lit "main")) as [entry|]; [|reflexivity].
    split; [|split].
    + intros R. replace (Z.rem entry 32 =? 8) with false by lia. reflexivity.
    + intros R NF. replace (Z.rem entry 32 =? 8) with true by lia. cbn [negb].
      destruct (scratch_ok opts) as [(F & _)|(_ & ->)]; [contradiction|reflexivity].
    + intros R F. replace (Z.rem entry 32 =? 8) with true by lia. cbn [negb].
      destruct (scratch_ok opts) as [(_ & -> & _)|(NF & _)]; [reflexivity|contradiction].
Qed.

Lemma pack_length : forall n l, (List.length l <= n)%nat -> List.length (pack_words l) = ((List.length l + 1) / 2)%nat.
Proof.
  induction n as [|n IH]; intros l L.
  - destruct l; [reflexivity|cbn in L; lia].
  - destruct l as [|x [|y l]]; [reflexivity|reflexivity|]. cbn [pack_words List.length] in *. rewrite IH by lia.
    replace (S (S (List.length l)) + 1)%nat with (S (S (List.length l + 1))) by lia. rewrite half_next. reflexivity.
Qed.
Lemma uint32_bound : forall z, (uint32 z < 2 ^ 32)%N.
Proof. intros z. unfold uint32. pose proof (Z.mod_pos_bound z (2 ^ 32) ltac:(reflexivity)). lia. Qed.
Lemma header_length : forall l entry n, List.length (header_fields l entry n) = 20%nat.
Proof. intros l entry n. unfold header_fields. destruct (latest group_of (1, 1, 1) l) as ((x, y), z). reflexivity. Qed.
Lemma header_bound : forall l entry n, Forall (fun v => (v < 2 ^ 32)%N) (header_fields l entry n ++ repeat 0%N 44).
Proof.
  intros l entry n. apply Forall_app. split; [|apply Forall_forall; intros v I; apply repeat_spec in I as ->; reflexivity].
  unfold header_fields. destruct (latest group_of (1, 1, 1) l) as ((x, y), z).
  repeat (apply Forall_cons; [first [apply uint32_bound|reflexivity]|]). apply Forall_nil.
Qed.

Lemma compute_only : forall a code ls l y ss w, program a code ls l y ->
  options_before (start code) (map (fun p => c_cur (fst p)) l) ss -> assemble a code = Ok w ->
  types (List.concat ss) = [] \/ types (List.concat ss) = [5%N].
Proof.
  intros a code ls l y ss w P OB H. pose proof (container_outcome _ _ _ _ _ _ P OB) as (_ & _ & B & _).
  destruct (program_options _ _ _ _ _ P) as (ss' & OB' & S). rewrite <- (options_before_unique _ _ _ _ OB OB') in S.
  destruct S as (L & _). destruct (types (List.concat ss)) as [|ty [|]] eqn:E; [left; reflexivity| |cbn in L; lia].
  right. destruct (N.eq_dec ty 5) as [->|NE]; [reflexivity|]. destruct (B ty (or_introl eq_refl) NE w H).
Qed.
Lemma container_types : forall l, container l -> types l <> [].
Proof.
  intros l (ty & I) E. assert (X : In ty (types l)) by (apply in_flat_map; exists (SType true ty); split; [exact I|left; reflexivity]).
  rewrite E in X. exact X.
Qed.

Theorem container_layout : forall a code ls l y ss w, program a code ls l y ->
  options_before (start code) (map (fun p => c_cur (fst p)) l) ss -> container (List.concat ss) -> assemble a code = Ok w ->
  let opts := List.concat ss in
  let out := layout (recs (map snd l)) (words (map snd l)) in
  types opts = [5%N] /\ scratch_fits opts /\
  exists entry, find_label ls (lit "main") = Some entry /\ Z.rem entry 32 = 8 /\
    (forall k, (k < 64)%nat -> word32 w k = nth k (header_fields opts entry (List.length out)) 0%N) /\
    skipn 32 w = out ++ repeat 0%N (padding (List.length out)).
Proof.
  intros a code ls l y ss w P OB C H opts out. pose proof (compute_only _ _ _ _ _ _ _ P OB H) as [T|T]; [destruct (container_types _ C T)|].
  pose proof (container_outcome _ _ _ _ _ _ P OB) as (_ & _ & _ & _ & B). specialize (B T C). fold opts out in T, B |- *.
  split; [exact T|]. destruct (find_label ls (lit "main")) as [entry|]; [|congruence]. destruct B as (B1 & B2 & B3).
  destruct (Z.eq_dec (Z.rem entry 32) 8) as [R|R]; [|specialize (B1 R); congruence]. specialize (B2 R). specialize (B3 R).
  destruct (scratch_ok opts) as [(F & _)|(NF & _)]; [|specialize (B2 NF); congruence]. specialize (B3 F).
  split; [exact F|]. exists entry. split; [reflexivity|]. split; [exact R|]. rewrite H in B3. injection B3 as ->.
  set (h := header_fields opts entry (List.length out)) in *.
  assert (LH : List.length (h ++ repeat 0%N 44) = 64%nat) by (rewrite app_length, repeat_length; unfold h; rewrite header_length; reflexivity).
  assert (LP : List.length (pack_words (h ++ repeat 0%N 44)) = 32%nat) by (rewrite (pack_length 64), LH by lia; reflexivity).
  split.
  - intros k K. transitivity (word32 (pack_words (h ++ repeat 0%N 44)) k).
    + unfold word32. rewrite app_nth1; [reflexivity|]. apply Nat.lt_le_trans with 32%nat; [apply Nat.div_lt_upper_bound; lia|]. rewrite <- LP. apply le_n.
    + rewrite (pack_word32 64); [|lia|apply header_bound]. destruct (Nat.lt_ge_cases k (List.length h)) as [A|A].
      * rewrite app_nth1 by exact A. reflexivity.
      * rewrite app_nth2 by exact A. rewrite nth_repeat, nth_overflow by exact A. reflexivity.
  - replace 32%nat with (List.length (pack_words (h ++ repeat 0%N 44))) at 1. rewrite skipn_app, skipn_all, Nat.sub_diag. reflexivity.
Qed.

Theorem container_size : forall a code ls l y ss w, program a code ls l y ->
  options_before (start code) (map (fun p => c_cur (fst p)) l) ss -> container (List.concat ss) -> assemble a code = Ok w ->
  let n := List.length (layout (recs (map snd l)) (words (map snd l))) in
  (8 * Z.of_nat (List.length w) = Z.of_N (word32 w 2) + Z.of_N (word32 w 3) <->
   (n mod 32 <> 0)%nat /\ 8 * (Z.of_nat n + 32) < 2 ^ 32 + 8 * Z.of_nat (n mod 32)) /\
  ((n mod 32 = 0)%nat -> 8 * Z.of_nat n < 2 ^ 32 -> 8 * Z.of_nat (List.length w) = Z.of_N (word32 w 2) + Z.of_N (word32 w 3) + 256).
Proof.
  intros a code ls l y ss w P OB C H n.
  destruct (container_layout _ _ _ _ _ _ _ P OB C H) as (_ & _ & entry & _ & _ & HF & SK). fold n in HF, SK.
  rewrite (HF 2%nat), (HF 3%nat) by lia.
  assert (E : nth 2 (header_fields (List.concat ss) entry n) 0%N = 256%N /\ nth 3 (header_fields (List.concat ss) entry n) 0%N = uint32 (round_up 256 (8 * Z.of_nat n))).
  { unfold header_fields. destruct (latest group_of (1, 1, 1) _) as ((x, y'), z). split; reflexivity. }
  destruct E as (-> & ->).
  assert (LW : List.length w = (32 + n + padding n)%nat).
  { apply (f_equal (@List.length N)) in SK. rewrite skipn_length, app_length, repeat_length in SK. fold n in SK.
    unfold padding in *. pose proof (Nat.mod_upper_bound n 32 ltac:(lia)). lia. }
  rewrite LW. unfold uint32, round_up, padding. pose proof (Nat.div_mod n 32 ltac:(lia)) as D. pose proof (Nat.mod_upper_bound n 32 ltac:(lia)) as U.
  set (q := (n / 32)%nat) in *. set (r := (n mod 32)%nat) in *.
  rewrite Z2N.id by (apply Z.mod_pos_bound; reflexivity). change (Z.of_N 256) with 256.
  assert (X : 256 * ((8 * Z.of_nat n + 256 - 1) / 256) = if Nat.eqb r 0 then 256 * Z.of_nat q else 256 * (Z.of_nat q + 1)).
  { destruct (Nat.eqb_spec r 0) as [R|R]; f_equal; symmetry; [apply (Z.div_unique_pos _ _ _ 255)|apply (Z.div_unique_pos _ _ _ (8 * Z.of_nat r - 1))]; lia. }
  rewrite X. destruct (Nat.eqb_spec r 0) as [R|R].
  - split; [|intros _ B; rewrite Z.mod_small by lia; lia]. split; [|intros (NR & _); contradiction].
    intros A. exfalso. pose proof (Z.mod_le (256 * Z.of_nat q) (2 ^ 32) ltac:(lia) ltac:(reflexivity)). lia.
  - split; [|intros; contradiction]. split.
    + intros A. split; [exact R|]. pose proof (Z.mod_pos_bound (256 * (Z.of_nat q + 1)) (2 ^ 32) ltac:(reflexivity)). lia.
    + intros (_ & B). rewrite Z.mod_small by lia. lia.
Qed.

(** The entry point. *)
Lemma addr_group : forall k, (Z.rem (addr k) 32 = 8 <-> (k mod 3 = 0)%nat) /\ ((k mod 3 = 0)%nat -> addr k - 8 = 32 * Z.of_nat (k / 3)).
Proof.
  intros k. destruct (addr_pos k) as (P & _). rewrite Z.rem_mod_nonneg by lia. unfold addr.
  pose proof (Nat.div_mod k 3 ltac:(lia)). pose proof (Nat.mod_upper_bound k 3 ltac:(lia)).
  change (Z.of_nat k / 3) with (Z.of_nat k / Z.of_nat 3). change (Z.of_nat k mod 3) with (Z.of_nat k mod Z.of_nat 3). rewrite <- (Nat2Z.inj_div k 3), <- (Nat2Z.inj_mod k 3). set (q := (k / 3)%nat) in *. set (r := (k mod 3)%nat) in *.
  replace (8 * (4 * Z.of_nat q + 1 + Z.of_nat r)) with (8 * (1 + Z.of_nat r) + Z.of_nat q * 32) by lia.
  rewrite Z.mod_add by lia. rewrite Z.mod_small by lia. lia.
Qed.
Theorem container_entry : forall a code ls l y ss, ~ In NUL code -> program a code ls l y ->
  options_before (start code) (map (fun p => c_cur (fst p)) l) ss -> container (List.concat ss) -> types (List.concat ss) = [5%N] ->
  ((exists p, first_defines code p (lit "main") /\ (semis p mod 3 = 0)%nat) -> scratch_fits (List.concat ss) ->
    exists w, assemble a code = Ok w /\ forall p, first_defines code p (lit "main") -> word32 w 7 = uint32 (32 * Z.of_nat (semis p / 3))) /\
  (~ (exists p, first_defines code p (lit "main") /\ (semis p mod 3 = 0)%nat) -> exists d, assemble a code = Fatal d).
Proof.
  intros a code ls l y ss NN P OB C T. pose proof (container_outcome _ _ _ _ _ _ P OB) as (_ & _ & _ & _ & B). specialize (B T C).
  pose proof P as (G & _). pose proof (first_definition code ls NN G (lit "main")) as FD. split.
  - intros (p & D & M) F. rewrite (proj2 (FD (addr (semis p)))) in B by eauto.
    destruct B as (_ & _ & B). destruct (addr_group (semis p)) as (AG & AE). specialize (B (proj2 AG M) F).
    eexists. split; [exact B|]. intros p' D'.
    destruct (container_layout _ _ _ _ _ _ _ P OB C B) as (_ & _ & entry & FE & _ & HF & _). rewrite HF by lia.
    assert (entry = addr (semis p')) as ->. { rewrite (proj2 (FD (addr (semis p')))) in FE by eauto. congruence. }
    assert (EA : addr (semis p') = addr (semis p)).
    { assert (X : find_label ls (lit "main") = Some (addr (semis p'))) by (apply FD; eauto).
      rewrite (proj2 (FD (addr (semis p)))) in X by eauto. congruence. }
    apply addr_inj in EA. rewrite EA. unfold header_fields. destruct (latest group_of (1, 1, 1) _) as ((u, v), z).
    cbn [nth]. rewrite AE by exact M. reflexivity.
  - intros NE. destruct (find_label ls (lit "main")) as [entry|] eqn:E; [|eauto]. destruct (proj1 (FD entry) eq_refl) as (p & D & ->).
    destruct B as (B & _). eexists. apply B. intros R. apply NE. exists p. split; [exact D|]. apply addr_group, R.
Qed.

(** ** Every output word fits into 64 bits *)

Lemma pack_bound : forall n l, (List.length l <= n)%nat -> Forall (fun v => (v < 2 ^ 32)%N) l -> Forall (fun v => (v < 2 ^ 64)%N) (pack_words l).
Proof.
  assert (X : forall v, (v < 2 ^ 32)%N -> (v < 2 ^ 64)%N) by (intros v H; eapply N.lt_trans; [exact H|reflexivity]).
  induction n as [|n IH]; intros l L F.
  - destruct l; [constructor|cbn in L; lia].
  - destruct l as [|x [|y l]]; [constructor| |].
    + constructor; [|constructor]. apply X, (Forall_inv F).
    + pose proof (Forall_inv F) as FX. pose proof (Forall_inv (Forall_inv_tail F)) as FY. apply Forall_inv_tail, Forall_inv_tail in F.
      cbn [pack_words]. constructor; [|apply IH; [cbn in L; lia|exact F]].
      rewrite N.shiftl_mul_pow2. rewrite N.lor_comm. 
      assert (E : N.lor (y * 2 ^ 32) x = (x + y * 2 ^ 32)%N).
      { rewrite <- N.shiftl_mul_pow2. symmetry. rewrite N.add_comm. rewrite N.add_nocarry_lxor.
        - apply N.lxor_lor. apply N.bits_inj. intros k. rewrite N.land_spec, N.bits_0. destruct (N.lt_ge_cases k 32).
          + rewrite N.shiftl_spec_low by assumption. reflexivity.
          + rewrite (N.bits_above_log2 x), andb_false_r; [reflexivity|]. destruct (N.eq_dec x 0) as [->|NZ]; [change (N.log2 0) with 0%N; lia|].
            apply N.log2_lt_pow2; [lia|]. eapply N.lt_le_trans; [exact FX|]. apply N.pow_le_mono_r; lia.
        - apply N.bits_inj. intros k. rewrite N.land_spec, N.bits_0. destruct (N.lt_ge_cases k 32).
          + rewrite N.shiftl_spec_low by assumption. reflexivity.
          + rewrite (N.bits_above_log2 x), andb_false_r; [reflexivity|]. destruct (N.eq_dec x 0) as [->|NZ]; [change (N.log2 0) with 0%N; lia|].
            apply N.log2_lt_pow2; [lia|]. eapply N.lt_le_trans; [exact FX|]. apply N.pow_le_mono_r; lia. }
      rewrite E. cbn beta in FX, FY. change (2 ^ 64)%N with (2 ^ 32 * 2 ^ 32)%N. set (b := (2 ^ 32)%N) in *. clearbody b. pose proof (N.mul_le_mono_r (y + 1) b b ltac:(lia)). lia.
Qed.
Lemma layout_bound : forall a code ls l y, program a code ls l y ->
  Forall (fun v => (v < 2 ^ 64)%N) (layout (recs (map snd l)) (words (map snd l))).
Proof.
  intros a code ls l y P. apply Forall_forall. intros v I. unfold layout in I. apply in_map_iff in I as (j & <- & _).
  unfold layout_word. destruct (Nat.eqb (j mod 4) 0).
  - eapply N.lt_trans; [apply (control_decodes _ _ _ _ _ _ 0%nat P); lia|reflexivity].
  - set (k := (3 * (j / 4) + (j mod 4 - 1))%nat). destruct (Nat.lt_ge_cases k (List.length (words (map snd l)))) as [A|A].
    + destruct P as (_ & D & _). apply decodes_op_ok in D. pose proof (nth_In _ NOP A) as I. unfold words in I. apply in_map_iff in I as (op & E & I).
      fold (words (map snd l)) in E. rewrite <- E. rewrite Forall_forall in D. apply D, I.
    + rewrite nth_overflow by exact A. reflexivity.
Qed.
Theorem output_bounded : forall a code w, assemble a code = Ok w -> Forall (fun v => (v < 2 ^ 64)%N) w.
Proof.
  intros a code w H. pose proof H as H0. apply assemble_ok in H0 as (ls & l & y & P & _). pose proof (layout_bound _ _ _ _ _ P) as LB.
  destruct (program_options _ _ _ _ _ P) as (ss & OB & S).
  pose proof (container_outcome _ _ _ _ _ _ P OB) as (_ & B1 & _ & B3 & B4).
  destruct (compute_only _ _ _ _ _ _ _ P OB H) as [T|T].
  - destruct (B1 T) as (_ & E). rewrite H in E. injection E as ->. exact LB.
  - specialize (B3 T). specialize (B4 T). destruct S as (_ & _ & SC & _).
    destruct (o_dksh (c_opts y)); [pose proof (proj1 SC eq_refl) as C; clear B3|specialize (B3 ltac:(intros C; apply SC in C; discriminate)); rewrite H in B3; injection B3 as ->; exact LB].
    specialize (B4 C). destruct (find_label ls (lit "main")) as [entry|]; [|congruence]. destruct B4 as (X1 & X2 & X3).
    destruct (Z.eq_dec (Z.rem entry 32) 8) as [R|R]; [|specialize (X1 R); congruence].
    destruct (scratch_ok (List.concat ss)) as [(F & _)|(NF & _)]; [|specialize (X2 R NF); congruence]. specialize (X3 R F).
    rewrite H in X3. injection X3 as ->. apply Forall_app. split; [apply (pack_bound 64); [rewrite app_length, header_length; apply Nat.leb_le; reflexivity|apply header_bound]|].
    apply Forall_app. split; [exact LB|]. apply Forall_forall. intros v I. apply repeat_spec in I as ->. reflexivity.
Qed.

Theorem graphics_rejected : forall a code ls l y ss ty, program a code ls l y ->
  options_before (start code) (map (fun p => c_cur (fst p)) l) ss -> In ty (types (List.concat ss)) -> ty <> 5%N ->
  (exists d, assemble a code = Fatal d) \/
  (container (List.concat ss) /\ ~ scratch_fits (List.concat ss) /\ assemble a code = Undef UB_signed_overflow).
Proof.
  intros a code ls l y ss ty P OB I NE. pose proof (container_outcome _ _ _ _ _ _ P OB) as (E & _).
  destruct (program_options _ _ _ _ _ P) as (ss' & OB' & S). rewrite <- (options_before_unique _ _ _ _ OB OB') in S. pose proof S as S0.
  destruct S as (ST1 & ST2 & ST3 & _). set (opts := List.concat ss) in *. set (o := c_opts y) in *. rewrite E.
  assert (OT : o_type o = Some ty).
  { rewrite ST2. destruct (types opts) as [|ty' [|]]; cbn in ST1, I |- *; [contradiction|destruct I as [->|[]]; reflexivity|lia]. }
  unfold binary. rewrite OT. replace (N.eqb ty 5) with false by (symmetry; apply N.eqb_neq, NE). cbn [negb].
  destruct (o_dksh o) eqn:D; cbn [bind]; [|left; eexists; reflexivity]. unfold write_dksh. rewrite OT.
  destruct (find_label ls (lit "main")) as [entry|]; [|left; eexists; reflexivity].
  destruct (negb (Z.rem entry 32 =? 8)); [left; eexists; reflexivity|]. cbv zeta. rewrite (local_word _ _ S0).
  destruct (scratch_ok opts) as [(F & -> & _)|(NF & ->)]; cbn [bind].
  - destruct (o_dims o) as ((dx, dy), dz). left. eexists. reflexivity.
  - right. split; [apply ST3; reflexivity|]. split; [exact NF|reflexivity].
Qed.
Theorem registers_fixed : forall a code ls l y, program a code ls l y -> o_num_gprs (c_opts y) = 8.
Proof. intros a code ls l y P. destruct (program_options _ _ _ _ _ P) as (ss & _ & S). apply S. Qed.
