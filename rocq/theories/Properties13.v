(** * Properties13: every form and word can be written; counters; devices; exact rules for diagnostics (C78 - C85). *)
From Verif Require Import Base Float Lexer Operand Catalogue Table Parse Assemble Device Diag Spec SpecOperand SpecInsn SpecLex SpecOpts SpecContainer
  SpecProgram SpecWritable SpecCli SpecDevice SpecDiag LexFacts Decode Program Layout Stream Lexemes Where Writable Counters Cli DeviceFacts Message Report Run Properties11.
From Coq Require Import Lia.
Local Open Scope string_scope.
Local Open Scope list_scope.
Open Scope Z_scope.

(** C78: no form of the table is hidden by the forms before it. *)
Theorem c78_forms : forall pre i post, table = pre ++ i :: post ->
  exists code ts kf op w w', lexes code 0 ts /\ map fst ts = id (i_mnemonic i) :: kf /\
    form_spells unlabelled 8 i 7 false kf op /\ no_earlier pre i kf /\
    assemble false code = Ok w /\ nth_error w 1 = Some (value op) /\ assemble true code = Ok w' /\ nth_error w' 1 = Some (value op).
Proof. exact every_form. Qed.
Print Assumptions c78_forms.
Example c78_forms_ex : table = firstn 252 table ++ nth 252 table (hd (Insn 0 0 "" []) table) :: skipn 253 table /\ i_mnemonic (nth 252 table (Insn 0 0 "" [])) = "TXQ".
Proof. split; vm_compute; reflexivity. Qed.

(** C79: every word of every operand can be written, except the swizzle R. *)
Theorem c79_words : forall pre i post a o b s, table = pre ++ i :: post -> i_operands i = a ++ o :: b -> In s (words_of o) -> s <> "R" ->
  exists code ts ka ks kb v w, lexes code 0 ts /\ map fst ts = id (i_mnemonic i) :: ka ++ ks ++ kb ++ [TSemi] /\
    parts i a o b ka ks kb v /\ In (id s) ks /\ no_earlier pre i (ka ++ ks ++ kb ++ [TSemi]) /\
    assemble false code = Ok w /\ nth_error w 1 = Some v.
Proof. exact every_word. Qed.
Print Assumptions c79_words.
Theorem c79_R : forall code n ts, lexes code n ts -> ~ In (id "R") (map fst ts).
Proof. exact no_R. Qed.
Print Assumptions c79_R.
Example c79_words_ex : exists pre i post a o b, table = pre ++ i :: post /\ i_operands i = a ++ o :: b /\ In "RGBA" (words_of o) /\ In "R" (words_of o).
Proof.
  exists (firstn 241 table), (nth 241 table (Insn 0 0 "" [])), (skipn 242 table), (removelast (i_operands (nth 241 table (Insn 0 0 "" [])))), OTexsSwizzle, [].
  split; [vm_compute; reflexivity|]. split; [vm_compute; reflexivity|]. split; cbn; tauto.
Qed.

(** C80: the counters fit their types for texts below 2^29 characters, and not always beyond. *)
Theorem c80_cursor : forall code p c, moves (start code) p c -> Z.of_nat (List.length code) < 2 ^ 29 ->
  0 <= line c < INT32_MAX /\ 0 <= col c < INT32_MAX.
Proof. intros code p c M L. destruct (cursor_counters _ _ _ M) as (_ & _ & B & C). unfold INT32_MAX. lia. Qed.
Print Assumptions c80_cursor.
Theorem c80_token : forall code ks c t c', scan (start code) ks c -> tokenize c = Ok (t, c') -> Z.of_nat (List.length code) < 2 ^ 29 ->
  0 <= t_line t < INT32_MAX /\ 0 <= t_col t < INT32_MAX.
Proof. intros code ks c t c' S T L. destruct (token_counters _ _ _ _ _ S T) as (B & C). unfold INT32_MAX. lia. Qed.
Print Assumptions c80_token.
Theorem c80_label : forall code ls name z, ~ In NUL code -> generate_labels code = Ok ls -> find_label ls name = Some z ->
  Z.of_nat (List.length code) < 2 ^ 58 -> 0 <= z <= INT64_MAX.
Proof. intros code ls name z N G F L. pose proof (label_counters _ _ _ _ N G F). unfold INT64_MAX. lia. Qed.
Print Assumptions c80_label.
Theorem c80_address : forall a code ls l y x op, program a code ls l y -> In (x, op) l ->
  Z.of_nat (List.length code) < 2 ^ 58 -> c_pc x <= INT64_MAX.
Proof. intros a code ls l y x op P I L. pose proof (address_counters _ _ _ _ _ _ _ P I). unfold INT64_MAX. lia. Qed.
Print Assumptions c80_address.
Theorem c80_sharp : exists code t c', Z.of_nat (List.length code) = 2 ^ 29 /\ tokenize (start code) = Ok (t, c') /\ INT32_MAX < t_col t.
Proof.
  destruct (tabs_token (Z.to_nat (2 ^ 29))) as (t & c' & T & C). exists (repeat "009"%char (Z.to_nat (2 ^ 29))), t, c'.
  rewrite repeat_length, Z2Nat.id in * by lia. split; [reflexivity|]. split; [exact T|]. rewrite C. unfold INT32_MAX. lia.
Qed.
Print Assumptions c80_sharp.
Example c80_cursor_ex : exists p c, moves (start (lit "NOP;
	EXIT;")) p c /\ line c = 1 /\ col c = 4 /\ Z.of_nat (List.length (lit "NOP;
	EXIT;")) < 2 ^ 29.
Proof. exists (lit "NOP;
	"), (Cursor (lit "EXIT;") 1 4). split; [split; [reflexivity|split; reflexivity]|]. split; [reflexivity|]. split; reflexivity. Qed.

(** C81: what a successful run leaves on a device. *)
Theorem c81_success : forall a limit args d o out, device_main a limit args d = (Ok tt, Some (o, out)) <->
  exists i t p bin n, names args i o /\ read_as limit d i t /\ before_nul t p /\ assemble a p = Ok bin /\ room d o = Some n /\ cut_off n bin out.
Proof. exact device_success. Qed.
Print Assumptions c81_success.
Theorem c81_complete : forall n bin out, cut_off n bin out -> (little_endian bin out <-> (8 * List.length bin <= n)%nat).
Proof. exact device_complete. Qed.
Print Assumptions c81_complete.
Definition full_disk (code : text) (n : nat) : device :=
  Device (fun f => if text_eqb f (lit "in.txt") then Some (Z.of_nat (List.length code), code) else None) (fun _ => Some n).
(** A full disk: the run succeeds and the file is empty. *)
Theorem c81_silent : exists args d o bin, names args (lit "in.txt") o /\ assemble true (lit "NOP;") = Ok bin /\ bin <> [] /\
  input d (lit "in.txt") = Some (4, lit "NOP;") /\ device_main true (2 ^ 30) args d = (Ok tt, Some (o, [])).
Proof.
  exists command, (full_disk (lit "NOP;") 0), (lit "out.bin"). eexists. split; [split; [vm_compute; discriminate|left; reflexivity]|].
  split; [vm_compute; reflexivity|]. split; [discriminate|]. split; vm_compute; reflexivity.
Qed.
Print Assumptions c81_silent.
Example c81_success_ex : exists out, device_main true (2 ^ 30) command (full_disk (lit "NOP;") 10) = (Ok tt, Some (lit "out.bin", out)) /\ List.length out = 10%nat.
Proof. eexists. split; vm_compute; reflexivity. Qed.

(** C82: a run that fails touches no file, and why it may be rejected. *)
Theorem c82_touches : forall a limit args d r f, device_main a limit args d = (r, f) -> (exists o out, f = Some (o, out)) <-> r = Ok tt.
Proof. exact device_touches. Qed.
Print Assumptions c82_touches.
Theorem c82_rejects : forall a limit args d e f, device_main a limit args d = (Fatal e, f) ->
  (exists m, args_error args m /\ e = Diag None m) \/
  (exists i o t p, names args i o /\ read_as limit d i t /\ before_nul t p /\
    (assemble a p = Fatal e \/ exists bin, assemble a p = Ok bin /\ room d o = None /\ e = Diag None (open_message o))).
Proof. exact device_rejects. Qed.
Print Assumptions c82_rejects.
Example c82_rejects_ex : exists e, device_main true (2 ^ 30) command (full_disk (lit "FOO;") 10) = (Fatal e, None).
Proof. eexists. vm_compute. reflexivity. Qed.

(** C83: an input without a size ends the tool by an exception; plain files are read as a whole. *)
Theorem c83_sizeless : forall a limit args d i o size data, names args i o -> input d i = Some (size, data) -> ~ 0 <= size <= limit ->
  exists why, device_main a limit args d = (Abort why, None).
Proof. exact device_sizeless. Qed.
Print Assumptions c83_sizeless.
Theorem c83_plain : forall a limit args d w,
  (forall n, input d n = option_map (fun data => (Z.of_nat (List.length data), data)) (files w n)) ->
  (forall n data, files w n = Some data -> Z.of_nat (List.length data) <= limit) ->
  (forall n, room d n = None <-> writable w n = false) ->
  (forall i o data p bin n, names args i o -> files w i = Some data -> before_nul data p -> assemble a p = Ok bin -> room d o = Some n -> (8 * List.length bin <= n)%nat) ->
  cli_main a args w = (fst (device_main a limit args d), match snd (device_main a limit args d) with Some (o, out) => write_file w o out | None => w end).
Proof. exact device_plain. Qed.
Print Assumptions c83_plain.
Example c83_sizeless_ex : names command (lit "in.txt") (lit "out.bin") /\ ~ 0 <= -1 <= 2 ^ 30.
Proof. split; [split; [vm_compute; discriminate|left; reflexivity]|lia]. Qed.
Example c83_plain_ex : let d := full_disk (lit "NOP;") 1000 in let w := folder (lit "NOP;") in
  (forall n, input d n = option_map (fun data => (Z.of_nat (List.length data), data)) (files w n)) /\
  (forall n data, files w n = Some data -> Z.of_nat (List.length data) <= 2 ^ 30) /\
  (forall n, room d n = None <-> writable w n = false) /\
  (forall i o data p bin n, names command i o -> files w i = Some data -> before_nul data p -> assemble true p = Ok bin -> room d o = Some n -> (8 * List.length bin <= n)%nat).
Proof.
  cbn zeta. split; [intros n; cbn; destruct (text_eqb n _); reflexivity|]. split; [|split].
  - intros n data H. unfold folder in H. cbn [files] in H. destruct (text_eqb n _); [|discriminate]. injection H as <-. cbn. lia.
  - intros n. cbn. split; discriminate.
  - intros i o data p bin n N F B A R. cbn in R. injection R as <-. unfold folder in F. cbn [files] in F. destruct (text_eqb i _); [|discriminate].
    assert (D : data = lit "NOP;") by congruence. subst data. rewrite (before_nul_fun _ _ B) in A. vm_compute in A. injection A as <-. cbn. lia.
Qed.

(** C84: exactly four kinds of messages are given arguments of the wrong types. *)
Theorem c84_types : forall a code d i, assemble a code = Fatal d -> ~ In NUL code -> small code ->
  exists body err, reported i code body err /\ stderr_of false i d = Some err /\ (stderr_of true i d = None <-> miscast body = true) /\
    (forall t, stderr_of true i d = Some t -> t = err).
Proof.
  intros a code d i A N S. destruct (reported_always a code d i A N S) as (body & err & R & P & Q). exists body, err.
  split; [exact R|]. split; [exact P|]. rewrite Q. destruct (miscast body).
  - split; [tauto|]. discriminate.
  - split; [split; discriminate|]. congruence.
Qed.
Print Assumptions c84_types.
(** Each kind occurs. *)
Theorem c84_each : Forall (fun p => exists code d body t, assemble true code = Fatal d /\ printf false (d_msg d) = Some body /\ body = p ++ t /\ forall i, stderr_of true i d = None)
  [lit "integer "; lit "label " ++ escape "[1m"; lit "unexpected test "; lit "unknown mnemonic "].
Proof.
  repeat constructor; [exists (lit "LDG R0, [R1+0x1000000];")|exists (lit "SSY x;")|exists (lit "BRA CC.FOO 8;")|exists (lit "FOO;")];
    eexists _, _, _; (split; [vm_compute; reflexivity|]); (split; [vm_compute; reflexivity|]); (split; [vm_compute; reflexivity|]); intros i; reflexivity.
Qed.
Print Assumptions c84_each.

(** C85: a range error shows the low 32 bits, as a signed number: the literal itself exactly when it fits. *)
Theorem c85_value : forall code b g q body, about code b g q body -> headed (lit "integer ") body = true ->
  exists w v r z lo hi dz dlo dhi, q = w ++ r /\ token_text w (TImm v) r /\ (v < lo \/ hi < v) /\ numeral z dz /\ numeral lo dlo /\ numeral hi dhi /\
    body = lit "integer " ++ strong dz ++ lit " is out of range, expected to be from " ++ dlo ++ lit " to " ++ dhi ++ lit " inclusively" /\
    low_half v z /\ (z = v <-> - 2 ^ 31 <= v < 2 ^ 31).
Proof.
  intros code b g q body A H. destruct (range_message_about _ _ _ _ _ A H) as (w & v & r & z & lo & hi & dz & dlo & dhi & Q & T & O & N1 & N2 & N3 & B & L & F).
  exists w, v, r, z, lo, hi, dz, dlo, dhi. repeat (split; [assumption|]). split; [|exact F]. intros <-. apply L.
Qed.
Print Assumptions c85_value.
Example c85_value_ex : low_half 4294967297 1 /\ low_half 2147483648 (-2147483648).
Proof. split; (split; [lia|]); [exists 1|exists 1]; lia. Qed.
