(** * Properties5: options, containers and the command line. *)
From Verif Require Import Base Float Lexer Operand Catalogue Table Parse Assemble Spec SpecOperand SpecInsn SpecOpts SpecContainer SpecCli
  LexFacts SchedFuel ParseFacts Decode Emit Program Layout Operands Stream Opts Container Cli.
From Coq Require Import Lia.
Local Open Scope string_scope.
Local Open Scope list_scope.
Open Scope Z_scope.

(** A container with options, and its words. *)
Definition boxed : text := lit
".dksh compute
.workgroup_size 8 4 1
.shared_memory 100
.shared_memory 0x12c
.local_memory 40
.author
main:
  MOV R0, R1;
  EXIT;
".
Definition boxed_head : list N :=
 [0x0000001848534B44; 0x0000010000000100; 0x0000000100000018; 0x0000000000000005; 0x0000000000000008; 0x00000E0000000000;
  0x0000000400000008; 0x0000020000000001; 0x0000000000000030; 0x0000000000000800]%N.
Definition boxed_code : list N := [0x1F8000FC0007E0; 0x5C98078000170000; 0xE30000000007000F; 0x50B0000000070F00]%N.
Definition boxed_words : list N := boxed_head ++ repeat 0%N 22 ++ boxed_code ++ repeat 0%N 28.
Lemma boxed_ok : assemble true boxed = Ok boxed_words.
Proof. vm_compute. reflexivity. Qed.
Lemma boxed_program : exists ls l y ss, program true boxed ls l y /\ options_before (start boxed) (map (fun p => c_cur (fst p)) l) ss /\
  container (List.concat ss) /\ types (List.concat ss) = [5%N].
Proof.
  pose proof boxed_ok as H. apply assemble_ok in H as (ls & l & y & P & B). destruct (program_options _ _ _ _ _ P) as (ss & OB & S).
  exists ls, l, y, ss. split; [exact P|]. split; [exact OB|].
  assert (C : container (List.concat ss)).
  { destruct S as (_ & _ & C & _). apply C. destruct (o_dksh (c_opts y)) eqn:D; [reflexivity|]. exfalso.
    apply (binary_plain _ _ _ _ D) in B. rewrite (program_emit _ _ _ _ _ P) in B. apply (f_equal (@List.length N)) in B.
    rewrite layout_length in B. unfold words in B. rewrite !map_length in B. destruct P as (_ & _ & L). rewrite (L eq_refl) in B. vm_compute in B. discriminate. }
  split; [exact C|]. destruct (compute_only _ _ _ _ _ _ _ P OB boxed_ok) as [T|T]; [|exact T]. destruct (container_types _ C T).
Qed.

(** C39: option lines. *)
Theorem c39_instruction : forall tbl a ls x op r,
  parse_instruction_with tbl a ls x op = Ok (Some r) <->
  exists l c1 o, options_at (c_cur x) l c1 /\ no_option c1 /\ apply_settings l (c_opts x) = Some o /\
    parse_instruction_with tbl a ls (Ctx c1 (c_pc x) o) op = Ok (Some r).
Proof. exact instruction_options. Qed.
Print Assumptions c39_instruction.
Theorem c39_settle : forall l o, apply_settings l options0 = Some o <-> settles l o.
Proof. exact settings_settle. Qed.
Print Assumptions c39_settle.
Theorem c39_program : forall a code ls l y, program a code ls l y ->
  exists ss, options_before (start code) (map (fun p => c_cur (fst p)) l) ss /\ settles (List.concat ss) (c_opts y).
Proof. exact program_options. Qed.
Print Assumptions c39_program.
Theorem c39_unique : forall c ends ss ss', options_before c ends ss -> options_before c ends ss' -> ss = ss'.
Proof. exact options_before_unique. Qed.
Print Assumptions c39_unique.
Theorem c39_trailing : forall a ls x l c1 t c, options_at (c_cur x) l c1 -> l <> [] -> tokenize c1 = Ok (t, c) -> kind t = TNone ->
  exists d, parse_instruction a ls x opcode0 = Fatal d.
Proof. exact options_trailing. Qed.
Print Assumptions c39_trailing.
Theorem c39_twice : forall a ls x l c1, options_at (c_cur x) l c1 ->
  (1 < List.length (types l) \/ types l <> [] /\ o_type (c_opts x) <> None)%nat -> exists d, parse_instruction a ls x opcode0 = Fatal d.
Proof. exact options_twice. Qed.
Print Assumptions c39_twice.
Fixpoint take_tokens (n : nat) (c : cursor) : option (list token * cursor) :=
  match n with
  | O => Some ([], c)
  | S n' =>
      match tokenize c with
      | Ok (t, c1) => match take_tokens n' c1 with Some (ts, c') => Some (t :: ts, c') | None => None end
      | _ => None
      end
  end.
Lemma take_ok : forall n c ts c', take_tokens n c = Some (ts, c') -> tokens c ts c'.
Proof.
  induction n as [|n IH]; intros c ts c' H; cbn [take_tokens] in H; [injection H as <- <-; constructor|].
  destruct (tokenize c) as [(t, c1)| | | | |] eqn:T; try discriminate.
  destruct (take_tokens n c1) as [(ts1, c2)|] eqn:K; [|discriminate]. injection H as <- <-. econstructor; [exact T|]. apply IH, K.
Qed.
Definition boxed_settings : list setting := [SType true 5; SGroup 8 4 1; SShared 100; SShared 300; SLocal 40; SIgnored (lit "author")].
Ltac one n w := eapply options_one;
  [apply (take_ok n); vm_compute; reflexivity|w|intros _; repeat constructor|vm_compute; reflexivity|vm_compute; discriminate|].
Example c39_instruction_ex : exists c1, options_at (start boxed) boxed_settings c1 /\ no_option c1 /\
  settles boxed_settings (Options (Some 5%N) true 8 40 (8, 4, 1)%N 300).
Proof.
  eexists. split; [|split].
  - unfold boxed_settings.
    one 2%nat ltac:(apply (W_dksh "compute" 5); cbn; tauto). one 4%nat ltac:(constructor). one 2%nat ltac:(constructor). one 2%nat ltac:(constructor).
    one 2%nat ltac:(constructor).
    one 1%nat ltac:(apply W_ignored; intros H; repeat destruct H as [H|H]; try discriminate H; exact H). apply options_none.
  - intros t c T. vm_compute in T. injection T as <- _. reflexivity.
  - apply settings_settle. reflexivity.
Qed.
Example c39_trailing_ex : exists d, assemble true (lit "NOP;
.type compute
") = Fatal d /\ d_msg d = "expected mnemonic".
Proof. eexists. vm_compute. split; reflexivity. Qed.
Example c39_twice_ex : exists d, assemble true (lit ".type compute
NOP;
.dksh compute
NOP;") = Fatal d /\ d_pos d = Some (2, 0) /\ d_msg d = "program type already specified".
Proof. eexists. vm_compute. auto. Qed.
(** The argument of a size may be on another line than its option; the option
    is then not alone on its line. *)
Theorem c39_refuted : exists w t u c1 t' c2, assemble true (lit ".shared_memory
16 NOP;") = Ok w /\ tokens (start (lit ".shared_memory
16 NOP;")) [t; u] c1 /\ written (SShared 16) (map kind [t; u]) /\ tokenize c1 = Ok (t', c2) /\ kind t' = id "NOP" /\ t_line t' = t_line u.
Proof.
  do 6 eexists. split; [vm_compute; reflexivity|]. split; [apply (take_ok 2); vm_compute; reflexivity|]. split; [constructor|].
  split; [vm_compute; reflexivity|]. split; reflexivity.
Qed.
Print Assumptions c39_refuted.

(** C40: [.num_gprs]. *)
Theorem c40_never : forall tbl a ls x op l c1 t c, options_at (c_cur x) l c1 -> tokenize c1 = Ok (t, c) -> kind t = id ".num_gprs" ->
  forall r, parse_instruction_with tbl a ls x op <> Ok r.
Proof. exact num_gprs_never. Qed.
Print Assumptions c40_never.
Theorem c40_eight : forall a code ls l y, program a code ls l y -> o_num_gprs (c_opts y) = 8.
Proof. exact registers_fixed. Qed.
Print Assumptions c40_eight.
Theorem c40_refuted : forall a, exists d, assemble a (lit ".dksh compute
.num_gprs 16
main:
NOP;") = Fatal d /\ d_msg d = "expected number of general purpose registers".
Proof. intros []; eexists; vm_compute; split; reflexivity. Qed.
Print Assumptions c40_refuted.
Example c40_never_ex : exists l c1 t c, options_at (start (lit ".type compute
.num_gprs RZ
NOP;")) l c1 /\ tokenize c1 = Ok (t, c) /\ kind t = id ".num_gprs".
Proof.
  exists [SType false 5]. do 3 eexists. split; [one 2%nat ltac:(apply (W_type "compute" 5); cbn; tauto); apply options_none|].
  split; [vm_compute; reflexivity|reflexivity].
Qed.

(** C41: containers. *)
Theorem c41_layout : forall a code ls l y ss w, program a code ls l y ->
  options_before (start code) (map (fun p => c_cur (fst p)) l) ss -> container (List.concat ss) -> assemble a code = Ok w ->
  let opts := List.concat ss in
  let out := layout (recs (map snd l)) (words (map snd l)) in
  types opts = [5%N] /\ scratch_fits opts /\
  exists entry, find_label ls (lit "main") = Some entry /\ Z.rem entry 32 = 8 /\
    (forall k, (k < 64)%nat -> word32 w k = nth k (header_fields opts entry (List.length out)) 0%N) /\
    skipn 32 w = out ++ repeat 0%N (padding (List.length out)).
Proof. exact container_layout. Qed.
Print Assumptions c41_layout.
Example c41_layout_ex : assemble true boxed = Ok boxed_words /\ exists ls l y ss, program true boxed ls l y /\
  options_before (start boxed) (map (fun p => c_cur (fst p)) l) ss /\ container (List.concat ss) /\
  map (word32 boxed_words) (seq 12 7) = [8; 4; 1; 512; 48; 0; 2048]%N /\ word32 boxed_words 11 = 3584%N.
Proof.
  split; [exact boxed_ok|]. destruct boxed_program as (ls & l & y & ss & P & OB & C & _). exists ls, l, y, ss.
  split; [exact P|]. split; [exact OB|]. split; [exact C|]. split; vm_compute; reflexivity.
Qed.

(** C42: size of a container. *)
Theorem c42_size_partial : forall a code ls l y ss w, program a code ls l y ->
  options_before (start code) (map (fun p => c_cur (fst p)) l) ss -> container (List.concat ss) -> assemble a code = Ok w ->
  let n := List.length (layout (recs (map snd l)) (words (map snd l))) in
  (8 * Z.of_nat (List.length w) = Z.of_N (word32 w 2) + Z.of_N (word32 w 3) <->
   (n mod 32 <> 0)%nat /\ 8 * (Z.of_nat n + 32) < 2 ^ 32 + 8 * Z.of_nat (n mod 32)) /\
  ((n mod 32 = 0)%nat -> 8 * Z.of_nat n < 2 ^ 32 -> 8 * Z.of_nat (List.length w) = Z.of_N (word32 w 2) + Z.of_N (word32 w 3) + 256).
Proof. exact container_size. Qed.
Print Assumptions c42_size_partial.
(** C63: the same statement, which is exact. *)
Theorem c63_size : forall a code ls l y ss w, program a code ls l y ->
  options_before (start code) (map (fun p => c_cur (fst p)) l) ss -> container (List.concat ss) -> assemble a code = Ok w ->
  let n := List.length (layout (recs (map snd l)) (words (map snd l))) in
  (8 * Z.of_nat (List.length w) = Z.of_N (word32 w 2) + Z.of_N (word32 w 3) <->
   (n mod 32 <> 0)%nat /\ 8 * (Z.of_nat n + 32) < 2 ^ 32 + 8 * Z.of_nat (n mod 32)) /\
  ((n mod 32 = 0)%nat -> 8 * Z.of_nat n < 2 ^ 32 -> 8 * Z.of_nat (List.length w) = Z.of_N (word32 w 2) + Z.of_N (word32 w 3) + 256).
Proof. exact container_size. Qed.
Print Assumptions c63_size.
Definition full_group : text := lit ".dksh compute
main:
" ++ List.concat (repeat (lit "NOP;") 24).
(** 24 instructions fill 32 words: the file is 256 bytes longer than its header says. *)
Theorem c42_refuted : exists w, assemble true full_group = Ok w /\
  8 * Z.of_nat (List.length w) = 768 /\ Z.of_N (word32 w 2) + Z.of_N (word32 w 3) = 512.
Proof. eexists. split; [vm_compute; reflexivity|]. split; vm_compute; reflexivity. Qed.
Print Assumptions c42_refuted.
Example c42_size_partial_ex : assemble true boxed = Ok boxed_words /\
  8 * Z.of_nat (List.length boxed_words) = Z.of_N (word32 boxed_words 2) + Z.of_N (word32 boxed_words 3).
Proof. split; [exact boxed_ok|]. vm_compute. reflexivity. Qed.

(** C43: entry points. *)
Theorem c43_entry : forall a code ls l y ss, ~ In NUL code -> program a code ls l y ->
  options_before (start code) (map (fun p => c_cur (fst p)) l) ss -> container (List.concat ss) -> types (List.concat ss) = [5%N] ->
  ((exists p, first_defines code p (lit "main") /\ (semis p mod 3 = 0)%nat) -> scratch_fits (List.concat ss) ->
    exists w, assemble a code = Ok w /\ forall p, first_defines code p (lit "main") -> word32 w 7 = uint32 (32 * Z.of_nat (semis p / 3))) /\
  (~ (exists p, first_defines code p (lit "main") /\ (semis p mod 3 = 0)%nat) -> exists d, assemble a code = Fatal d).
Proof. exact container_entry. Qed.
Print Assumptions c43_entry.
Example c43_entry_ex : (exists ls l y ss, program true boxed ls l y /\ options_before (start boxed) (map (fun p => c_cur (fst p)) l) ss /\
    container (List.concat ss) /\ types (List.concat ss) = [5%N]) /\ ~ In NUL boxed /\
  (exists d, assemble true (lit ".dksh compute
NOP;") = Fatal d) /\ (exists d, assemble true (lit ".dksh compute
NOP;
main:
NOP;") = Fatal d) /\ exists d, assemble true (lit ".dksh compute
 main: NOP;") = Fatal d.
Proof.
  split; [exact boxed_program|]. split.
  - assert (E : existsb (Ascii.eqb NUL) boxed = false) by (vm_compute; reflexivity). intros I.
    enough (existsb (Ascii.eqb NUL) boxed = true) by congruence. apply existsb_exists. exists NUL. auto.
  - repeat split; eexists; vm_compute; reflexivity.
Qed.

(** C44: graphics programs. *)
Theorem c44_graphics : forall a code ls l y ss ty, program a code ls l y ->
  options_before (start code) (map (fun p => c_cur (fst p)) l) ss -> In ty (types (List.concat ss)) -> ty <> 5%N ->
  (exists d, assemble a code = Fatal d) \/
  (container (List.concat ss) /\ ~ scratch_fits (List.concat ss) /\ assemble a code = Undef UB_signed_overflow).
Proof. exact graphics_rejected. Qed.
Print Assumptions c44_graphics.
Example c44_graphics_ex : (exists c1, options_at (start (lit ".type pixel
NOP;")) [SType false 4] c1) /\ exists d, assemble true (lit ".type pixel
NOP;") = Fatal d.
Proof.
  split; [|eexists; vm_compute; reflexivity].
  eexists. one 2%nat ltac:(apply (W_type "pixel" 4); cbn; tauto). apply options_none.
Qed.

(** C45: the command changes its output file and nothing else. *)
Theorem c45_changes : forall a args w r w', cli_main a args w = (r, w') ->
  (r <> Ok tt /\ w' = w) \/
  (r = Ok tt /\ exists i o data p bin out, names args i o /\ files w i = Some data /\ before_nul data p /\ assemble a p = Ok bin /\
     writable w o = true /\ little_endian bin out /\ files w' o = Some out /\
     (forall n, n <> o -> files w' n = files w n) /\ (forall n, writable w' n = writable w n)).
Proof. exact cli_changes. Qed.
Print Assumptions c45_changes.
Theorem c45_succeeds : forall a args w i o data p bin, names args i o -> files w i = Some data -> before_nul data p -> assemble a p = Ok bin ->
  writable w o = true -> exists w', cli_main a args w = (Ok tt, w').
Proof. exact cli_succeeds. Qed.
Print Assumptions c45_succeeds.
Theorem c45_bounded : forall a code w, assemble a code = Ok w -> Forall (fun v => (v < 2 ^ 64)%N) w.
Proof. exact output_bounded. Qed.
Print Assumptions c45_bounded.
Definition disk : world := World (fun n => if text_eqb n (lit "in") then Some (lit "NOP; NOP;") else None) (fun _ => true).
Example c45_changes_ex : exists w', cli_main true [lit "-o"; lit "out"; lit "in"] disk = (Ok tt, w') /\
  files w' (lit "in") = Some (lit "NOP; NOP;") /\ exists out, files w' (lit "out") = Some out /\ List.length out = 32%nat /\
  map N_of_ascii (firstn 16 out) = [0xE0; 7; 0; 0xFC; 0; 0x80; 0x1F; 0; 0; 0xF; 7; 0; 0; 0; 0xB0; 0x50]%N.
Proof.
  eexists. split; [vm_compute; reflexivity|]. split; [reflexivity|]. eexists. split; [reflexivity|]. split; reflexivity.
Qed.
Example c45_bounded_ex : assemble true boxed = Ok boxed_words.
Proof. exact boxed_ok. Qed.

(** C46: argument vectors. *)
Theorem c46_order : forall a w i o, i <> dash_o -> cli_main a [i; dash_o; o] w = cli_main a [dash_o; o; i] w.
Proof. exact cli_order. Qed.
Print Assumptions c46_order.
Theorem c46_rejects : forall a args w m, args_error args m -> cli_main a args w = (Fatal (Diag None m), w).
Proof. exact cli_rejects. Qed.
Print Assumptions c46_rejects.
Theorem c46_complete : forall args, (exists i o, names args i o /\ forall m, ~ args_error args m) \/
  (exists m, args_error args m /\ (forall m', args_error args m' -> m' = m) /\ forall i o, ~ names args i o).
Proof. exact args_complete. Qed.
Print Assumptions c46_complete.
Example c46_rejects_ex : args_error [lit "a"; lit "-o"; lit "b"; lit "c"] "command line input file already provided" /\
  args_error [lit "a"; lit "-o"] "expected command line syntax: ""-o"" <output file>" /\
  names [lit "-o"; lit "-o"; lit "a"] (lit "a") (lit "-o").
Proof.
  split; [|split].
  - apply (E_second_input [lit "a"; lit "-o"; lit "b"]); [discriminate|]. exists (lit "a"). split; [discriminate|]. right. exists (lit "b"). auto.
  - apply (E_dangling [lit "a"]). right. exists (lit "a"). split; [discriminate|reflexivity].
  - split; [discriminate|]. right. reflexivity.
Qed.
