(** * Assemble: /repo/src/nxas.cpp, /repo/src/write.cpp, /repo/src/dksh.cpp
    and /repo/src/command_line.cpp. *)
From Verif Require Import Base Float Lexer Operand Catalogue Table Parse.
Local Open Scope string_scope.
Local Open Scope list_scope.
Open Scope Z_scope.

(** ** /repo/src/dksh.cpp *)

(** dksh.cpp:71-79, on [size_t]: the mask is the sign-extended [~0xff]
    ([~0xf]).  [align8] really aligns to 16. *)
Definition align256 (value : N) : N :=
  N.land (N.modulo (value + 255) two64) (two64 - 256).
Definition align8 (value : N) : N :=
  N.land (N.modulo (value + 15) two64) (two64 - 16).

Definition u32 (n : N) : N := N.modulo n two32.

(** Little-endian packing of 32-bit fields into 64-bit words (the memcpy of
    dksh.cpp:140-142 on the little-endian targets). *)
Fixpoint pack_words (l : list N) : list N :=
  match l with
  | a :: b :: l' => N.lor a (N.shiftl b 32) :: pack_words l'
  | [a] => [a]
  | [] => []
  end.

Definition fatal_plain {A} (msg : message) : res A := Fatal (Diag None msg).

(** [(local_pos_sz + 0) * 32 + 0x800] in [int] arithmetic. *)
Definition scratch_size (local_pos_sz : Z) : res Z :=
  let r := local_pos_sz * 32 in
  if (r <? INT32_MIN) || (INT32_MAX <? r) || (INT32_MAX <? r + 2048)
  then Undef UB_signed_overflow else Ok (r + 2048).

(** dksh.cpp:90; [entrypoint] is never assigned. *)
Definition entry_message : message :=
  Message "entrypoint ""%s"" not found" [AStr (lit "main")].
(** dksh.cpp:81-144 [write_dksh].  Branches that only read fields which are
    never assigned (second entry point, fragment flags) write zeros. *)
Definition write_dksh (ls : labels) (o : options) (code_size : N) : res (list N) :=
  match o_type o with
  | None =>
      fatal_plain "no type provided, valid are types: vertex, tess_control, tess_eval, geometry, fragment, compute"
  | Some ty =>
      match find_label ls (lit "main") with
      | None => fatal_plain entry_message
      | Some entry =>
          if negb (Z.rem entry 32 =? 8) then fatal_plain "entrypoint is not aligned"
          else
            let local_pos_sz := s32_of_Z (Z.of_N (align8 (u64_of_Z (o_local o)))) in
            let* scratch := scratch_size local_pos_sz in
            let '(dx, dy, dz) := o_dims o in
            let header :=
              [0x48534B44%N;
               24%N; 256%N; u32 (align256 (code_size * 8)); 24%N; 1%N] in
            let program :=
              [ty; u32_of_Z (entry - 8); u32_of_Z (o_num_gprs o); 0%N; 0%N; u32_of_Z scratch] in
            let union :=
              if N.eqb ty 5 then
                [dx; dy; dz; u32 (align256 (u64_of_Z (o_shared o))); u32_of_Z local_pos_sz;
                 0%N; 2048%N; 0%N; 0%N]
              else repeat 0%N 9 in
            let fields := header ++ program ++ union ++ [0%N] in
            Ok (pack_words (fields ++ repeat 0%N (64 - List.length fields)))
      end
  end.

(** ** /repo/src/write.cpp:8-33 *)

(** [result.resize(result.size() + 32 - code.size() % 32)] appends zeros. *)
Definition binary (ls : labels) (o : options) (code : list N) : res (list N) :=
  let has_gfx_header := match o_type o with Some ty => negb (N.eqb ty 5) | None => false end in
  let len := N.of_nat (List.length code) in
  let code_size := (len + (if has_gfx_header then 8 else 0))%N in
  let* head := if o_dksh o then write_dksh ls o code_size else Ok [] in
  if has_gfx_header then fatal_plain "write_gfx_header is not implemented"
  else
    let tail := if o_dksh o then repeat 0%N (32 - List.length code mod 32) else [] in
    Ok (head ++ code ++ tail).

(** ** /repo/src/nxas.cpp *)

(** nxas.cpp:15-23. *)
Definition generate_sched (opcodes : list opcode) (index num_instructions address : nat) : N :=
  let shift := N.of_nat (address * 21) in
  if Nat.leb num_instructions (index + address) then shl64 0x7E0 shift
  else
    let op := nth (index + address) opcodes opcode0 in
    shl64 (N.lor (sched op) (shl64 (reuse op) 17)) shift.

(** nxas.cpp:45-54: [todo] instructions are left from [index] on. *)
Fixpoint blob_loop (opcodes : list opcode) (num index todo : nat) (blob : list N) : list N :=
  match todo with
  | O => blob
  | S todo' =>
      let blob :=
        if Nat.eqb (index mod 3) 0 then
          blob ++ [N.lor (N.lor (N.lor 0 (generate_sched opcodes index num 0))
                                (generate_sched opcodes index num 1))
                         (generate_sched opcodes index num 2)]
        else blob in
      blob_loop opcodes num (S index) todo' (blob ++ [value (nth index opcodes opcode0)])
  end.

(** nxas.cpp:55-57; three rounds are enough ([pad_loop_aligned]). *)
Definition NOP_WORD : N := 0x50B0000000070F00.
Fixpoint pad_loop (fuel : nat) (blob : list N) : list N :=
  match fuel with
  | O => blob
  | S fuel' =>
      if Nat.eqb (List.length blob mod 4) 0 then blob else pad_loop fuel' (blob ++ [NOP_WORD])
  end.

Definition emit (opcodes : list opcode) : list N :=
  let n := List.length opcodes in
  pad_loop 3 (blob_loop opcodes n 0 n []).

(** [std::ranges::count(code, ';')], over the whole string. *)
Definition count_semi (code : text) : nat :=
  List.length (filter (Ascii.eqb ";"%char) code).

(** nxas.cpp:37-39: the decode loop.  [opcodes[index++]] on a vector of [max]
    elements; [acc] holds the decoded prefix in reverse.  Returns the final
    options and the decoded opcodes. *)
Fixpoint decode_loop (fuel : nat) (asserts : bool) (ls : labels) (max index : nat) (x : ctx)
  (acc : list opcode) : res (options * list opcode) :=
  match fuel with
  | O => OutOfFuel
  | S fuel' =>
      if Nat.leb max index then Undef UB_vector_index
      else
        let* r := parse_instruction asserts ls x opcode0 in
        match r with
        | None =>
            (* index was incremented by the failing call too *)
            if asserts && negb (Nat.eqb (S index) max)
            then Abort "index == max_decode_instructions"
            else Ok (c_opts x, rev acc)
        | Some (x', op) => decode_loop fuel' asserts ls max (S index) x' (op :: acc)
        end
  end.

(** nxas.cpp:25-59 [nxas::assemble].  [filename] only appears in messages. *)
Definition assemble (asserts : bool) (code : text) : res (list N) :=
  let* ls := generate_labels code in
  let max := S (count_semi code) in
  let* (o, opcodes) :=
    decode_loop (S (S (List.length code))) asserts ls max 0 (Ctx (Cursor code 0 0) 0 options0) [] in
  binary ls o (emit opcodes).

(** ** /repo/src/command_line.cpp *)

(** A file system: contents of readable files, and which names can be opened
    for writing.  I/O errors while reading or writing are not modelled. *)
Record world := World { files : text -> option text; writable : text -> bool }.

Definition write_file (w : world) (name data : text) : world :=
  World (fun n => if text_eqb n name then Some data else files w n) (writable w).

(** Little-endian bytes of a word ([reinterpret_cast<const char*>]). *)
Fixpoint le_bytes (n : nat) (w : N) : text :=
  match n with
  | O => []
  | S n' => ascii_of_N (N.land w 255) :: le_bytes n' (N.shiftr w 8)
  end.
Definition words_to_bytes (l : list N) : text := flat_map (le_bytes 8) l.

(** command_line.cpp:29-46: the argument loop over [argv[1..]]. *)
Fixpoint parse_args (args : list text) (input output : option text)
  : res (option text * option text) :=
  match args with
  | [] => Ok (input, output)
  | a :: args' =>
      if text_eqb a (lit "-o") then
        match output with
        | Some _ => fatal_plain "command line output file already provided"
        | None =>
            match args' with
            | [] => fatal_plain "expected command line syntax: ""-o"" <output file>"
            | f :: args'' => parse_args args'' input (Some f)
            end
        end
      else
        match input with
        | Some _ => fatal_plain "command line input file already provided"
        | None => parse_args args' (Some a) output
        end
  end.

(** [std::string(text.c_str())]: stops at the first NUL. *)
Fixpoint c_string (l : text) : text :=
  match l with
  | [] => []
  | ch :: l' => if Ascii.eqb ch NUL then [] else ch :: c_string l'
  end.

(** command_line.cpp:10-22.  A file that cannot be opened reaches
    [fatal_error(nullptr, ...)], whose format string is null. *)
Definition read_file (w : world) (name : text) : res text :=
  match files w name with
  | Some data => Ok data
  | None => Undef UB_null_format
  end.

(** command_line.cpp:58. *)
Definition open_message (name : text) : message := Message "%s: failed to open" [AStr name].
(** command_line.cpp:24-64: outcome and final file system. *)
Definition cli_main (asserts : bool) (args : list text) (w : world) : res unit * world :=
  let r :=
    let* (input, output) := parse_args args None None in
    match input with
    | None => fatal_plain "no input file"
    | Some input_file =>
        match output with
        | None => fatal_plain "no output file"
        | Some output_file =>
            let* input_text := read_file w input_file in
            let* bin := assemble asserts (c_string input_text) in
            if writable w output_file then Ok (output_file, words_to_bytes bin)
            else fatal_plain (open_message output_file)
        end
    end in
  match r with
  | Ok (f, data) => (Ok tt, write_file w f data)
  | Err e => (Err e, w)
  | Fatal d => (Fatal d, w)
  | Abort s => (Abort s, w)
  | Undef u => (Undef u, w)
  | OutOfFuel => (OutOfFuel, w)
  end.
