(** * Base: texts, machine words and the outcome type shared by the whole model.

    Modelled sources: /repo/src/error.{h,cpp}, /repo/src/opcode.h,
    /repo/src/helper.h (max_bits).  Nothing in this file is a proof. *)
From Coq Require Export List Ascii String ZArith NArith Bool.
Export ListNotations.
Open Scope Z_scope.

(** ** Texts *)

(** A C++ [const char*] text.  Every [char] is an [ascii]; [text] lists the
    bytes of the [std::string] handed to [nxas::assemble] and the terminating
    NUL that [c_str()] guarantees is the empty tail. *)
Definition text := list ascii.

(** A string literal of the C++ source. *)
Definition lit (s : string) : text := list_ascii_of_string s.

(** Byte-wise equality of two texts: [std::string_view::compare(...) == 0]. *)
Fixpoint text_eqb (a b : text) : bool :=
  match a, b with
  | [], [] => true
  | x :: a', y :: b' => Ascii.eqb x y && text_eqb a' b'
  | _, _ => false
  end.

(** The NUL character. *)
Definition NUL : ascii := Ascii false false false false false false false false.

(** [text[0]] and [text[1]] for a pointer whose remaining bytes are [l]:
    at the end of the string the byte read is the terminating NUL. *)
Definition peek (l : text) : ascii := match l with [] => NUL | c :: _ => c end.
Definition peek1 (l : text) : ascii :=
  match l with _ :: c :: _ => c | _ => NUL end.

(** ** Outcomes *)

(** The arguments behind a format string, with the C type they are passed as.
    [APtr s] is a pointer to bytes that begin with [s] and need not end there. *)
Inductive arg :=
| AInt (z : Z)            (* int *)
| ALong (z : Z)           (* int64_t, a long on the supported targets *)
| ASize (n : N)           (* size_t *)
| AStr (s : text)         (* const char*, NUL terminated *)
| APtr (s : text).        (* const char* without a NUL of its own *)

(** [fmt, ...] of [fail] and [fatal_error] (src/error.h:31-35). *)
Record message := Message { m_format : string; m_args : list arg }.
(** A format string without arguments. *)
Definition plain (fmt : string) : message := Message fmt [].
Coercion plain : string >-> message.
Bind Scope string_scope with message.

(** ["\33[1m" s "\33[0m"] and ["\33[1;31m" s "\33[0m"] of the C++ literals. *)
Definition ESC : string := String (Ascii true true false true true false false false) EmptyString.
Definition bold (s : string) : string := (ESC ++ "[1m" ++ s ++ ESC ++ "[0m")%string.
Definition bold_red (s : string) : string := (ESC ++ "[1;31m" ++ s ++ ESC ++ "[0m")%string.

(** Diagnostics: the position stored in the offending token (zero based, absent
    for [fatal_error(const char*, ...)]) and the message.  Diag.v prints them. *)
Record diag := Diag { d_pos : option (Z * Z); d_msg : message }.

(** The ways the C++ program leaves the language standard. *)
Inductive ub :=
| UB_read_past_nul        (* reading a byte beyond the terminating NUL *)
| UB_inactive_union       (* reading token_data through the wrong member *)
| UB_table_overrun        (* walking a table without a nullptr sentinel *)
| UB_signed_overflow      (* signed integer overflow *)
| UB_vector_index         (* std::vector::operator[] out of range *)
| UB_null_format.         (* vfprintf with a null format string *)

(** What running a piece of the program can do.
    - [Ok]: it returns normally;
    - [Err]: it returns a set [error] object (src/error.h:14-29);
    - [Fatal]: it prints a diagnostic and calls [exit(EXIT_FAILURE)]
      ([fatal_error], [error::raise], src/error.cpp:9-14,43-69);
    - [Abort]: an [assert] fails (only in builds without NDEBUG);
    - [Undef]: the behaviour is undefined;
    - [OutOfFuel]: model artefact, an unbounded loop ran out of its budget.
      Theorem [assemble_terminates] shows that it is never the result. *)
Inductive res (A : Type) : Type :=
| Ok (a : A)
| Err (e : diag)
| Fatal (d : diag)
| Abort (why : string)
| Undef (u : ub)
| OutOfFuel.
Arguments Ok {A} a.
Arguments Err {A} e.
Arguments Fatal {A} d.
Arguments Abort {A} why.
Arguments Undef {A} u.
Arguments OutOfFuel {A}.

Definition bind {A B} (m : res A) (k : A -> res B) : res B :=
  match m with
  | Ok a => k a
  | Err e => Err e
  | Fatal d => Fatal d
  | Abort w => Abort w
  | Undef u => Undef u
  | OutOfFuel => OutOfFuel
  end.

Notation "'let*' x ':=' e 'in' k" := (bind e (fun x => k))
  (at level 200, x pattern, e at level 100, k at level 200, right associativity).

(** ** Machine words *)

(** [uint64_t] values are [N] below 2^64; [uint32_t] below 2^32. *)
Definition two64 : N := 18446744073709551616.
Definition two32 : N := 4294967296.

(** [static_cast<uint64_t>(z)] for a signed integer. *)
Definition u64_of_Z (z : Z) : N := Z.to_N (z mod Z.of_N two64).
(** [static_cast<uint32_t>(z)]. *)
Definition u32_of_Z (z : Z) : N := Z.to_N (z mod Z.of_N two32).
(** [static_cast<int64_t>(n)] and [static_cast<int>(z)] (modular since C++20). *)
Definition s64_of_N (n : N) : Z :=
  if N.ltb n (N.div two64 2) then Z.of_N n else Z.of_N n - Z.of_N two64.
Definition s32_of_Z (z : Z) : Z :=
  let m := z mod Z.of_N two32 in
  if m <? Z.of_N two32 / 2 then m else m - Z.of_N two32.

(** [x << s] on [uint64_t], [s < 64]. *)
Definition shl64 (x s : N) : N := N.modulo (N.shiftl x s) two64.
(** [x & ~mask] on [uint64_t]. *)
Definition andnot (x mask : N) : N := N.ldiff x mask.

(** src/helper.h:17-20: [max_bits(size)] = (1 << size) - 1. *)
Definition max_bits (size : N) : N := (N.shiftl 1 size - 1)%N.

(** Range of [int64_t]. *)
Definition INT64_MIN : Z := -9223372036854775808.
Definition INT64_MAX : Z := 9223372036854775807.
Definition INT32_MIN : Z := -2147483648.
Definition INT32_MAX : Z := 2147483647.

(** ** struct opcode (src/opcode.h:23-45)

    [reuse] is a [uint32_t]; [sched] is the [raw] view of the bit-field union
    (bit-fields allocated from the least significant bit, as GCC, Clang and
    MSVC do on the supported targets; reading [raw] after writing [values] is
    the union punning those compilers document). *)
Record opcode := Opcode { value : N; reuse : N; sched : N }.
Definition opcode0 : opcode := Opcode 0 0 0.

(** src/opcode.h:18-20. *)
Definition reuse_gpr8 : N := 1.
Definition reuse_gpr20 : N := 2.
Definition reuse_gpr39 : N := 4.

(** src/opcode.h:6-14. *)
Definition ZERO_REGISTER : N := 255.
Definition NUM_USER_REGISTERS : Z := 255.

(** src/opcode.h:47-51.  [asserts] is false in NDEBUG builds. *)
Definition add_bits (asserts : bool) (op : opcode) (bits : N) : res opcode :=
  if asserts && negb (N.eqb (N.land (value op) bits) 0)
  then Abort "(value & bits) == 0"
  else Ok (Opcode (N.lor (value op) bits) (reuse op) (sched op)).

(** src/opcode.h:53-57.  [static_cast<uint8_t>(flag)] keeps the flags 1,2,4. *)
Definition add_reuse (asserts : bool) (op : opcode) (flag : N) : res opcode :=
  if asserts && negb (N.eqb (N.land (reuse op) flag) 0)
  then Abort "(reuse & flag) == 0"
  else Ok (Opcode (value op) (N.lor (reuse op) (N.modulo flag 256)) (sched op)).
