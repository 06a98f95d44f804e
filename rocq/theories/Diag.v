(** * Diag: what is printed on stderr.  /repo/src/error.cpp, and how
    /repo/src/command_line.cpp ends.

    The C library functions are modelled on the conversions the sources use
    ([%s], [%.*s], [%d], [%ld]).  [strict] asks for the argument types the C
    standard wants; otherwise an integer is read as the 64-bit targets the tool
    is built for do, where [va_arg(ap, int)] takes the low half of the argument.
    [None] stands for undefined behaviour. *)
From Verif Require Import Base Float Lexer Operand Catalogue Table Parse Assemble.
Local Open Scope char_scope.
Local Open Scope list_scope.
Open Scope Z_scope.

(** ** printf (C17 7.21.6.1) *)

(** Decimal digits of [z], most significant first; [fuel] bounds their number. *)
Fixpoint decimal_digits (fuel : nat) (z : Z) : text :=
  match fuel with
  | O => []
  | S fuel' =>
      let last := [ascii_of_N (48 + Z.to_N (z mod 10))] in
      if z <? 10 then last else decimal_digits fuel' (z / 10) ++ last
  end.
Definition decimal_of (z : Z) : text :=
  let digits n := decimal_digits (S (Z.to_nat (Z.log2 n))) n in
  if z <? 0 then "-" :: digits (- z) else digits z.

(** [va_arg(ap, int)] and [va_arg(ap, long)]. *)
Definition int_arg (strict : bool) (a : arg) : option Z :=
  match a with
  | AInt z => Some z
  | ALong z => if strict then None else Some (s32_of_Z z)
  | ASize n => if strict then None else Some (s32_of_Z (Z.of_N n))
  | _ => None
  end.
Definition long_arg (a : arg) : option Z := match a with ALong z => Some z | _ => None end.

(** [%s]: the bytes before the NUL. *)
Definition string_arg (a : arg) : option text := match a with AStr s => Some (c_string s) | _ => None end.
(** [%.*s]: at most [p] bytes, all of them when [p] is negative.  Nothing is known
    of the memory behind the bytes of [APtr].  A precision of 0 prints nothing,
    also for the null pointer of an empty view. *)
Definition view_arg (p : Z) (a : arg) : option text :=
  match a with
  | AStr s => Some (if p <? 0 then c_string s else firstn (Z.to_nat p) (c_string s))
  | APtr s => if (p <? 0) || (Z.of_nat (List.length s) <? p) then None else Some (c_string (firstn (Z.to_nat p) s))
  | _ => None
  end.

Definition append (a b : option text) : option text :=
  match a, b with Some x, Some y => Some (x ++ y) | _, _ => None end.

(** The output for the format [fmt]; arguments that are not used are ignored. *)
Fixpoint format (strict : bool) (fmt : text) (args : list arg) : option text :=
  match fmt with
  | [] => Some []
  | ch :: fmt1 =>
      if negb (Ascii.eqb ch "%") then append (Some [ch]) (format strict fmt1 args)
      else
        match fmt1, args with
        | c1 :: fmt2, a :: args1 =>
            if Ascii.eqb c1 "s" then append (string_arg a) (format strict fmt2 args1)
            else if Ascii.eqb c1 "d" then
              append (option_map decimal_of (int_arg strict a)) (format strict fmt2 args1)
            else if Ascii.eqb c1 "l" then
              match fmt2 with
              | c2 :: fmt3 =>
                  if Ascii.eqb c2 "d" then
                    append (option_map decimal_of (long_arg a)) (format strict fmt3 args1)
                  else None
              | [] => None
              end
            else if Ascii.eqb c1 "." then
              match fmt2, args1 with
              | c2 :: c3 :: fmt4, b :: args2 =>
                  if Ascii.eqb c2 "*" && Ascii.eqb c3 "s" then
                    append (match int_arg strict a with Some p => view_arg p b | None => None end)
                      (format strict fmt4 args2)
                  else None
              | _, _ => None
              end
            else None
        | _, _ => None
        end
  end.
Definition printf (strict : bool) (m : message) : option text :=
  format strict (c_string (lit (m_format m))) (m_args m).

(** ** /repo/src/error.cpp *)

(** The two parts of the header (error.cpp:18, 47-49). *)
Definition place_format : string := (ESC ++ "[1m%s:" ++ ESC ++ "[1m%d:%d: ")%string.
Definition error_format : string := (bold_red "error:" ++ " ")%string.
Definition place_args (file : text) (l c : Z) : list arg := [AStr file; AInt (l + 1); AInt (c + 1)].

(** [snprintf(dst, size, ...)] for an output [s]: the bytes stored at [dst]. *)
Definition snprintf_bytes (size : Z) (s : text) : text :=
  if size <=? 0 then [] else firstn (Z.to_nat (size - 1)) s ++ [NUL].
(** Storing bytes into an array; beyond its end is undefined. *)
Definition store (buffer : text) (at_ : nat) (bytes : text) : option text :=
  if Nat.leb (at_ + List.length bytes) (List.length buffer)
  then Some (firstn at_ buffer ++ bytes ++ skipn (at_ + List.length bytes) buffer)
  else None.

(** error.cpp:16-41 [fail]: the contents of [message].  [int length] must not
    overflow. *)
Definition fail_message (strict : bool) (file : text) (l c : Z) (m : message) : option text :=
  match printf strict (Message (place_format ++ error_format) (place_args file l c)), printf strict m with
  | Some first, Some second =>
      let first_length := Z.of_nat (List.length first) in
      let second_length := Z.of_nat (List.length second) in
      let length := first_length + second_length + 1 in
      if INT32_MAX <? length then None
      else
        match store (repeat NUL (Z.to_nat length)) 0 (snprintf_bytes length first) with
        | Some buffer => store buffer (List.length first) (snprintf_bytes (length - first_length) second)
        | None => None
        end
  | _, _ => None
  end.
(** error.cpp:9-14 [error::raise]: [fputs] stops at the NUL. *)
Definition raise_output (buffer : text) : text := c_string buffer ++ [LF].

(** error.cpp:45-56 [fatal_error(token, ...)]. *)
Definition fatal_output (strict : bool) (file : text) (l c : Z) (m : message) : option text :=
  append (printf strict (Message place_format (place_args file l c)))
    (append (printf strict error_format) (append (printf strict m) (Some [LF]))).
(** error.cpp:58-69 [fatal_error(fmt, ...)]. *)
Definition fatal_plain_output (strict : bool) (m : message) : option text :=
  append (printf strict error_format) (append (printf strict m) (Some [LF])).

(** What the exit with the diagnostic [d] leaves on stderr. *)
Definition stderr_of (strict : bool) (file : text) (d : diag) : option text :=
  match d_pos d with
  | Some (l, c) => fatal_output strict file l c (d_msg d)
  | None => fatal_plain_output strict (d_msg d)
  end.

(** ** The end of the program *)

(** Exit status, stderr and the file system (command_line.cpp:24-64).  [None]:
    undefined behaviour, or an assert of a debug build.  The file name in the
    messages is [input_file] (command_line.cpp:54, context.h:45). *)
Definition cli_run (strict asserts : bool) (args : list text) (w : world) : option (Z * text * world) :=
  let file := match parse_args args None None with Ok (Some i, _) => i | _ => [] end in
  match cli_main asserts args w with
  | (Ok _, w') => Some (0, [], w')
  | (Fatal d, w') => match stderr_of strict file d with Some t => Some (1, t, w') | None => None end
  | _ => None
  end.
