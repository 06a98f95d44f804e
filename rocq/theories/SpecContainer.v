(** * SpecContainer: layout of a container (.dksh) file. *)
From Verif Require Import Base Spec SpecOpts.
Open Scope Z_scope.

(** The 32-bit field [k] of a sequence of little-endian words. *)
Definition word32 (w : list N) (k : nat) : N := field (nth (k / 2) w 0%N) (32 * N.of_nat (k mod 2)) 32.
(** The least multiple of [n] that is not below [z]. *)
Definition round_up (n z : Z) : Z := n * ((z + n - 1) / n).

(** Sizes in a program with the options [l]. *)
Definition shared_size (l : list setting) : Z := round_up 256 (int32 (latest shared_of 0 l)).
Definition local_size (l : list setting) : Z := round_up 16 (int32 (latest local_of 0 l)).
Definition scratch (l : list setting) : Z := 32 * local_size l + 2048.

(** The 32-bit fields of the first 256 bytes for [n] words of code; the fields
    that are not listed are zero. *)
Definition header_fields (l : list setting) (entry : Z) (n : nat) : list N :=
  let '(x, y, z) := latest group_of (1, 1, 1) l in
  [ (* file: "DKSH", header size, control size, code size, offset and number of programs *)
    0x48534B44%N; 24%N; 256%N; uint32 (round_up 256 (8 * Z.of_nat n)); 24%N; 1%N;
    (* program: type, entry point, registers, constant buffer offset and size, scratch size *)
    5%N; uint32 (entry - 8); 8%N; 0%N; 0%N; uint32 (scratch l);
    (* compute: block, shared, local positive, local negative, stack, barriers *)
    uint32 x; uint32 y; uint32 z; uint32 (shared_size l); uint32 (local_size l); 0%N; 2048%N; 0%N ].
(** The scratch size is computed in 32-bit signed arithmetic. *)
Definition scratch_fits (l : list setting) : Prop := - 2 ^ 31 <= 32 * local_size l /\ scratch l < 2 ^ 31.
(** Zeros that follow [n] words of code. *)
Definition padding (n : nat) : nat := 32 - n mod 32.
