(** * Functions: the functions of operand.h, helper.cpp and parse.cpp, read from their text. *)
From Verif Require Import Base Source SourceText Cxx.
Local Open Scope string_scope.
Local Open Scope list_scope.

Definition fns_of (o : option (list fn * list (string * N))) : list fn :=
  match o with Some (f, _) => f | None => [] end.
Definition enums_of (o : option (list fn * list (string * N))) : list (string * N) :=
  match o with Some (_, e) => e | None => [] end.

Definition operand_functions : list fn.
Proof. let x := eval vm_compute in (fns_of (read_functions operand_h)) in exact x. Defined.

Definition helper_functions : list fn.
Proof. let x := eval vm_compute in (fns_of (read_functions helper_cpp)) in exact x. Defined.

Definition enumerators : list (string * N).
Proof. let x := eval vm_compute in (enums_of (read_functions operand_h)) in exact x. Defined.

Lemma operand_h_read : read_functions operand_h = Some (operand_functions, enumerators).
Proof. vm_cast_no_check (eq_refl (Some (operand_functions, enumerators))). Qed.

Lemma helper_cpp_read : read_functions helper_cpp = Some (helper_functions, []).
Proof. vm_cast_no_check (eq_refl (Some (helper_functions, @nil (string * N)))). Qed.

(** [assemble_predicate] and [assemble_sched], the functions of parse.cpp that return [error]. *)
Definition parse_functions : list fn.
Proof. let x := eval vm_compute in (fns_of (read_functions parse_cpp)) in exact x. Defined.

Lemma parse_cpp_read : read_functions parse_cpp = Some (parse_functions, []).
Proof. vm_cast_no_check (eq_refl (Some (parse_functions, @nil (string * N)))). Qed.

(** The bit-fields of [sched]. *)
Definition sched_fields : list (string * N).
Proof. let x := eval vm_compute in (match read_bit_fields opcode_h with Some l => l | None => [] end) in exact x. Defined.

Lemma opcode_h_read : read_bit_fields opcode_h = Some sched_fields.
Proof. vm_cast_no_check (eq_refl (Some sched_fields)). Qed.

Definition functions : list fn := operand_functions ++ helper_functions.

(** The operands each line of the table names. *)
Definition references : list (list targ).
Proof. let x := eval vm_compute in (match read_refs table_h with Some l => l | None => [] end) in exact x. Defined.

Lemma table_h_read : read_refs table_h = Some references.
Proof. vm_cast_no_check (eq_refl (Some references)). Qed.
