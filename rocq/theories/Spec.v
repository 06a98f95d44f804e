(** * Spec: vocabulary of the theorems, independent of the model's helpers. *)
From Verif Require Import Base.
From Coq Require Import Lia.
Open Scope Z_scope.

(** Number of ';' in a text. *)
Fixpoint semis (p : text) : nat :=
  match p with
  | [] => O
  | ch :: p' => if Ascii.eqb ch ";"%char then S (semis p') else semis p'
  end.

(** Byte offset of instruction [k]: groups of three instructions, each group
    preceded by one control word, every word 8 bytes. *)
Definition addr (k : nat) : Z := 8 * (4 * (Z.of_nat k / 3) + 1 + Z.of_nat k mod 3).

(** Line (number of newlines) and column (tabs count four) after a text. *)
Fixpoint line_after (p : text) : Z :=
  match p with
  | [] => 0
  | ch :: p' => (if Ascii.eqb ch (ascii_of_N 10) then 1 else 0) + line_after p'
  end.
Definition column_step (c : Z) (ch : ascii) : Z :=
  if Ascii.eqb ch (ascii_of_N 9) then c + 4
  else if Ascii.eqb ch (ascii_of_N 10) then 0 else c + 1.
Definition column_after (p : text) : Z := fold_left column_step p 0.

(** The field of [n] bits at bit [a] of a word. *)
Definition field (w : N) (a n : N) : N := N.land (N.shiftr w a) (N.ones n).

(** ** Label definitions *)

(** [p] ends at the beginning of a line. *)
Definition line_start (p : text) : Prop := p = [] \/ exists p', p = p' ++ [ascii_of_N 10].
Definition letter (ch : ascii) : Prop :=
  (97 <= N_of_ascii ch <= 122)%N \/ (65 <= N_of_ascii ch <= 90)%N.
Definition digit (ch : ascii) : Prop := (48 <= N_of_ascii ch <= 57)%N.
(** A letter, then letters, digits and underscores. *)
Definition label_name (s : text) : Prop :=
  exists ch s', s = ch :: s' /\ letter ch /\
    Forall (fun c => letter c \/ digit c \/ c = "_"%char) s'.
(** [name:] at the beginning of a line, after the text [p]. *)
Definition defines (code p name : text) : Prop :=
  line_start p /\ label_name name /\ exists q, code = p ++ name ++ ":"%char :: q.
(** ... and nowhere before. *)
Definition first_defines (code p name : text) : Prop :=
  defines code p name /\
  forall p', defines code p' name -> (List.length p <= List.length p')%nat.

(** ** Layout of the emitted code *)

(** The NOP that fills the last group. *)
Definition NOP : N := 0x50B0000000070F00.
(** Scheduling record of instruction [k]: the 17 bits of the annotations and
    the 4 reuse bits; no barriers for missing instructions. *)
Definition record (recs : list (N * N)) (k : nat) : N :=
  match nth_error recs k with
  | Some (sched, reuse) => (sched + reuse * 2 ^ 17)%N
  | None => 0x7E0%N
  end.
(** Control word of group [g]: three records of 21 bits. *)
Definition control_word (recs : list (N * N)) (g : nat) : N :=
  (record recs (3 * g) + record recs (3 * g + 1) * 2 ^ 21 + record recs (3 * g + 2) * 2 ^ 42)%N.
(** Word [j] of the code of a program with the given instruction words. *)
Definition layout_word (recs : list (N * N)) (words : list N) (j : nat) : N :=
  if Nat.eqb (j mod 4) 0 then control_word recs (j / 4)
  else nth (3 * (j / 4) + (j mod 4 - 1)) words NOP.
Definition layout (recs : list (N * N)) (words : list N) : list N :=
  map (layout_word recs words) (seq 0 (4 * ((List.length words + 2) / 3))).
