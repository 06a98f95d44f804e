(** * SpecEdit: replacing one instruction of a program. *)
From Verif Require Import Base Float Lexer Operand Catalogue Table Spec SpecOperand SpecInsn SpecLex SpecOpts SpecContainer SpecProgram SpecLink.
Local Open Scope string_scope.
Local Open Scope list_scope.
Open Scope Z_scope.

(** The tokens [ks], from the guard to ';', are the instruction [op] at address [pc]. *)
Definition instruction (lab : text -> option Z) (pc : Z) (ks : list tkind) (op : opcode) : Prop :=
  exists pre i post gi gn kg kf, table = pre ++ i :: post /\ guard_tokens gi gn kg /\ form_spells lab pc i gi gn kf op /\
    (forall j op', In j pre -> i_mnemonic j = i_mnemonic i -> ~ form_spells lab pc j gi gn kf op') /\
    ks = kg ++ id (i_mnemonic i) :: kf.
(** The beginning of a sentence; the token behind it is on line [l]. *)
Inductive front (lab : text -> option Z) (l : Z) : nat -> list (tkind * Z) -> list setting -> list opcode -> Prop :=
| front_nil : forall n, front lab l n [] [] []
| front_option : forall n s t us ts ss ops,
    written s (map fst (t :: us)) -> (one_line s -> Forall (fun u => snd u = snd t) us) -> hd l (map snd ts) <> snd t ->
    front lab l n ts ss ops -> front lab l n (t :: us ++ ts) (s :: ss) ops
| front_instruction : forall n us ts ss op ops, instruction lab (addr n) (map fst us) op ->
    front lab l (S n) ts ss ops -> front lab l n (us ++ ts) ss (op :: ops).

(** The program [code] with the file [w]: instruction [n] has the tokens [us],
    and [before] and [after] are the tokens around it. *)
Definition instruction_at (code : text) (w : list N) (n : nat) (before us after : list (tkind * Z)) : Prop :=
  exists lab ss1 ops1 op ss2 ops2, lexes code 0 (before ++ us ++ after) /\ labelled code lab /\
    front lab (hd 0 (map snd us)) 0 before ss1 ops1 /\ List.length ops1 = n /\ instruction lab (addr n) (map fst us) op /\
    sentence lab (S n) after ss2 ops2 /\ file code (ss1 ++ ss2) (code_words (ops1 ++ op :: ops2)) w.
(** The same program with the tokens [us'] for that instruction, starting on the
    same line. *)
Definition rewritten (code code' : text) (before us us' after : list (tkind * Z)) : Prop :=
  lexes code' 0 (before ++ us' ++ after) /\ hd 0 (map snd us') = hd 0 (map snd us) /\ same_places code code'.

(** The files differ in word [j] of the code only, which is changed by [f].  A
    container puts 32 words in front. *)
Definition changed_at (j : nat) (f : N -> N) (w w' : list N) : Prop :=
  exists h p x q, (h = [] \/ List.length h = 32%nat) /\ w = h ++ p ++ x :: q /\ w' = h ++ p ++ f x :: q /\ List.length p = j.
(** Instruction [n] and its control word in the code. *)
Definition word_at (n : nat) : nat := (4 * (n / 3) + 1 + n mod 3)%nat.
Definition control_at (n : nat) : nat := (4 * (n / 3))%nat.

(** The word [x] with the guard [g]. *)
Definition with_guard (g x : N) : N := N.lor (N.ldiff x (15 * 2 ^ 16)) (g * 2 ^ 16).
(** The control word [x] with the record [s'] for [s] in its slot [k]. *)
Definition with_record (k : nat) (s s' x : N) : N := (x - s * 2 ^ (21 * N.of_nat k) + s' * 2 ^ (21 * N.of_nat k))%N.

(** A name that is no condition and no '.' word. *)
Definition plain (name : text) : Prop := name <> lit "CC" /\ hd_error name <> Some "."%char.
(** The token stands for the address [z]. *)
Definition stands_for (code : text) (k : tkind) (z : Z) : Prop :=
  k = TImm z \/ exists name p, k = TIdent name /\ plain name /\ first_defines code p name /\ z = addr (semis p).

Definition count_semis (ts : list (tkind * Z)) : nat := List.length (filter (fun t => match fst t with TSemi => true | _ => false end) ts).
(** [us], behind [before], are tokens from behind a ';' to the next: the [n]th
    of them, without an option. *)
Definition statement (n : nat) (before us : list (tkind * Z)) : Prop :=
  count_semis before = n /\ (before = [] \/ exists b l, before = b ++ [(TSemi, l)]) /\
  (forall s l us', us <> (TIdent ("."%char :: s), l) :: us') /\ (exists x l, us = x ++ [(TSemi, l)] /\ count_semis x = 0%nat).
