(** * SpecProgram: which texts are programs, and the file each of them stands for.

    Put together from the specifications of tokens ([SpecLex]), instructions
    ([SpecInsn]), options ([SpecOpts]), labels and layout ([Spec]) and containers
    ([SpecContainer]).  No function of the parser or the writer occurs. *)
From Verif Require Import Base Float Lexer Operand Catalogue Table Spec SpecOperand SpecInsn SpecLex SpecOpts SpecContainer.
Local Open Scope string_scope.
Local Open Scope list_scope.
Open Scope Z_scope.

(** ** Text to tokens *)

Definition newlines (s : text) : Z := Z.of_nat (List.length (filter (Ascii.eqb "010"%char) s)).
(** The text [q], which starts on line [n], consists of the tokens [ts]; each
    comes with its line. *)
Inductive lexes : text -> Z -> list (tkind * Z) -> Prop :=
| lexes_end : forall g n, gap g [] -> lexes g n []
| lexes_token : forall g s k q n ts, gap g (s ++ q) -> lexeme s k q -> lexes q (n + newlines (g ++ s)) ts ->
    lexes (g ++ s ++ q) n ((k, n + newlines g) :: ts).

(** ** Tokens to instructions *)

(** [sentence lab n ts ss ops]: with [n] instructions in front, the tokens [ts]
    are options [ss] and the instructions [ops].  An option takes its own line;
    an instruction is read as the first form of its mnemonic that fits. *)
Inductive sentence (lab : text -> option Z) : nat -> list (tkind * Z) -> list setting -> list opcode -> Prop :=
| sentence_end : forall n, sentence lab n [] [] []
| sentence_option : forall n s t us v ts ss ops,
    written s (map fst (t :: us)) -> (one_line s -> Forall (fun u => snd u = snd t) us) -> snd v <> snd t ->
    sentence lab n (v :: ts) ss ops -> sentence lab n (t :: us ++ v :: ts) (s :: ss) ops
| sentence_instruction : forall n pre i post gi gn kg kf us ts ss op ops,
    table = pre ++ i :: post -> guard_tokens gi gn kg ->
    form_spells lab (addr n) i gi gn kf op ->
    (forall j op', In j pre -> i_mnemonic j = i_mnemonic i -> ~ form_spells lab (addr n) j gi gn kf op') ->
    map fst us = kg ++ id (i_mnemonic i) :: kf ->
    sentence lab (S n) ts ss ops -> sentence lab n (us ++ ts) ss (op :: ops).

(** The labels of a text. *)
Definition labelled (code : text) (lab : text -> option Z) : Prop :=
  forall name z, lab name = Some z <-> exists p, first_defines code p name /\ z = addr (semis p).

(** ** Instructions to words *)

(** Control word groups of the instructions, in order. *)
Definition code_words (ops : list opcode) : list N :=
  layout (map (fun op => (sched op, reuse op)) ops) (map value ops).
(** 32-bit fields as words, the first one in the low half. *)
Inductive packed : list N -> list N -> Prop :=
| packed_nil : packed [] []
| packed_two : forall lo hi fs ws, packed fs ws -> packed (lo :: hi :: fs) ((lo + 2 ^ 32 * hi)%N :: ws).
(** The file for the options [ss] and the code [out]. *)
Inductive file (code : text) (ss : list setting) (out : list N) : list N -> Prop :=
| file_raw : types ss = [] \/ types ss = [5%N] /\ ~ container ss -> file code ss out out
| file_container : forall p head, types ss = [5%N] -> container ss ->
    first_defines code p (lit "main") -> (semis p mod 3 = 0)%nat -> scratch_fits ss ->
    packed (header_fields ss (addr (semis p)) (List.length out) ++ repeat 0%N 44) head ->
    file code ss out (head ++ out ++ repeat 0%N (padding (List.length out))).

(** The text [code] is a program and [w] are the words of its file. *)
Definition means (code : text) (w : list N) : Prop :=
  exists ts lab ss ops, lexes code 0 ts /\ labelled code lab /\ sentence lab 0 ts ss ops /\ file code ss (code_words ops) w.
