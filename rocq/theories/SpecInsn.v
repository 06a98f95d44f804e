(** * SpecInsn: how an instruction may be written and what it stands for.

    Like [SpecOperand] this only mentions tokens and numbers. *)
From Verif Require Import Base Float Lexer Operand Catalogue Table Spec SpecOperand.
Local Open Scope string_scope.
Local Open Scope list_scope.
Open Scope Z_scope.

(** The guard predicate as the number in bits 16..19. *)
Definition guard_field (index : N) (negated : bool) : N := (index + (if negated then 8 else 0))%N.
(** The guard in front of the mnemonic: nothing, which means always. *)
Definition guard_tokens (gi : N) (gn : bool) (ks : list tkind) : Prop :=
  (ks = [] /\ gi = 7%N /\ gn = false) \/ ks = [TAt; TPred gi gn].
(** The mnemonics that have to be executed always. *)
Definition always_executed (mnemonic : string) : Prop := In mnemonic ["PBK"; "SSY"; "CAL"; "PCNT"].

(** The word before the operands: guard and opcode. *)
Definition bare_word (i : insn) (gi : N) (gn : bool) : N :=
  N.lor (place (guard_field gi gn) 16) (i_opcode i).

(** The tokens [ks] after the mnemonic, ';' included, write the form [i] at
    address [pc]: operands, annotations, ';'. *)
Definition form_spells (lab : text -> option Z) (pc : Z) (i : insn) (gi : N) (gn : bool)
  (ks : list tkind) (op : opcode) : Prop :=
  exists ko kn notes w r,
    ks = ko ++ kn ++ [TSemi] /\
    (always_executed (i_mnemonic i) -> gi = 7%N) /\
    spell_list lab pc (hd TSemi kn) (i_operands i) (bare_word i gi gn) ko w r /\
    notes_tokens notes kn /\ notes_ok notes /\
    op = Opcode w r (notes_record notes).

(** A whole instruction, of the form [i]. *)
Definition insn_spells (lab : text -> option Z) (pc : Z) (i : insn) (ks : list tkind) (op : opcode) : Prop :=
  exists kg gi gn kf, ks = kg ++ id (i_mnemonic i) :: kf /\ guard_tokens gi gn kg /\
    form_spells lab pc i gi gn kf op.

(** The token kinds read from [c], up to [c']. *)
Inductive scan : cursor -> list tkind -> cursor -> Prop :=
| scan_nil : forall c, scan c [] c
| scan_cons : forall c t c1 ks c', tokenize c = Ok (t, c1) -> scan c1 ks c' -> scan c (kind t :: ks) c'.
