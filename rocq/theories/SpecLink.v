(** * SpecLink: programs side by side, and programs laid out differently. *)
From Verif Require Import Base Float Lexer Operand Catalogue Table Spec SpecOperand SpecInsn SpecLex SpecOpts SpecContainer SpecProgram.
Local Open Scope string_scope.
Local Open Scope list_scope.
Open Scope Z_scope.

(** [part code ops]: the text is a program without options, [ops] are its
    instructions, and each ';' character ends one of them. *)
Definition part (code : text) (ops : list opcode) : Prop :=
  exists ts lab, lexes code 0 ts /\ labelled code lab /\ sentence lab 0 ts [] ops /\ semis code = List.length ops.
(** The text has a definition of the label. *)
Definition defined (code name : text) : Prop := exists p, defines code p name.

(** No statement starts with '.': the text has no options. *)
Definition optionless (code : text) : Prop :=
  forall ts pre s post, lexes code 0 ts -> map fst ts = pre ++ TIdent ("."%char :: s) :: post -> last pre TSemi <> TSemi.

(** The instructions whose operand is relative to their own address. *)
Definition jumps : list string := ["BRA"; "PBK"; "SSY"; "CAL"; "PCNT"]%string.
(** No jump has a number for its target: behind its mnemonic, numbers only occur
    in annotations. *)
Definition symbolic (code : text) : Prop :=
  forall ts pre m mid z post, lexes code 0 ts -> map fst ts = pre ++ id m :: mid ++ TImm z :: post -> In m jumps ->
    In TAt mid \/ In TSemi mid.

(** The same tokens, on lines with other numbers: a token is on the line of a
    '.' word, which might be an option, in [ts] iff it is in [us]. *)
Definition alike (ts us : list (tkind * Z)) : Prop :=
  exists l : list (tkind * (Z * Z)), ts = map (fun x => (fst x, fst (snd x))) l /\ us = map (fun x => (fst x, snd (snd x))) l /\
    forall x y s, In x l -> In y l -> fst x = TIdent ("."%char :: s) -> (fst (snd y) = fst (snd x) <-> snd (snd y) = snd (snd x)).
(** The same labels in front of the same instructions. *)
Definition same_places (code code' : text) : Prop :=
  forall name n, (exists p, first_defines code p name /\ semis p = n) <-> (exists p, first_defines code' p name /\ semis p = n).
