(** * SpecRename: programs with other labels. *)
From Verif Require Import Base Float Lexer Operand Catalogue Table Spec SpecOperand SpecInsn SpecLex SpecOpts SpecContainer SpecProgram SpecLink SpecEdit.
Local Open Scope string_scope.
Local Open Scope list_scope.
Open Scope Z_scope.

(** The name is a label of both texts, in front of the same instruction, or of
    none of them. *)
Definition same_place (code code' name : text) : Prop :=
  forall n, (exists p, first_defines code p name /\ semis p = n) <-> (exists p, first_defines code' p name /\ semis p = n).
(** [retargeted code code' ts ts']: the tokens of [code] and those of [code'].
    They are the same, on the same lines, except that a jump, behind [mid], may
    name its target differently.  The other words mean the same place in both,
    if they are labels. *)
Inductive retargeted (code code' : text) : list (tkind * Z) -> list (tkind * Z) -> Prop :=
| retargeted_end : retargeted code code' [] []
| retargeted_same : forall k l ts ts', (forall name, k = TIdent name -> same_place code code' name) ->
    retargeted code code' ts ts' -> retargeted code code' ((k, l) :: ts) ((k, l) :: ts')
| retargeted_jump : forall m l mid k k' l' z ts ts', In m jumps -> ~ In TAt (map fst mid) -> ~ In TSemi (map fst mid) ->
    (forall name, In (TIdent name) (id m :: map fst mid) -> same_place code code' name) ->
    stands_for code k z -> stands_for code' k' z -> retargeted code code' ts ts' ->
    retargeted code code' ((id m, l) :: mid ++ (k, l') :: ts) ((id m, l) :: mid ++ (k', l') :: ts').
