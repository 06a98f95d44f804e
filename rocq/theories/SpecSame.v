(** * SpecSame: when two spellings of an operand say the same.

    Only tokens are compared.  What a word cannot show is listed here: optional
    words without a bit, defaults written out, an absent base register, the
    bits of a floating-point value or of a scaled offset that no field holds. *)
From Verif Require Import Base Float Lexer Operand Catalogue Table Spec SpecOperand SpecInsn.
Local Open Scope string_scope.
Local Open Scope list_scope.
Open Scope Z_scope.

(** The spellings that all stand for the default of an operand. *)
Definition defaults (o : opnd) : list (list tkind) :=
  match o with
  | OOptText s => [[]; [id s]]
  | ODotTable (Some i) _ tbl => [[]; [id ("." ++ nth (N.to_nat i) tbl "")]]
  | OCcTests _ _ => [[]; [id "CC"; id ".T"]]
  | OSelector _ _ _ _ => [[]; [id ".B0"]; [id ".H0"]]
  | OSrcFormat _ _ => [[]; [id ".S32"]]
  | OF2fRounding => [[]; [id ".RN"]]
  | OLdgSize => [[]; [id ".32"]]
  | OAtomicSize _ => [[]; [id ".U32"]]
  | OXmadSigns => [[]; [id ".U16"; id ".U16"]]
  | _ => []
  end.

(** The same register; with [q] also the same [.reuse]. *)
Definition spelled (n : N) (ks : list tkind) : Prop := ks = [TReg n] \/ ks = [TReg n; id ".reuse"].
Definition same_register (q : bool) (ks ks' : list tkind) : Prop :=
  exists n, spelled n ks /\ spelled n ks' /\ (q = true -> ks = ks').
(** The same base register; an absent one is RZ. *)
Definition base (n : N) (ks : list tkind) : Prop := ks = [] /\ n = 255%N \/ spelled n ks.
Definition same_base (q : bool) (ks ks' : list tkind) : Prop :=
  exists n, base n ks /\ base n ks' /\ (q = true -> (In (id ".reuse") ks <-> In (id ".reuse") ks')).
(** The same address, as far as an offset in units of 2^[shr] bytes shows. *)
Definition offset (z : Z) (ks : list tkind) : Prop := ks = [] /\ z = 0 \/ ks = [TImm z].
Definition same_memory (q : bool) (shr : N) (ks ks' : list tkind) : Prop :=
  exists kr ki z kr' ki' z',
    ks = TLbrack :: kr ++ ki ++ [TRbrack] /\ ks' = TLbrack :: kr' ++ ki' ++ [TRbrack] /\
    same_base q kr kr' /\ offset z ki /\ offset z' ki' /\ z / 2 ^ Z.of_N shr = z' / 2 ^ Z.of_N shr.
(** The target of a branch. *)
Definition target (lab : text -> option Z) (ks : list tkind) (t : Z) : Prop :=
  (exists name, ks = [TIdent name] /\ lab name = Some t) \/ ks = [TImm t].
(** The pattern of a half as far as [n] bits hold it, and the separate sign. *)
Definition half_shown (n : N) (nb : option N) (ks : list tkind) (v : N) (neg : bool) : Prop :=
  exists h sign special, half ks h sign special /\
    match nb with
    | Some _ => neg = sign /\ v = if N.eqb n 9 then (h mod 2 ^ 15 / 2 ^ 6)%N else h
    | None => neg = false /\
        let h := if special && sign then (h + 0x8000)%N else h in
        v = if N.eqb n 9 then (h mod 2 ^ 15 / 2 ^ 6)%N else h
    end.

Section Same.
  Variable q : bool.
  Variables lab lab' : text -> option Z.
  Variables pc pc' : Z.

  Fixpoint same (o : opnd) (ks ks' : list tkind) : Prop :=
    match o with
    | OGpr _ | OMirrorGpr _ => same_register q ks ks'
    | OLabel => exists t t', target lab ks t /\ target lab' ks' t' /\ t - pc = t' - pc'
    | OFimm n => exists f f', single ks f /\ single ks' f' /\
        if N.eqb n 20 then (f / 2 ^ 12 = f' / 2 ^ 12)%N else f = f'
    | ODimm => exists m m' neg, double ks m neg /\ double ks' m' neg /\ (m / 2 ^ 44 = m' / 2 ^ 44)%N
    | OHalf n _ nb => exists v neg, half_shown n nb ks v neg /\ half_shown n nb ks' v neg
    | OMemAddress _ _ _ shr => same_memory q shr ks ks'
    | OLdcAddress => exists bank km km',
        ks = id "c" :: TLbrack :: TImm bank :: TRbrack :: km /\
        ks' = id "c" :: TLbrack :: TImm bank :: TRbrack :: km' /\ same_memory q 0 km km'
    | OPatchAttr => exists kr kr' kp kp' z,
        ks = id "a" :: TLbrack :: kr ++ kp ++ [TImm z; TRbrack] /\
        ks' = id "a" :: TLbrack :: kr' ++ kp' ++ [TImm z; TRbrack] /\
        (kp = [] \/ kp = [TPlus]) /\ (kp' = [] \/ kp' = [TPlus]) /\ same_register q kr kr'
    | OPhysAttr => exists kr kr',
        ks = id "a" :: TLbrack :: kr ++ [TRbrack] /\ ks' = id "a" :: TLbrack :: kr' ++ [TRbrack] /\
        same_register q kr kr'
    | OAbs _ inner =>
        (exists k k', ks = TVbar :: k ++ [TVbar] /\ ks' = TVbar :: k' ++ [TVbar] /\ same inner k k') \/
        (hd TNone ks <> TVbar /\ hd TNone ks' <> TVbar /\ same inner ks ks')
    | _ => ks = ks' \/ In ks (defaults o) /\ In ks' (defaults o)
    end.

  (** Some spelling of an operand. *)
  Definition written (lab : text -> option Z) (pc : Z) (o : opnd) (ks : list tkind) : Prop :=
    exists w nx b r, spells lab pc o w ks nx b r.
  (** Operand after operand. *)
  Inductive same_all : list opnd -> list tkind -> list tkind -> Prop :=
  | same_nil : same_all [] [] []
  | same_cons : forall o ops k k' ks ks', written lab pc o k -> written lab' pc' o k' -> same o k k' -> same_all ops ks ks' ->
      same_all (o :: ops) (k ++ ks) (k' ++ ks').
End Same.

(** ** Whole instructions *)

(** Tokens that make a form unclear, because their bits are also those of other
    operands: [.PO] sets both sign bits, the byte selectors [.B2] and [.B3]
    reach into the format, [.] as a comparison reaches into the operation
    (.AND is 0, .OR is 1), [.BA] is the bit of [.D], and the immediate 2^20
    reaches into the last register. *)
Definition unclear_tokens (i : insn) : list tkind :=
  let mnemonic := i_mnemonic i in
  if existsb (String.eqb mnemonic) ["IADD"; "IADD32I"; "ISCADD"] then [id ".PO"]
  else if String.eqb mnemonic "VMAD" then [id ".PO"; id ".B2"; id ".B3"]
  else if String.eqb mnemonic "VMNMX" then [id ".B2"; id ".B3"]
  else if String.eqb mnemonic "VSETP" then [id "."; id ".B2"; id ".B3"]
  else if existsb (fun o => match o with OUimmExtended => true | _ => false end) (i_operands i) then [TImm (2 ^ 20)]
  else if String.eqb mnemonic "SUST" &&
      existsb (fun o => match o with OReqText s _ _ => String.eqb s ".D" | _ => false end) (i_operands i) then [id ".BA"]
  else [].
(** A TLDS of type 3D or ARRAY_2D has the same code with [.LL] and [.LZ]. *)
Definition unclear (i : insn) (ks : list tkind) : Prop :=
  (exists k, In k (unclear_tokens i) /\ In k ks) \/
  (i_mnemonic i = "TLDS" /\ In (id ".LL") ks /\ (In (id "3D") ks \/ In (id "ARRAY_2D") ks)).

(** The tokens [ks] and [ks'] after the mnemonic of the form [i] say the same
    operands, at the addresses [pc] and [pc'].  Annotations are not compared:
    they are not part of the word. *)
Definition same_operands (q : bool) (lab lab' : text -> option Z) (pc pc' : Z) (i : insn) (ks ks' : list tkind) : Prop :=
  exists ko kn ko' kn' notes notes',
    ks = ko ++ kn ++ [TSemi] /\ ks' = ko' ++ kn' ++ [TSemi] /\
    notes_tokens notes kn /\ notes_tokens notes' kn' /\ same_all q lab lab' pc pc' (i_operands i) ko ko'.

(** ** Forms that leave operands out *)

(** Some mnemonics have shorter forms without operands that the longer ones
    have.  A slot is an operand, in one or several kinds; if [stands] is not
    empty the slot may be left out, which says the same as these spellings. *)
Record slot := Slot { kinds_of : list opnd; stands : list (list tkind) }.
Definition must (o : opnd) : slot := Slot [o] [].
Definition may (o : opnd) (l : list (list tkind)) : slot := Slot [o] l.
Definition may_comma : slot := may op_comma [[TComma]].
Definition may_true (a : N) : slot := may (op_pred a false) [[TPred 7 false]].
Definition may_rz (a : N) : slot := Slot [op_default_rz a; op_sgpr a] [[TReg 255]; [TReg 255; id ".reuse"]].
Definition may_zero (o : opnd) : slot := may o [[TImm 0]].
Definition may_all (o : opnd) : slot := may o [[TImm 15]].

Section Agree.
  Variables lab lab' : text -> option Z.
  Variables pc pc' : Z.
  Definition agree (s : slot) (k k' : list tkind) : Prop :=
    (exists o, In o (kinds_of s) /\ same false lab lab' pc pc' o k k') \/
    (stands s <> [] /\ In k ([] :: stands s) /\ In k' ([] :: stands s)).
  Inductive agree_all : list slot -> list tkind -> list tkind -> Prop :=
  | agree_nil : agree_all [] [] []
  | agree_cons : forall s l k k' ks ks', agree s k k' -> agree_all l ks ks' ->
      agree_all (s :: l) (k ++ ks) (k' ++ ks').
End Agree.

(** Attributes of ALD and AST: a[0x0] is the physical address RZ. *)
Definition attribute : slot := Slot [op_ald_imm_attr; op_ald_phys_attr]
  [[id "a"; TLbrack; TImm 0; TRbrack]; [id "a"; TLbrack; TReg 255; TRbrack];
   [id "a"; TLbrack; TReg 255; id ".reuse"; TRbrack]].
Definition may_phys : slot := may op_ald_phys [[id ".PHYS"]].
Definition lea_high (x neg : N) (source : opnd) (shift : N) : list slot :=
  [must op_lea_hi; must (op_x x); may_true 48; may_comma; must (op_dgpr 0); must (op_cc 47); must op_comma;
   must (op_neg neg); must (op_sgpr 8); must op_comma; must source; must op_comma; must (op_sgpr 39);
   may_comma; may_zero (op_uinteger 5 shift)].
Definition lea_low (source : opnd) : list slot :=
  [must op_lea_lo; must (op_x 46); may_true 48; may_comma; must (op_dgpr 0); must (op_cc 47); must op_comma;
   must (op_neg 45); must (op_sgpr 8); must op_comma; must source; may_comma; may_zero (op_uinteger 5 39)].
Definition mov (source : opnd) (mask : N) : list slot :=
  [must (op_dgpr 0); must op_comma; must source; may_comma; may_all (op_mask4 mask)].

(** The families: positions of the forms in the table and the slots. *)
Definition families : list (list nat * list slot) :=
  [([0; 1; 2; 3; 4; 5; 6; 7]%nat,          (* AL2P *)
    [must op_al2p_o; must op_amem_size; may_true 44; may_comma; must (op_dgpr 0); may_comma;
     may (op_sgpr 8) [[TReg 255]; [TReg 255; id ".reuse"]]; may_comma; may_zero (op_sinteger 11 20)]);
   ([8; 9; 12; 13]%nat,                    (* ALD, ALD.PHYS *)
    [must op_ald_o; may_phys; must op_ald_size; must (op_dgpr 0); must op_comma; attribute; may_comma; may_rz 39]);
   ([10; 11]%nat,                          (* ALD.P *)
    [must op_ald_o; must op_ald_p; must op_ald_size; must (op_dgpr 0); must op_comma; must op_ald_patch_attr;
     may_comma; may_rz 39]);
   ([14; 15; 17; 18]%nat,                  (* AST, AST.PHYS *)
    [may_phys; must op_ald_size; attribute; must op_comma; must (op_sgpr 0); may_comma; may_rz 39]);
   ([31; 32]%nat,                          (* BPT *)
    [must op_bpt_mode; may_zero (op_uinteger 20 20)]);
   ([54; 55; 56; 57]%nat,                  (* NOP *)
    [must op_nop_trig; may op_cc_text [[id "CC"]]; may op_cc_tests [[id ".T"]]; may_comma; may_zero op_nop_mask]);
   ([58; 59]%nat, mov (op_sgpr 20) 39); ([60; 61]%nat, mov op_cbuf 39); ([62; 63]%nat, mov op_imm 39);
   ([64; 65]%nat, mov op_uimm32 12);       (* MOV32I *)
   ([169; 170; 171; 172]%nat, lea_high 38 37 (op_sgpr 20) 28);
   ([173; 174; 175; 176]%nat, lea_high 57 56 op_cbuf 51);
   ([177; 178; 179; 180]%nat, lea_low (op_sgpr 20)); ([181; 182; 183; 184]%nat, lea_low op_cbuf);
   ([185; 186; 187; 188]%nat, lea_low op_imm);
   ([193; 194]%nat,                        (* LOP3 *)
    [must op_lop3_lut; must (op_x 38); must op_lop3_operation; may_true 48; may_comma; must (op_dgpr 0); must (op_cc 47);
     must op_comma; must (op_sgpr 8); must op_comma; must (op_sgpr 20); must op_comma; must (op_sgpr 39); must op_comma;
     must (op_uinteger 8 28)]);
   ([259; 260]%nat,                        (* BRA *)
    [must (op_u 7); must (op_lmt 6); may op_flow_tests [[id "CC"; id ".T"]]; may_comma; must op_label])].

(** The form at a position of the table. *)
Definition form (n : nat) : insn := nth n table (Insn 0 0 "" []).
(** Two instructions of one family that say the same operands. *)
Definition related (lab lab' : text -> option Z) (pc pc' : Z) (i i' : insn) (ks ks' : list tkind) : Prop :=
  exists forms slots n n' ko kn ko' kn' notes notes', In (forms, slots) families /\
    In n forms /\ In n' forms /\ i = form n /\ i' = form n' /\
    ks = ko ++ kn ++ [TSemi] /\ ks' = ko' ++ kn' ++ [TSemi] /\
    notes_tokens notes kn /\ notes_tokens notes' kn' /\ agree_all lab lab' pc pc' slots ko ko'.
(** ICMP with a constant buffer: as third source and as second source. *)
Definition swapped (i i' : insn) : Prop := i = form 147 /\ i' = form 148 \/ i = form 148 /\ i' = form 147.
