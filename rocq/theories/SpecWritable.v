(** * SpecWritable: the words an operand knows, and programs of one instruction. *)
From Verif Require Import Base Float Lexer Operand Catalogue Table Spec SpecOperand SpecInsn SpecLex SpecOpts SpecContainer SpecProgram.
Local Open Scope string_scope.
Local Open Scope list_scope.
Open Scope Z_scope.

(** The words of an operand: flags and the names in its tables.  Empty entries
    of tables without a prefix are no words. *)
Definition dot (l : list string) : list string := map (fun s => "." ++ s)%string l.
Definition nonempty (l : list string) : list string := filter (fun s => negb (String.eqb s "")) l.
Fixpoint words_of (o : opnd) : list string :=
  match o with
  | OFlag s _ | OOptText s | OReqText s _ _ | OReqTextAfter s _ _ _ => [s]
  | OPo _ _ => [".PO"]
  | OSelector _ _ shorts _ => dot shorts ++ dot ["B0"; "B1"; "B2"; "B3"]
  | OSrcFormat _ _ => dot ["S8"; "S16"; "S32"; "U8"; "U16"; "U32"]
  | OF2fRounding => map fst rounding_same ++ map fst rounding_convert
  | OXmadSigns => [".S16"; ".U16"]
  | OLdgSize => ".U" :: map fst global_sizes
  | OAtomicSize _ => [".U32"; ".S32"; ".U64"; ".S64"; ".F32"; ".FTZ"; ".RN"; ".F16x2"]
  | OTexsMode _ => [".LZ"; ".LL"; ".DC"]
  | OCcTests tests _ => "CC" :: dot tests
  | ODotTable _ _ tbl => dot tbl
  | OReqTable p _ tbl _ => nonempty (map (fun s => p ++ s)%string tbl)
  | OAbs _ o => words_of o
  | OIntFormat u s _ _ _ => dot u ++ dot s
  | OS2r tbl => ["SR_TID"; "SR_CTAID"; ".X"; ".Y"; ".Z"] ++ nonempty tbl
  | OTexType _ => map fst texture_types
  | OTldsType _ => ["1D"; "2D"; "ARRAY_2D"; "3D"]
  | OTexsType _ => ["1D"; "2D"; "ARRAY_2D"; "3D"; "CUBE"]
  | OTexsSwizzle => map fst swizzles_one ++ map fst swizzles_two
  | OFimm _ | ODimm | OHalf _ _ _ => ["QNAN"; "INF"]
  | OCbuf | OLdcAddress => ["c"]
  | OImmAttr | OPatchAttr | OPhysAttr => ["a"]
  | _ => []
  end.

(** A program without labels. *)
Definition unlabelled : text -> option Z := fun _ => None.
(** The tokens [kf] behind the mnemonic of [i] are of none of the forms [pre], in the first instruction. *)
Definition no_earlier (pre : list insn) (i : insn) (kf : list tkind) : Prop :=
  forall j op, In j pre -> i_mnemonic j = i_mnemonic i -> ~ form_spells unlabelled 8 j 7 false kf op.
(** The tokens [ka ++ ks ++ kb] write the operands [a ++ o :: b] of the form [i], which give the word [w]; [ks] is the part of [o]. *)
Definition parts (i : insn) (a : list opnd) (o : opnd) (b : list opnd) (ka ks kb : list tkind) (w : N) : Prop :=
  exists wa ra bo ro rb, spell_list unlabelled 8 (hd TSemi (ks ++ kb)) a (bare_word i 7 false) ka wa ra /\
    spells unlabelled 8 o wa ks (hd TSemi kb) bo ro /\
    spell_list unlabelled 8 TSemi b (N.lor (N.ldiff wa (clears o)) bo) kb w rb.
