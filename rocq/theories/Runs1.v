(** * Runs1: operands run from their text, part 1

    For each pair below: the function of src/operand.h named on the left, run from its text, does the same as the
    operand of the model on the right. *)

From Coq Require Import Lia ZifyBool ZifyN.
From Verif Require Import Base Float Lexer LexFacts Operand Operands Reach Outcomes Cxx Exec Functions Runs.
Local Open Scope string_scope.
Local Open Scope list_scope.
Open Scope Z_scope.

(** Uses of operand functions in src/table.h with the operand of the model for each. *)
Definition pairs_1 : list (targ * opnd) :=
  [(ARef "al2p::o" None, OFlag ".O" 32);
   (ARef "amem::size" None, ODotTable (Some 0%N) 47 ["32"; "64"; "96"; "128"]);
   (ARef "pred" (Some [ANum 44]), OPred 44 false);
   (ARef "comma" None, OComma);
   (ARef "dgpr" (Some [ANum 0]), OGpr 0);
   (ARef "sgpr" (Some [ANum 8]), OGpr 8);
   (ARef "sinteger" (Some [ANum 11; ANum 20]), OInt 11 20);
   (ARef "ald::o" None, OFlag ".O" 32);
   (ARef "ald::size" None, ODotTable (Some 0%N) 47 ["32"; "64"; "96"; "128"]);
   (ARef "default_rz" (Some [ANum 39]), ODefaultRz 39);
   (ARef "sgpr" (Some [ANum 39]), OGpr 39);
   (ARef "ald::p" None, OReqText ".P" 2147483648 "expected .P");
   (ARef "ald::phys" None, OReqText ".PHYS" 0 "expected .PHYS");
   (ARef "sgpr" (Some [ANum 0]), OGpr 0);
   (ARef "atom::e" None, OFlag ".E" 48);
   (ARef "atom::operation" None, ODotTable None 52 ["ADD"; "MIN"; "MAX"; "INC"; "DEC"; "AND"; "OR"; "XOR";
    "EXCH"; "SAFEADD"]);
   (ARef "atomic_size" (Some [ANum 49]), OAtomicSize 49);
   (ARef "sgpr" (Some [ANum 20]), OGpr 20);
   (ARef "atoms::operation" None, ODotTable None 52 ["ADD"; "MIN"; "MAX"; "INC"; "DEC"; "AND"; "OR"; "XOR";
    "EXCH"]);
   (ARef "atoms::size" None, ODotTable None 28 ["U32"; "S32"; "U64"; "S64"]);
   (ARef "uinteger" (Some [ANum 8; ANum 8]), OUint 255 8);
   (ARef "b2r::warp" None, OReqTextAfter ".WARP" 60129542144 65280 "expected .WARP");
   (ARef "b2r::result" None, OReqTextAfter ".RESULT" 55834574848 65280 "expected .RESULT");
   (ARef "pred" (Some [ANum 45; ATruth true]), OPred 45 true);
   (ARef "bfe::format" None, ODotTable (Some 1%N) 48 ["U32"; "S32"]);
   (ARef "brev" (Some [ANum 40]), OFlag ".BREV" 40);
   (ARef "cc" None, OFlag ".CC" 47);
   (ARef "imm" None, OImm20);
   (ARef "bpt::mode" None, ODotTable None 6 ["DRAIN_ILLEGAL"; "CAL"; "PAUSE"; "TRAP"; "INT"; "DRAIN"]);
   (ARef "uinteger" (Some [ANum 20; ANum 20]), OUint 1048575 20);
   (ARef "bf" (Some [ANum 44]), OFlag ".BF" 44);
   (ARef "cc_tests" None, ODotTable (Some 15%N) 8 ["F"; "LT"; "EQ"; "LE"; "GT"; "NE"; "GE"; "NUM"; "NAN"; "LTU";
    "EQU"; "LEU"; "GTU"; "NEU"; "GEU"; "T"; "OFF"; "LO"; "SFF"; "LS"; "HI"; "SFT"; "HS"; "OFT"; "CSM_TA";
    "CSM_TR"; "CSM_MX"; "FCSM_TA"; "FCSM_TR"; "FCSM_MX"; "RLE"; "RGT"]);
   (ARef "bop" (Some [ANum 45]), OReqTable "." 45 ["AND"; "OR"; "XOR"; "INVALIDBOP3"] "expected .AND, .OR or .XOR");
   (ARef "cc_text" None, OReqText "CC" 0 "expected CC");
   (ARef "pred" (Some [ANum 39; ATruth true]), OPred 39 true);
   (ARef "pred" (Some [ANum 3]), OPred 3 false);
   (ARef "pred" (Some [ANum 0]), OPred 0 false);
   (ARef "fp_rounding" (Some [ANum 39]), ODotTable (Some 0%N) 39 ["RN"; "RM"; "RP"; "RZ"]);
   (ARef "neg" (Some [ANum 48]), OOptType ty_minus 48);
   (ARef "abs" (Some [ANum 46; ARef "sgpr" (Some [ANum 8])]), OAbs 46 (OGpr 8));
   (ARef "neg" (Some [ANum 45]), OOptType ty_minus 45);
   (ARef "abs" (Some [ANum 49; ARef "sgpr" (Some [ANum 20])]), OAbs 49 (OGpr 20));
   (ARef "dimm20" None, ODimm);
   (ARef "post_neg" (Some [ANum 45]), OFlag ".NEG" 45);
   (ARef "post_abs" (Some [ANum 49]), OFlag ".ABS" 49);
   (ARef "fp_rounding" (Some [ANum 50]), ODotTable (Some 0%N) 50 ["RN"; "RM"; "RP"; "RZ"]);
   (ARef "neg" (Some [ANum 49]), OOptType ty_minus 49);
   (ARef "post_neg" (Some [ANum 48]), OFlag ".NEG" 48);
   (ARef "bf" (Some [ANum 52]), OFlag ".BF" 52);
   (ARef "float_compare" (Some [ANum 48]), ODotTable None 48 ["F"; "LT"; "EQ"; "LE"; "GT"; "NE"; "GE"; "NUM";
    "NAN"; "LTU"; "EQU"; "LEU"; "GTU"; "NEU"; "GEU"; "T"]);
   (ARef "neg" (Some [ANum 43]), OOptType ty_minus 43);
   (ARef "abs" (Some [ANum 54; ARef "sgpr" (Some [ANum 8])]), OAbs 54 (OGpr 8));
   (ARef "neg" (Some [ANum 53]), OOptType ty_minus 53);
   (ARef "abs" (Some [ANum 44; ARef "sgpr" (Some [ANum 20])]), OAbs 44 (OGpr 20));
   (ARef "post_neg" (Some [ANum 53]), OFlag ".NEG" 53);
   (ARef "post_abs" (Some [ANum 44]), OFlag ".ABS" 44);
   (ARef "abs" (Some [ANum 7; ARef "sgpr" (Some [ANum 8])]), OAbs 7 (OGpr 8));
   (ARef "neg" (Some [ANum 6]), OOptType ty_minus 6);
   (ARef "post_neg" (Some [ANum 6]), OFlag ".NEG" 6);
   (ARef "nop::trig" None, OFlag ".TRIG" 13);
   (ARef "nop::mask" None, OUint 65535 20);
   (ARef "mask4" (Some [ANum 39]), OUint 15 39);
   (ARef "uimm32" None, OUint 4294967295 20);
   (ARef "mask4" (Some [ANum 12]), OUint 15 12);
   (ARef "mufu::operation" None, ODotTable None 20 ["COS"; "SIN"; "EX2"; "LG2"; "RCP"; "RSQ"; "RCP64H"; "RSQ64H";
    "SQRT"]);
   (ARef "sat" (Some [ANum 50]), OFlag ".SAT" 50);
   (ARef "s2r" None, OS2r ["SR_LANEID"; "SR_CLOCK"; "SR_VIRTCFG"; "SR_VIRTID"; "SR_PM0"; "SR_PM1"; "SR_PM2";
    "SR_PM3"; "SR_PM4"; "SR_PM5"; "SR_PM6"; "SR_PM7"; "SR12"; "SR13"; "SR14"; "SR_ORDERING_TICKET";
    "SR_PRIM_TYPE"; "SR_INVOCATION_ID"; "SR_Y_DIRECTION"; "SR_THREAD_KILL"; "SM_SHADER_TYPE";
    "SR_DIRECTCBEWRITEADDRESSLOW"; "SR_DIRECTCBEWRITEADDRESSHIGH"; "SR_DIRECTCBEWRITEENABLED"; "SR_MACHINE_ID_0";
    "SR_MACHINE_ID_1"; "SR_MACHINE_ID_2"; "SR_MACHINE_ID_3"; "SR_AFFINITY"; "SR_INVOCATION_INFO";
    "SR_WSCALEFACTOR_XY"; "SR_WSCALEFACTOR_Z"; ""; ""; ""; ""; "SR_CTA_PARAM"; ""; ""; ""; "SR_NTID";
    "SR_CirQueueIncrMinusOne"; "SR_NLATC"; "SR43"; "SR_SM_SPA_VERSION"; "SR_MULTIPASSSHADERINFO"; "SR_LWINHI";
    "SR_SWINHI"; "SR_SWINLO"; "SR_SWINSZ"; "SR_SMEMSZ"; "SR_SMEMBANKS"; "SR_LWINLO"; "SR_LWINSZ"; "SR_LMEMLOSZ";
    "SR_LMEMHIOFF"; "SR_EQMASK"; "SR_LTMASK"; "SR_LEMASK"; "SR_GTMASK"; "SR_GEMASK"; "SR_REGALLOC";
    "SR_BARRIERALLOC"; "SR63"; "SR_GLOBALERRORSTATUS"; "SR65"; "SR_WARPERRORSTATUS"; "SR_WARPERRORSTATUSCLEAR";
    "SR68"; "SR69"; "SR70"; "SR71"; "SR_PM_HI0"; "SR_PM_HI1"; "SR_PM_HI2"; "SR_PM_HI3"; "SR_PM_HI4"; "SR_PM_HI5";
    "SR_PM_HI6"; "SR_PM_HI7"; "SR_CLOCKLO"; "SR_CLOCKHI"; "SR_GLOBALTIMERLO"; "SR_GLOBALTIMERHI"; "SR84"; "SR85";
    "SR86"; "SR87"; "SR88"; "SR89"; "SR90"; "SR91"; "SR92"; "SR93"; "SR94"; "SR95"; "SR_HWTASKID";
    "SR_CIRCULARQUEUEENTRYINDEX"; "SR_CIRCULARQUEUEENTRYADDRESSLOW"; "SR_CIRCULARQUEUEENTRYADDRESSHIGH"; "SR100";
    "SR101"; "SR102"; "SR103"; "SR104"; "SR105"; "SR106"; "SR107"; "SR108"; "SR109"; "SR110"; "SR111"; "SR112";
    "SR113"; "SR114"; "SR115"; "SR116"; "SR117"; "SR118"; "SR119"; "SR120"; "SR121"; "SR122"; "SR123"; "SR124";
    "SR125"; "SR126"; "SR127"; "SR128"; "SR129"; "SR130"; "SR131"; "SR132"; "SR133"; "SR134"; "SR135"; "SR136";
    "SR137"; "SR138"; "SR139"; "SR140"; "SR141"; "SR142"; "SR143"; "SR144"; "SR145"; "SR146"; "SR147"; "SR148";
    "SR149"; "SR150"; "SR151"; "SR152"; "SR153"; "SR154"; "SR155"; "SR156"; "SR157"; "SR158"; "SR159"; "SR160";
    "SR161"; "SR162"; "SR163"; "SR164"; "SR165"; "SR166"; "SR167"; "SR168"; "SR169"; "SR170"; "SR171"; "SR172";
    "SR173"; "SR174"; "SR175"; "SR176"; "SR177"; "SR178"; "SR179"; "SR180"; "SR181"; "SR182"; "SR183"; "SR184";
    "SR185"; "SR186"; "SR187"; "SR188"; "SR189"; "SR190"; "SR191"; "SR192"; "SR193"; "SR194"; "SR195"; "SR196";
    "SR197"; "SR198"; "SR199"; "SR200"; "SR201"; "SR202"; "SR203"; "SR204"; "SR205"; "SR206"; "SR207"; "SR208";
    "SR209"; "SR210"; "SR211"; "SR212"; "SR213"; "SR214"; "SR215"; "SR216"; "SR217"; "SR218"; "SR219"; "SR220";
    "SR221"; "SR222"; "SR223"; "SR224"; "SR225"; "SR226"; "SR227"; "SR228"; "SR229"; "SR230"; "SR231"; "SR232";
    "SR233"; "SR234"; "SR235"; "SR236"; "SR237"; "SR238"; "SR239"; "SR240"; "SR241"; "SR242"; "SR243"; "SR244";
    "SR245"; "SR246"; "SR247"; "SR248"; "SR249"; "SR250"; "SR251"; "SR252"; "SR253"; "SR254"; "SR255"]);
   (ARef "ftz" (Some [ANum 44]), OFlag ".FTZ" 44);
   (ARef "fimm" None, OFimm 20);
   (ARef "ftz" (Some [ANum 55]), OFlag ".FTZ" 55);
   (ARef "cc" (Some [ANum 52]), OFlag ".CC" 52);
   (ARef "neg" (Some [ANum 56]), OOptType ty_minus 56);
   (ARef "fimm32" None, OFimm 32);
   (ARef "post_abs" (Some [ANum 57]), OFlag ".ABS" 57);
   (ARef "fmul::fmz" (Some [ANum 53]), ODotTable (Some 0%N) 53 [""; "FTZ"; "FMZ"; "INVALIDFMZ3"]);
   (ARef "fp_rounding" (Some [ANum 51]), ODotTable (Some 0%N) 51 ["RN"; "RM"; "RP"; "RZ"]);
   (ARef "sat" (Some [ANum 55]), OFlag ".SAT" 55);
   (ARef "neg" (Some [ANum 57]), OOptType ty_minus 57);
   (ARef "mirror_dgpr" (Some [ANum 0]), OMirrorGpr 0);
   (ARef "fmul::fmz" (Some [ANum 44]), ODotTable (Some 0%N) 44 [""; "FTZ"; "FMZ"; "INVALIDFMZ3"]);
   (ARef "fmul::scale" None, ODotTable (Some 0%N) 41 [""; "D2"; "D4"; "D8"; "M8"; "M4"; "M2"; "INVALIDSCALE37"]);
   (ARef "ftz" (Some [ANum 47]), OFlag ".FTZ" 47);
   (ARef "xmad::signs" None, OXmadSigns);
   (ARef "psl" (Some [ANum 36]), OFlag ".PSL" 36);
   (ARef "xmad::mode_a" None, ODotTable (Some 0%N) 50 [""; "CLO"; "CHI"; "CSFU"; "CBCC"]);
   (ARef "mrg" (Some [ANum 37]), OFlag ".MRG" 37);
   (ARef "x" (Some [ANum 38]), OFlag ".X" 38);
   (ARef "half" (Some [ANum 53]), ODotTable (Some 0%N) 53 ["H0"; "H1"]);
   (ARef "half" (Some [ANum 35]), ODotTable (Some 0%N) 35 ["H0"; "H1"]);
   (ARef "xmad::mode_b" None, ODotTable (Some 0%N) 50 [""; "CLO"; "CHI"; "CSFU"]);
   (ARef "x" (Some [ANum 54]), OFlag ".X" 54);
   (ARef "half" (Some [ANum 52]), ODotTable (Some 0%N) 52 ["H0"; "H1"]);
   (ARef "psl" (Some [ANum 55]), OFlag ".PSL" 55);
   (ARef "mrg" (Some [ANum 56]), OFlag ".MRG" 56);
   (ARef "uimm16" None, OUint 65535 20);
   (ARef "shr::format" None, ODotTable (Some 1%N) 48 ["U32"; "S32"]);
   (ARef "shr::mode" None, ODotTable (Some 0%N) 39 ["C"; "W"]);
   (ARef "shr::xmode" None, ODotTable (Some 0%N) 43 [""; "INVALIDSHRXMODE1"; "X"; "XHI"]);
   (ARef "shf::r" None, OReqText ".R" 0 "expected .R");
   (ARef "w" (Some [ANum 50]), OFlag ".W" 50);
   (ARef "shf::max_shift" None, ODotTable (Some 0%N) 37 ["32"; "INVALIDMAXSHIFT3"; "U64"; "S64"]);
   (ARef "shf::xmode" None, ODotTable (Some 0%N) 48 [""; "HI"; "X"; "XHI"]);
   (ARef "shf::l" None, OReqText ".L" 0 "expected .L");
   (ARef "uinteger" (Some [ANum 6; ANum 20]), OUint 63 20);
   (ARef "float_format" (Some [ANum 8]), ODotTable (Some 2%N) 8 [""; "F16"; "F32"; "F64"]);
   (ARef "float_format" (Some [ANum 10]), ODotTable (Some 2%N) 10 [""; "F16"; "F32"; "F64"]);
   (ARef "f2f::rounding" None, OF2fRounding);
   (ARef "half" (Some [ANum 41]), ODotTable (Some 0%N) 41 ["H0"; "H1"]);
   (ARef "f2i::int_format" None, OIntFormat ["INVALID0"; "U16"; "U32"; "U64"] ["INVALID1"; "S16"; "S32"; "S64"] 8
    12 "expected .U16, .U32, .U64, .S16, .S32 or .S64");
   (ARef "f2i::rounding" None, ODotTable (Some 0%N) 39 [""; "FLOOR"; "CEIL"; "TRUNC"]);
   (ARef "i2f::int_format" None, OIntFormat ["U8"; "U16"; "U32"; "U64"] ["S8"; "S16"; "S32"; "S64"] 10 13
    "expected .U8, .U16, .U32, .U64, .S8, .S16, .S32 or .S64");
   (ARef "i2f::selector" None, OSelector 10 1 ["H0"; "INVALIDSIZE1"; "H1"; "INVALIDSIZE3"] 41);
   (ARef "i2i::format" (Some [ANum 8; ANum 12]), OIntFormat ["U8"; "U16"; "U32"] ["S8"; "S16"; "S32"] 8 12
    "expected .U8, .U16, .U32, .S8, .S16 or .S32");
   (ARef "i2i::format" (Some [ANum 10; ANum 13]), OIntFormat ["U8"; "U16"; "U32"] ["S8"; "S16"; "S32"] 10 13
    "expected .U8, .U16, .U32, .S8, .S16 or .S32");
   (ARef "i2i::selector" None, OSelector 10 1 ["H0"; "INVALIDSIZE1"; "H1"; "INVALIDSIZE3"] 41);
   (ARef "fp16::merge" (Some [ANum 49]), ODotTable (Some 0%N) 49 [""; "F32"; "MRG_H0"; "MRG_H1"]);
   (ARef "ftz" (Some [ANum 39]), OFlag ".FTZ" 39);
   (ARef "sat" (Some [ANum 32]), OFlag ".SAT" 32);
   (ARef "abs" (Some [ANum 44; ARef "sgpr" (Some [ANum 8])]), OAbs 44 (OGpr 8));
   (ARef "fp16::swizzle" (Some [ANum 47]), ODotTable (Some 0%N) 47 ["H1_H0"; "F32"; "H0_H0"; "H1_H1"]);
   (ARef "neg" (Some [ANum 31]), OOptType ty_minus 31);
   (ARef "abs" (Some [ANum 30; ARef "sgpr" (Some [ANum 20])]), OAbs 30 (OGpr 20));
   (ARef "fp16::swizzle" (Some [ANum 28]), ODotTable (Some 0%N) 28 ["H1_H0"; "F32"; "H0_H0"; "H1_H1"]);
   (ARef "sat" (Some [ANum 52]), OFlag ".SAT" 52);
   (ARef "fimm9_high" (Some [ANum 56]), OHalf 9 30 (Some 56%N));
   (ARef "fimm9_low" (Some [ANum 29]), OHalf 9 20 (Some 29%N));
   (ARef "fp16::swizzle" (Some [ANum 53]), ODotTable (Some 0%N) 53 ["H1_H0"; "F32"; "H0_H0"; "H1_H1"]);
   (ARef "fimm16_high" None, OHalf 16 36 None);
   (ARef "fimm16_low" None, OHalf 16 20 None);
   (ARef "fp16::control" (Some [ANum 57]), ODotTable (Some 0%N) 57 [""; "FTZ"; "FMZ"]);
   (ARef "neg" (Some [ANum 51]), OOptType ty_minus 51);
   (ARef "fp16::control" (Some [ANum 37]), ODotTable (Some 0%N) 37 [""; "FTZ"; "FMZ"]);
   (ARef "neg" (Some [ANum 30]), OOptType ty_minus 30);
   (ARef "fp16::swizzle" (Some [ANum 35]), ODotTable (Some 0%N) 35 ["H1_H0"; "F32"; "H0_H0"; "H1_H1"]);
   (ARef "fp16::control" (Some [ANum 55]), ODotTable (Some 0%N) 55 [""; "FTZ"; "FMZ"]);
   (ARef "neg" (Some [ANum 52]), OOptType ty_minus 52);
   (ARef "fp16::control" (Some [ANum 39]), ODotTable (Some 0%N) 39 [""; "FTZ"; "FMZ"]);
   (ARef "bf" (Some [ANum 49]), OFlag ".BF" 49)].

Lemma pairs_1_run : Forall operand_runs pairs_1.
Proof.
  unfold pairs_1. repeat (apply Forall_cons; [solve [runs]| ]). apply Forall_nil.
Qed.
