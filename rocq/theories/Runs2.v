(** * Runs2: operands run from their text, part 2

    For each pair below: the function of src/operand.h named on the left, run from its text, does the same as the
    operand of the model on the right. *)

From Coq Require Import Lia ZifyBool ZifyN.
From Verif Require Import Base Float Lexer LexFacts Operand Operands Reach Outcomes Cxx Exec Functions Runs.
Local Open Scope string_scope.
Local Open Scope list_scope.
Open Scope Z_scope.

(** Uses of operand functions in src/table.h with the operand of the model for each. *)
Definition pairs_2 : list (targ * opnd) :=
  [(ARef "float_compare" (Some [ANum 35]), ODotTable None 35 ["F"; "LT"; "EQ"; "LE"; "GT"; "NE"; "GE"; "NUM";
    "NAN"; "LTU"; "EQU"; "LEU"; "GTU"; "NEU"; "GEU"; "T"]);
   (ARef "ftz" (Some [ANum 50]), OFlag ".FTZ" 50);
   (ARef "bf" (Some [ANum 53]), OFlag ".BF" 53);
   (ARef "float_compare" (Some [ANum 49]), ODotTable None 49 ["F"; "LT"; "EQ"; "LE"; "GT"; "NE"; "GE"; "NUM";
    "NAN"; "LTU"; "EQU"; "LEU"; "GTU"; "NEU"; "GEU"; "T"]);
   (ARef "ftz" (Some [ANum 54]), OFlag ".FTZ" 54);
   (ARef "h_and" (Some [ANum 49]), OFlag ".H_AND" 49);
   (ARef "ftz" (Some [ANum 6]), OFlag ".FTZ" 6);
   (ARef "h_and" (Some [ANum 53]), OFlag ".H_AND" 53);
   (ARef "bop" (Some [ANum 24]), OReqTable "." 24 ["AND"; "OR"; "XOR"; "INVALIDBOP3"] "expected .AND, .OR or .XOR");
   (ARef "pred" (Some [ANum 12; ATruth true]), OPred 12 true);
   (ARef "pred" (Some [ANum 29; ATruth true]), OPred 29 true);
   (ARef "byte_selector" (Some [ANum 41]), ODotTable (Some 0%N) 41 ["B0"; "B1"; "B2"; "B3"]);
   (ARef "p2r::mode" (Some [ANum 40]), OReqTable "" 40 ["PR"; "CC"] "expected PR or CC");
   (ARef "po" (Some [ANum 48; ANum 49]), OPo 48 49);
   (ARef "x" (Some [ANum 43]), OFlag ".X" 43);
   (ARef "po" (Some [ANum 55; ANum 56]), OPo 55 56);
   (ARef "sat" (Some [ANum 54]), OFlag ".SAT" 54);
   (ARef "x" (Some [ANum 53]), OFlag ".X" 53);
   (ARef "simm32" None, OInt 32 20);
   (ARef "iadd3::shift" None, ODotTable (Some 0%N) 37 [""; "RS"; "LS"]);
   (ARef "x" (Some [ANum 48]), OFlag ".X" 48);
   (ARef "iadd3::half" (Some [ANum 35]), ODotTable (Some 0%N) 35 [""; "H0"; "H1"]);
   (ARef "neg" (Some [ANum 50]), OOptType ty_minus 50);
   (ARef "iadd3::half" (Some [ANum 33]), ODotTable (Some 0%N) 33 [""; "H0"; "H1"]);
   (ARef "iadd3::half" (Some [ANum 31]), ODotTable (Some 0%N) 31 [""; "H0"; "H1"]);
   (ARef "uimm_extended" None, OUimmExtended);
   (ARef "post_neg" (Some [ANum 50]), OFlag ".NEG" 50);
   (ARef "integer_compare" (Some [ANum 49]), ODotTable None 49 ["F"; "LT"; "EQ"; "LE"; "GT"; "NE"; "GE"; "T"]);
   (ARef "int_sign" None, ODotTable (Some 1%N) 48 ["U32"; "S32"]);
   (ARef "imnmx::mode" None, ODotTable (Some 0%N) 43 [""; "XLO"; "XMED"; "XHI"]);
   (ARef "uinteger" (Some [ANum 5; ANum 39]), OUint 31 39);
   (ARef "sh" (Some [ANum 41]), OFlag ".SH" 41);
   (ARef "tilde" (Some [ANum 40]), OOptType ty_tilde 40);
   (ARef "inv" (Some [ANum 40]), OFlag ".INV" 40);
   (ARef "ldc::size" None, ODotTable None 48 ["U8"; "S8"; "U16"; "S16"; "32"; "64"]);
   (ARef "ldc::mode" None, ODotTable (Some 0%N) 44 [""; "IL"; "IS"; "ISL"]);
   (ARef "lea::hi" None, OReqText ".HI" 0 "expected .HI");
   (ARef "neg" (Some [ANum 37]), OOptType ty_minus 37);
   (ARef "uinteger" (Some [ANum 5; ANum 28]), OUint 31 28);
   (ARef "pred" (Some [ANum 48]), OPred 48 false);
   (ARef "x" (Some [ANum 57]), OFlag ".X" 57);
   (ARef "uinteger" (Some [ANum 5; ANum 51]), OUint 31 51);
   (ARef "lea::lo" None, OOptText ".LO");
   (ARef "x" (Some [ANum 46]), OFlag ".X" 46);
   (ARef "lop::bit_op" (Some [ANum 41]), ODotTable None 41 ["AND"; "OR"; "XOR"; "PASS_B"]);
   (ARef "lop::pred_op" None, ODotTable (Some 0%N) 44 [""; "T"; "Z"; "NZ"]);
   (ARef "tilde" (Some [ANum 39]), OOptType ty_tilde 39);
   (ARef "lop::bit_op" (Some [ANum 53]), ODotTable None 53 ["AND"; "OR"; "XOR"; "PASS_B"]);
   (ARef "tilde" (Some [ANum 55]), OOptType ty_tilde 55);
   (ARef "inv" (Some [ANum 56]), OFlag ".INV" 56);
   (ARef "lop3::lut" None, OReqText ".LUT" 0 "expected .LUT");
   (ARef "lop3::operation" None, ODotTable (Some 0%N) 36 [""; "T"; "Z"; "NZ"]);
   (ARef "uinteger" (Some [ANum 8; ANum 28]), OUint 255 28);
   (ARef "uinteger" (Some [ANum 8; ANum 48]), OUint 255 48);
   (ARef "shfl::mode" None, ODotTable None 30 ["IDX"; "UP"; "DOWN"; "BFLY"]);
   (ARef "uinteger" (Some [ANum 5; ANum 20]), OUint 31 20);
   (ARef "uinteger" (Some [ANum 13; ANum 34]), OUint 8191 34);
   (ARef "w" (Some [ANum 39]), OFlag ".W" 39);
   (ARef "flow_tests" None, OCcTests ["F"; "LT"; "EQ"; "LE"; "GT"; "NE"; "GE"; "NUM"; "NAN"; "LTU"; "EQU"; "LEU";
    "GTU"; "NEU"; "GEU"; "T"; "OFF"; "LO"; "SFF"; "LS"; "HI"; "SFT"; "HS"; "OFT"; "CSM_TA"; "CSM_TR"; "CSM_MX";
    "FCSM_TA"; "FCSM_TR"; "FCSM_MX"; "RLE"; "RGT"] 0);
   (ARef "keeprefcount" None, OFlag ".KEEPREFCOUNT" 5);
   (ARef "rro::mode" None, ODotTable None 39 ["SINCOS"; "EX2"]);
   (ARef "image::p" None, OReqText ".P" 0 "expected .P or .B");
   (ARef "image::type" None, ODotTable None 33 ["1D"; "1D_BUFFER"; "1D_ARRAY"; "2D"; "2D_ARRAY"; "3D"]);
   (ARef "store_cache" (Some [ANum 24]), ODotTable (Some 0%N) 24 [""; "CG"; "CS"; "WT"]);
   (ARef "image::rgba" None, ODotTable (Some 15%N) 20 [""; "R"; "G"; "RG"; "B"; "RB"; "GB"; "RGB"; "A"; "RA";
    "GA"; "RGA"; "BA"; "RBA"; "GBA"; "RGBA"]);
   (ARef "image::clamp" None, ODotTable (Some 1%N) 49 ["IGN"; ""; "TRAP"]);
   (ARef "uinteger" (Some [ANum 13; ANum 36]), OUint 8191 36);
   (ARef "image::d" None, OReqText ".D" 4503599627370496 "expected .P or .B");
   (ARef "image::ba" (Some [ANum 52]), OFlag ".BA" 52);
   (ARef "image::size" None, ODotTable (Some 4%N) 20 ["U8"; "S8"; "U16"; "S16"; "32"; "64"; "128"]);
   (ARef "load_cache" (Some [ANum 24]), ODotTable (Some 0%N) 24 [""; "CG"; "CI"; "CV"]);
   (ARef "image::ba" (Some [ANum 23]), OFlag ".BA" 23);
   (ARef "vote::operation" None, ODotTable None 48 ["ALL"; "ANY"; "EQ"]);
   (ARef "pred" (Some [ANum 45; ATruth false]), OPred 45 false);
   (ARef "video::src_format" (Some [ANum 37; ANum 48]), OSrcFormat 37 48);
   (ARef "video::src_format" (Some [ANum 29; ANum 49]), OSrcFormat 29 49);
   (ARef "po" (Some [ANum 53; ANum 54]), OPo 53 54);
   (ARef "vmad::scale" None, ODotTable (Some 0%N) 51 [""; "SHR_7"; "SHR_15"; "INVALIDVMADSCALE3"]);
   (ARef "neg" (Some [ANum 54]), OOptType ty_minus 54);
   (ARef "video::selector" (Some [ANum 36; ANum 37]), OSelector 37 2 ["H0"; "H1"] 36);
   (ARef "video::selector" (Some [ANum 28; ANum 29]), OSelector 29 2 ["H0"; "H1"] 28);
   (ARef "video::imm_format" (Some [ANum 29; ANum 49]), ODotTable (Some 1%N) 49 ["U16"; "S16"]);
   (ARef "uinteger" (Some [ANum 16; ANum 20]), OUint 65535 20);
   (ARef "video::dest_sign" None, ODotTable (Some 1%N) 54 ["UD"; "SD"]);
   (ARef "video::mx" (Some [ANum 56]), ODotTable (Some 0%N) 56 ["MN"; "MX"]);
   (ARef "video::vmnmx_op" (Some [ANum 51]), ODotTable (Some 7%N) 51 ["MRG_16H"; "MRG_16L"; "MRG_8B0"; "MRG_8B2";
    "ACC"; "MIN"; "MAX"]);
   (ARef "vsetp::integer_compare" (Some [ANum 43]), ODotTable None 43 ["F"; "LT"; "EQ"; "LE"; ""; ""; ""; ""; "";
    ""; ""; ""; ""; ""; ""; ""; "GT"; "NE"; "GE"; "T"]);
   (ARef "stg::e" None, OFlag ".E" 45);
   (ARef "store_cache" (Some [ANum 46]), ODotTable (Some 0%N) 46 [""; "CG"; "CS"; "WT"]);
   (ARef "memory::size" None, ODotTable (Some 4%N) 48 ["U8"; "S8"; "U16"; "S16"; "32"; "64"; "128"]);
   (ARef "stl::cache" None, ODotTable (Some 0%N) 44 [""; "CG"; "CS"; "WT"]);
   (ARef "ndv" (Some [ANum 35]), OFlag ".NDV" 35);
   (ARef "nodep" (Some [ANum 49]), OFlag ".NODEP" 49);
   (ARef "aoffi" (Some [ANum 54]), OFlag ".AOFFI" 54);
   (ARef "blod" (Some [ANum 55]), ODotTable (Some 0%N) 55 [""; "LZ"; "LB"; "LL"; "INVALIDBLOD4"; "INVALIDBLOD5";
    "LBA"; "LLA"]);
   (ARef "dc" (Some [ANum 50]), OFlag ".DC" 50);
   (ARef "lc" (Some [ANum 58]), OFlag ".LC" 58);
   (ARef "pred" (Some [ANum 51]), OPred 51 false);
   (ARef "tex_type" (Some [ANum 28]), OTexType 28);
   (ARef "uinteger" (Some [ANum 4; ANum 31]), OUint 15 31);
   (ARef "b_text" None, OReqText ".B" 0 "expected .B");
   (ARef "aoffi" (Some [ANum 36]), OFlag ".AOFFI" 36);
   (ARef "blod" (Some [ANum 37]), ODotTable (Some 0%N) 37 [""; "LZ"; "LB"; "LL"; "INVALIDBLOD4"; "INVALIDBLOD5";
    "LBA"; "LLA"]);
   (ARef "lc" (Some [ANum 40]), OFlag ".LC" 40);
   (ARef "zero" None, OZero);
   (ARef "sample_size" (Some [ANum 59]), ODotTable (Some 1%N) 59 ["F16"; ""]);
   (ARef "texs_mode" (Some [ANum 53]), OTexsMode 53);
   (ARef "dgpr" (Some [ANum 28]), OGpr 28);
   (ARef "texs_type" (Some [ANum 53]), OTexsType 53);
   (ARef "texs_swizzle" None, OTexsSwizzle);
   (ARef "tld4::component" (Some [ANum 56]), ODotTable None 56 ["R"; "G"; "B"; "A"]);
   (ARef "tld4::offset" (Some [ANum 54]), ODotTable (Some 0%N) 54 [""; "AOFFI"; "PTP"]);
   (ARef "tld4::component" (Some [ANum 38]), ODotTable None 38 ["R"; "G"; "B"; "A"]);
   (ARef "tld4::offset" (Some [ANum 36]), ODotTable (Some 0%N) 36 [""; "AOFFI"; "PTP"]);
   (ARef "sample_size_inv" (Some [ANum 55]), ODotTable (Some 0%N) 55 [""; "F16"]);
   (ARef "tld4::component" (Some [ANum 52]), ODotTable None 52 ["R"; "G"; "B"; "A"]);
   (ARef "aoffi" (Some [ANum 51]), OFlag ".AOFFI" 51);
   (ARef "tld::lod" (Some [ANum 55]), ODotTable None 55 ["LZ"; "LL"]);
   (ARef "aoffi" (Some [ANum 35]), OFlag ".AOFFI" 35);
   (ARef "ms" (Some [ANum 50]), OFlag ".MS" 50);
   (ARef "cl" (Some [ANum 54]), OFlag ".CL" 54);
   (ARef "tld::lod" (Some [ANum 53]), ODotTable None 53 ["LZ"; "LL"]);
   (ARef "ms" (Some [ANum 55]), OFlag ".MS" 55);
   (ARef "tlds_type" (Some [ANum 53]), OTldsType 53);
   (ARef "lod_text" None, OReqText ".LOD" 0 "expected .LOD");
   (ARef "lc" (Some [ANum 50]), OFlag ".LC" 50);
   (ARef "txq::mode" None, OReqTable "" 22 [""; "TEX_HEADER_DIMENSION"; "TEX_HEADER_TEXTURE_TYPE"; ""; "";
    "TEX_HEADER_SAMPLER_POS"] "invalid mode");
   (ARef "ldg::cache" None, ODotTable (Some 0%N) 46 [""; "CG"; "CI"; "CV"]);
   (ARef "ldg::size" None, OLdgSize);
   (ARef "inverted_pred" (Some [ANum 41]), OInvPred 41);
   (ARef "lds::u" None, OFlag ".U" 44);
   (ARef "ldl::cache" None, ODotTable (Some 0%N) 44 [""; "LU"; "CI"; "CV"]);
   (ARef "red::e" None, OFlag ".E" 48);
   (ARef "red::operation" None, ODotTable (Some 0%N) 23 ["ADD"; "MIN"; "MAX"; "INC"; "DEC"; "AND"; "OR"; "XOR"]);
   (ARef "atomic_size" (Some [ANum 20]), OAtomicSize 20);
   (ARef "u" (Some [ANum 7]), OFlag ".U" 7);
   (ARef "lmt" (Some [ANum 6]), OFlag ".LMT" 6);
   (ARef "label" None, OLabel);
   (ARef "noinc" None, ODotTable (Some 1%N) 6 ["NOINC"; "INC"])].

Lemma pairs_2_run : Forall operand_runs pairs_2.
Proof.
  unfold pairs_2. repeat (apply Forall_cons; [solve [runs]| ]). apply Forall_nil.
Qed.
