(** * Catalogue: every operand named by /repo/src/operand.h.

    Generated by tools/gen_table.py; do not edit.  Template parameters become
    parameters.  [stg::size] (operand.h:682-693) is not used by the
    instruction table and is left out. *)
From Verif Require Import Base Lexer Operand.
Local Open Scope string_scope.
Open Scope N_scope.

(** The system registers of [s2r], operand.h:900-1158. *)
Definition s2r_table : list string :=
  ["SR_LANEID";
   "SR_CLOCK";
   "SR_VIRTCFG";
   "SR_VIRTID";
   "SR_PM0";
   "SR_PM1";
   "SR_PM2";
   "SR_PM3";
   "SR_PM4";
   "SR_PM5";
   "SR_PM6";
   "SR_PM7";
   "SR12";
   "SR13";
   "SR14";
   "SR_ORDERING_TICKET";
   "SR_PRIM_TYPE";
   "SR_INVOCATION_ID";
   "SR_Y_DIRECTION";
   "SR_THREAD_KILL";
   "SM_SHADER_TYPE";
   "SR_DIRECTCBEWRITEADDRESSLOW";
   "SR_DIRECTCBEWRITEADDRESSHIGH";
   "SR_DIRECTCBEWRITEENABLED";
   "SR_MACHINE_ID_0";
   "SR_MACHINE_ID_1";
   "SR_MACHINE_ID_2";
   "SR_MACHINE_ID_3";
   "SR_AFFINITY";
   "SR_INVOCATION_INFO";
   "SR_WSCALEFACTOR_XY";
   "SR_WSCALEFACTOR_Z";
   "";
   "";
   "";
   "";
   "SR_CTA_PARAM";
   "";
   "";
   "";
   "SR_NTID";
   "SR_CirQueueIncrMinusOne";
   "SR_NLATC";
   "SR43";
   "SR_SM_SPA_VERSION";
   "SR_MULTIPASSSHADERINFO";
   "SR_LWINHI";
   "SR_SWINHI";
   "SR_SWINLO";
   "SR_SWINSZ";
   "SR_SMEMSZ";
   "SR_SMEMBANKS";
   "SR_LWINLO";
   "SR_LWINSZ";
   "SR_LMEMLOSZ";
   "SR_LMEMHIOFF";
   "SR_EQMASK";
   "SR_LTMASK";
   "SR_LEMASK";
   "SR_GTMASK";
   "SR_GEMASK";
   "SR_REGALLOC";
   "SR_BARRIERALLOC";
   "SR63";
   "SR_GLOBALERRORSTATUS";
   "SR65";
   "SR_WARPERRORSTATUS";
   "SR_WARPERRORSTATUSCLEAR";
   "SR68";
   "SR69";
   "SR70";
   "SR71";
   "SR_PM_HI0";
   "SR_PM_HI1";
   "SR_PM_HI2";
   "SR_PM_HI3";
   "SR_PM_HI4";
   "SR_PM_HI5";
   "SR_PM_HI6";
   "SR_PM_HI7";
   "SR_CLOCKLO";
   "SR_CLOCKHI";
   "SR_GLOBALTIMERLO";
   "SR_GLOBALTIMERHI";
   "SR84";
   "SR85";
   "SR86";
   "SR87";
   "SR88";
   "SR89";
   "SR90";
   "SR91";
   "SR92";
   "SR93";
   "SR94";
   "SR95";
   "SR_HWTASKID";
   "SR_CIRCULARQUEUEENTRYINDEX";
   "SR_CIRCULARQUEUEENTRYADDRESSLOW";
   "SR_CIRCULARQUEUEENTRYADDRESSHIGH";
   "SR100";
   "SR101";
   "SR102";
   "SR103";
   "SR104";
   "SR105";
   "SR106";
   "SR107";
   "SR108";
   "SR109";
   "SR110";
   "SR111";
   "SR112";
   "SR113";
   "SR114";
   "SR115";
   "SR116";
   "SR117";
   "SR118";
   "SR119";
   "SR120";
   "SR121";
   "SR122";
   "SR123";
   "SR124";
   "SR125";
   "SR126";
   "SR127";
   "SR128";
   "SR129";
   "SR130";
   "SR131";
   "SR132";
   "SR133";
   "SR134";
   "SR135";
   "SR136";
   "SR137";
   "SR138";
   "SR139";
   "SR140";
   "SR141";
   "SR142";
   "SR143";
   "SR144";
   "SR145";
   "SR146";
   "SR147";
   "SR148";
   "SR149";
   "SR150";
   "SR151";
   "SR152";
   "SR153";
   "SR154";
   "SR155";
   "SR156";
   "SR157";
   "SR158";
   "SR159";
   "SR160";
   "SR161";
   "SR162";
   "SR163";
   "SR164";
   "SR165";
   "SR166";
   "SR167";
   "SR168";
   "SR169";
   "SR170";
   "SR171";
   "SR172";
   "SR173";
   "SR174";
   "SR175";
   "SR176";
   "SR177";
   "SR178";
   "SR179";
   "SR180";
   "SR181";
   "SR182";
   "SR183";
   "SR184";
   "SR185";
   "SR186";
   "SR187";
   "SR188";
   "SR189";
   "SR190";
   "SR191";
   "SR192";
   "SR193";
   "SR194";
   "SR195";
   "SR196";
   "SR197";
   "SR198";
   "SR199";
   "SR200";
   "SR201";
   "SR202";
   "SR203";
   "SR204";
   "SR205";
   "SR206";
   "SR207";
   "SR208";
   "SR209";
   "SR210";
   "SR211";
   "SR212";
   "SR213";
   "SR214";
   "SR215";
   "SR216";
   "SR217";
   "SR218";
   "SR219";
   "SR220";
   "SR221";
   "SR222";
   "SR223";
   "SR224";
   "SR225";
   "SR226";
   "SR227";
   "SR228";
   "SR229";
   "SR230";
   "SR231";
   "SR232";
   "SR233";
   "SR234";
   "SR235";
   "SR236";
   "SR237";
   "SR238";
   "SR239";
   "SR240";
   "SR241";
   "SR242";
   "SR243";
   "SR244";
   "SR245";
   "SR246";
   "SR247";
   "SR248";
   "SR249";
   "SR250";
   "SR251";
   "SR252";
   "SR253";
   "SR254";
   "SR255"].

(** uimm_extended: operand.h:89-100. *)
Definition op_uimm_extended : opnd :=
  OUimmExtended.

(** comma: operand.h:115-120. *)
Definition op_comma : opnd :=
  OComma.

(** label: operand.h:122-154. *)
Definition op_label : opnd :=
  OLabel.

(** dgpr: operand.h:156-160. *)
Definition op_dgpr (address : N) : opnd :=
  OGpr address.

(** sgpr: operand.h:162-166. *)
Definition op_sgpr (address : N) : opnd :=
  OGpr address.

(** mirror_dgpr: operand.h:168-181. *)
Definition op_mirror_dgpr (address : N) : opnd :=
  OMirrorGpr address.

(** cbuf: operand.h:183-186. *)
Definition op_cbuf : opnd :=
  OCbuf.

(** imm: operand.h:188-191. *)
Definition op_imm : opnd :=
  OImm20.

(** fimm: operand.h:193-196. *)
Definition op_fimm : opnd :=
  OFimm 20.

(** fimm32: operand.h:198-201. *)
Definition op_fimm32 : opnd :=
  OFimm 32.

(** dimm20: operand.h:203-206. *)
Definition op_dimm20 : opnd :=
  ODimm.

(** fimm9_low: operand.h:208-212. *)
Definition op_fimm9_low (neg_bit : N) : opnd :=
  OHalf 9 20 (Some neg_bit).

(** fimm9_high: operand.h:214-218. *)
Definition op_fimm9_high (neg_bit : N) : opnd :=
  OHalf 9 30 (Some neg_bit).

(** fimm16_low: operand.h:220-223. *)
Definition op_fimm16_low : opnd :=
  OHalf 16 20 None.

(** fimm16_high: operand.h:225-228. *)
Definition op_fimm16_high : opnd :=
  OHalf 16 36 None.

(** uimm32: operand.h:230-230. *)
Definition op_uimm32 : opnd :=
  OUint 4294967295 20.

(** simm32: operand.h:232-232. *)
Definition op_simm32 : opnd :=
  OInt 32 20.

(** uimm16: operand.h:234-234. *)
Definition op_uimm16 : opnd :=
  OUint 65535 20.

(** cc: operand.h:236-237. *)
Definition op_cc (address : N) : opnd :=
  OFlag ".CC" address.

(** uinteger: operand.h:239-240. *)
Definition op_uinteger (bits : N) (address : N) : opnd :=
  OUint (Z.of_N (max_bits bits)) address.

(** sinteger: operand.h:242-243. *)
Definition op_sinteger (bits : N) (address : N) : opnd :=
  OInt bits address.

(** mask4: operand.h:245-246. *)
Definition op_mask4 (address : N) : opnd :=
  OUint 15 address.

(** psl: operand.h:248-249. *)
Definition op_psl (address : N) : opnd :=
  OFlag ".PSL" address.

(** x: operand.h:251-252. *)
Definition op_x (address : N) : opnd :=
  OFlag ".X" address.

(** mrg: operand.h:254-255. *)
Definition op_mrg (address : N) : opnd :=
  OFlag ".MRG" address.

(** half: operand.h:257-258. *)
Definition op_half (address : N) : opnd :=
  ODotTable (Some 0%N) address ["H0"; "H1"].

(** brev: operand.h:260-261. *)
Definition op_brev (address : N) : opnd :=
  OFlag ".BREV" address.

(** ftz: operand.h:263-264. *)
Definition op_ftz (address : N) : opnd :=
  OFlag ".FTZ" address.

(** sat: operand.h:266-267. *)
Definition op_sat (address : N) : opnd :=
  OFlag ".SAT" address.

(** bf: operand.h:269-270. *)
Definition op_bf (address : N) : opnd :=
  OFlag ".BF" address.

(** h_and: operand.h:272-273. *)
Definition op_h_and (address : N) : opnd :=
  OFlag ".H_AND" address.

(** u: operand.h:275-276. *)
Definition op_u (address : N) : opnd :=
  OFlag ".U" address.

(** lmt: operand.h:278-279. *)
Definition op_lmt (address : N) : opnd :=
  OFlag ".LMT" address.

(** w: operand.h:281-282. *)
Definition op_w (address : N) : opnd :=
  OFlag ".W" address.

(** int_sign: operand.h:284-285. *)
Definition op_int_sign_at (address : N) : opnd :=
  ODotTable (Some 1%N) address ["S32"; "U32"].

(** float_format: operand.h:287-288. *)
Definition op_float_format (address : N) : opnd :=
  ODotTable (Some 2%N) address [""; "F16"; "F32"; "F64"].

(** byte_selector: operand.h:290-291. *)
Definition op_byte_selector (address : N) : opnd :=
  ODotTable (Some 0%N) address ["B0"; "B1"; "B2"; "B3"].

(** fp_rounding: operand.h:293-294. *)
Definition op_fp_rounding (address : N) : opnd :=
  ODotTable (Some 0%N) address ["RN"; "RM"; "RP"; "RZ"].

(** bop: operand.h:296-307. *)
Definition op_bop (address : N) : opnd :=
  OReqTable "." address ["AND"; "OR"; "XOR"; "INVALIDBOP3"] "expected .AND, .OR or .XOR".

(** pred: operand.h:309-323. *)
Definition op_pred (address : N) (negable : bool) : opnd :=
  OPred address negable.

(** inverted_pred: operand.h:325-335. *)
Definition op_inverted_pred (address : N) : opnd :=
  OInvPred address.

(** neg: operand.h:337-345. *)
Definition op_neg (address : N) : opnd :=
  OOptType ty_minus address.

(** tilde: operand.h:347-355. *)
Definition op_tilde (address : N) : opnd :=
  OOptType ty_tilde address.

(** post_neg: operand.h:357-358. *)
Definition op_post_neg (address : N) : opnd :=
  OFlag ".NEG" address.

(** post_abs: operand.h:360-361. *)
Definition op_post_abs (address : N) : opnd :=
  OFlag ".ABS" address.

(** abs: operand.h:363-379. *)
Definition op_abs (address : N) (inner : opnd) : opnd :=
  OAbs address inner.

(** po: operand.h:381-390. *)
Definition op_po (address1 : N) (address2 : N) : opnd :=
  OPo address1 address2.

(** sh: operand.h:392-393. *)
Definition op_sh (address : N) : opnd :=
  OFlag ".SH" address.

(** inv: operand.h:395-396. *)
Definition op_inv (address : N) : opnd :=
  OFlag ".INV" address.

(** default_rz: operand.h:398-403. *)
Definition op_default_rz (address : N) : opnd :=
  ODefaultRz address.

(** memory::size: operand.h:407-407. *)
Definition op_memory_size : opnd :=
  ODotTable (Some 4%N) 48 ["U8"; "S8"; "U16"; "S16"; "32"; "64"; "128"].

(** memory::address: operand.h:409-441. *)
Definition op_memory_address (imm_offset : bool) (addr : N) (size : N) (shr : N) : opnd :=
  OMemAddress imm_offset addr size shr.

(** flow_tests: operand.h:444-452. *)
Definition op_flow_tests : opnd :=
  OCcTests ["F"; "LT"; "EQ"; "LE"; "GT"; "NE"; "GE"; "NUM"; "NAN"; "LTU"; "EQU"; "LEU"; "GTU"; "NEU"; "GEU"; "T"; "OFF"; "LO"; "SFF"; "LS"; "HI"; "SFT"; "HS"; "OFT"; "CSM_TA"; "CSM_TR"; "CSM_MX"; "FCSM_TA"; "FCSM_TR"; "FCSM_MX"; "RLE"; "RGT"] 0.

(** keeprefcount: operand.h:454-454. *)
Definition op_keeprefcount : opnd :=
  OFlag ".KEEPREFCOUNT" 5.

(** store_cache: operand.h:456-466. *)
Definition op_store_cache (address : N) : opnd :=
  ODotTable (Some 0%N) address [""; "CG"; "CS"; "WT"].

(** rro::mode: operand.h:470-470. *)
Definition op_rro_mode : opnd :=
  ODotTable None 39 ["SINCOS"; "EX2"].

(** load_cache: operand.h:473-474. *)
Definition op_load_cache (address : N) : opnd :=
  ODotTable (Some 0%N) address [""; "CG"; "CI"; "CV"].

(** lop::bit_op: operand.h:478-479. *)
Definition op_lop_bit_op (address : N) : opnd :=
  ODotTable None address ["AND"; "OR"; "XOR"; "PASS_B"].

(** lop::pred_op: operand.h:481-481. *)
Definition op_lop_pred_op : opnd :=
  ODotTable (Some 0%N) 44 [""; "T"; "Z"; "NZ"].

(** amem::size: operand.h:486-486. *)
Definition op_amem_size : opnd :=
  ODotTable (Some 0%N) 47 ["32"; "64"; "96"; "128"].

(** ald::o: operand.h:491-491. *)
Definition op_ald_o : opnd :=
  OFlag ".O" 32.

(** ald::p: operand.h:493-501. *)
Definition op_ald_p : opnd :=
  OReqText ".P" 2147483648 "expected .P".

(** ald::phys: operand.h:503-510. *)
Definition op_ald_phys : opnd :=
  OReqText ".PHYS" 0 "expected .PHYS".

(** ald::size: operand.h:512-512. *)
Definition op_ald_size : opnd :=
  ODotTable (Some 0%N) 47 ["32"; "64"; "96"; "128"].

(** ald::imm_attr: operand.h:514-530. *)
Definition op_ald_imm_attr : opnd :=
  OImmAttr.

(** ald::patch_attr: operand.h:532-552. *)
Definition op_ald_patch_attr : opnd :=
  OPatchAttr.

(** ald::phys_attr: operand.h:554-569. *)
Definition op_ald_phys_attr : opnd :=
  OPhysAttr.

(** al2p::o: operand.h:574-574. *)
Definition op_al2p_o : opnd :=
  OFlag ".O" 32.

(** b2r::warp: operand.h:579-588. *)
Definition op_b2r_warp : opnd :=
  OReqTextAfter ".WARP" 60129542144 65280 "expected .WARP".

(** b2r::result: operand.h:590-599. *)
Definition op_b2r_result : opnd :=
  OReqTextAfter ".RESULT" 55834574848 65280 "expected .RESULT".

(** nop::trig: operand.h:604-604. *)
Definition op_nop_trig : opnd :=
  OFlag ".TRIG" 13.

(** nop::mask: operand.h:605-605. *)
Definition op_nop_mask : opnd :=
  OUint 65535 20.

(** cc_text: operand.h:608-615. *)
Definition op_cc_text : opnd :=
  OReqText "CC" 0 "expected CC".

(** cc_tests: operand.h:617-620. *)
Definition op_cc_tests : opnd :=
  ODotTable (Some 15%N) 8 ["F"; "LT"; "EQ"; "LE"; "GT"; "NE"; "GE"; "NUM"; "NAN"; "LTU"; "EQU"; "LEU"; "GTU"; "NEU"; "GEU"; "T"; "OFF"; "LO"; "SFF"; "LS"; "HI"; "SFT"; "HS"; "OFT"; "CSM_TA"; "CSM_TR"; "CSM_MX"; "FCSM_TA"; "FCSM_TR"; "FCSM_MX"; "RLE"; "RGT"].

(** xmad::signs: operand.h:624-645. *)
Definition op_xmad_signs : opnd :=
  OXmadSigns.

(** xmad::mode_a: operand.h:647-647. *)
Definition op_xmad_mode_a : opnd :=
  ODotTable (Some 0%N) 50 [""; "CLO"; "CHI"; "CSFU"; "CBCC"].

(** xmad::mode_b: operand.h:648-648. *)
Definition op_xmad_mode_b : opnd :=
  ODotTable (Some 0%N) 50 [""; "CLO"; "CHI"; "CSFU"].

(** lop3::operation: operand.h:653-653. *)
Definition op_lop3_operation : opnd :=
  ODotTable (Some 0%N) 36 [""; "T"; "Z"; "NZ"].

(** lop3::lut: operand.h:655-662. *)
Definition op_lop3_lut : opnd :=
  OReqText ".LUT" 0 "expected .LUT".

(** shr::format: operand.h:667-667. *)
Definition op_shr_format : opnd :=
  ODotTable (Some 1%N) 48 ["U32"; "S32"].

(** shr::mode: operand.h:668-668. *)
Definition op_shr_mode : opnd :=
  ODotTable (Some 0%N) 39 ["C"; "W"].

(** shr::xmode: operand.h:669-669. *)
Definition op_shr_xmode : opnd :=
  ODotTable (Some 0%N) 43 [""; "INVALIDSHRXMODE1"; "X"; "XHI"].

(** bfe::format: operand.h:674-674. *)
Definition op_bfe_format : opnd :=
  ODotTable (Some 1%N) 48 ["U32"; "S32"].

(** bpt::mode: operand.h:679-679. *)
Definition op_bpt_mode : opnd :=
  ODotTable None 6 ["DRAIN_ILLEGAL"; "CAL"; "PAUSE"; "TRAP"; "INT"; "DRAIN"].

(** stg::e: operand.h:684-684. *)
Definition op_stg_e : opnd :=
  OFlag ".E" 45.

(** f2f::rounding: operand.h:702-733. *)
Definition op_f2f_rounding : opnd :=
  OF2fRounding.

(** fmul::fmz: operand.h:738-739. *)
Definition op_fmul_fmz (address : N) : opnd :=
  ODotTable (Some 0%N) address [""; "FTZ"; "FMZ"; "INVALIDFMZ3"].

(** fmul::scale: operand.h:741-741. *)
Definition op_fmul_scale : opnd :=
  ODotTable (Some 0%N) 41 [""; "D2"; "D4"; "D8"; "M8"; "M4"; "M2"; "INVALIDSCALE37"].

(** iadd3::shift: operand.h:746-746. *)
Definition op_iadd3_shift : opnd :=
  ODotTable (Some 0%N) 37 [""; "RS"; "LS"].

(** iadd3::half: operand.h:748-749. *)
Definition op_iadd3_half (address : N) : opnd :=
  ODotTable (Some 0%N) address [""; "H0"; "H1"].

(** f2i::int_format: operand.h:754-770. *)
Definition op_f2i_int_format : opnd :=
  OIntFormat ["INVALID0"; "U16"; "U32"; "U64"] ["INVALID1"; "S16"; "S32"; "S64"] 8 12 "expected .U16, .U32, .U64, .S16, .S32 or .S64".

(** f2i::rounding: operand.h:772-772. *)
Definition op_f2i_rounding : opnd :=
  ODotTable (Some 0%N) 39 [""; "FLOOR"; "CEIL"; "TRUNC"].

(** p2r::mode: operand.h:777-788. *)
Definition op_p2r_mode (address : N) : opnd :=
  OReqTable "" address ["PR"; "CC"] "expected PR or CC".

(** fp16::merge: operand.h:793-794. *)
Definition op_fp16_merge (address : N) : opnd :=
  ODotTable (Some 0%N) address [""; "F32"; "MRG_H0"; "MRG_H1"].

(** fp16::control: operand.h:796-797. *)
Definition op_fp16_control (address : N) : opnd :=
  ODotTable (Some 0%N) address [""; "FTZ"; "FMZ"].

(** fp16::swizzle: operand.h:799-800. *)
Definition op_fp16_swizzle (address : N) : opnd :=
  ODotTable (Some 0%N) address ["H1_H0"; "F32"; "H0_H0"; "H1_H1"].

(** stl::cache: operand.h:805-805. *)
Definition op_stl_cache : opnd :=
  ODotTable (Some 0%N) 44 [""; "CG"; "CS"; "WT"].

(** lds::u: operand.h:810-810. *)
Definition op_lds_u : opnd :=
  OFlag ".U" 44.

(** float_compare: operand.h:813-815. *)
Definition op_float_compare (address : N) : opnd :=
  ODotTable None address ["F"; "LT"; "EQ"; "LE"; "GT"; "NE"; "GE"; "NUM"; "NAN"; "LTU"; "EQU"; "LEU"; "GTU"; "NEU"; "GEU"; "T"].

(** integer_compare: operand.h:817-818. *)
Definition op_integer_compare (address : N) : opnd :=
  ODotTable None address ["F"; "LT"; "EQ"; "LE"; "GT"; "NE"; "GE"; "T"].

(** vsetp::integer_compare: operand.h:822-824. *)
Definition op_vsetp_integer_compare (address : N) : opnd :=
  ODotTable None address ["F"; "LT"; "EQ"; "LE"; ""; ""; ""; ""; ""; ""; ""; ""; ""; ""; ""; ""; "GT"; "NE"; "GE"; "T"].

(** mufu::operation: operand.h:829-830. *)
Definition op_mufu_operation : opnd :=
  ODotTable None 20 ["COS"; "SIN"; "EX2"; "LG2"; "RCP"; "RSQ"; "RCP64H"; "RSQ64H"; "SQRT"].

(** imnmx::mode: operand.h:835-835. *)
Definition op_imnmx_mode : opnd :=
  ODotTable (Some 0%N) 43 [""; "XLO"; "XMED"; "XHI"].

(** ldc::mode: operand.h:840-840. *)
Definition op_ldc_mode : opnd :=
  ODotTable (Some 0%N) 44 [""; "IL"; "IS"; "ISL"].

(** ldc::size: operand.h:841-841. *)
Definition op_ldc_size : opnd :=
  ODotTable None 48 ["U8"; "S8"; "U16"; "S16"; "32"; "64"].

(** ldc::address: operand.h:843-861. *)
Definition op_ldc_address : opnd :=
  OLdcAddress.

(** image::p: operand.h:866-873. *)
Definition op_image_p : opnd :=
  OReqText ".P" 0 "expected .P or .B".

(** image::d: operand.h:875-883. *)
Definition op_image_d : opnd :=
  OReqText ".D" 4503599627370496 "expected .P or .B".

(** image::ba: operand.h:885-886. *)
Definition op_image_ba (address : N) : opnd :=
  OFlag ".BA" address.

(** image::type: operand.h:888-888. *)
Definition op_image_type : opnd :=
  ODotTable None 33 ["1D"; "1D_BUFFER"; "1D_ARRAY"; "2D"; "2D_ARRAY"; "3D"].

(** image::rgba: operand.h:890-891. *)
Definition op_image_rgba : opnd :=
  ODotTable (Some 15%N) 20 [""; "R"; "G"; "RG"; "B"; "RB"; "GB"; "RGB"; "A"; "RA"; "GA"; "RGA"; "BA"; "RBA"; "GBA"; "RGBA"].

(** image::size: operand.h:893-893. *)
Definition op_image_size : opnd :=
  ODotTable (Some 4%N) 20 ["U8"; "S8"; "U16"; "S16"; "32"; "64"; "128"].

(** image::clamp: operand.h:895-895. *)
Definition op_image_clamp : opnd :=
  ODotTable (Some 1%N) 49 ["IGN"; ""; "TRAP"].

(** s2r: operand.h:898-1197. *)
Definition op_s2r : opnd :=
  OS2r s2r_table.

(** shfl::mode: operand.h:1201-1201. *)
Definition op_shfl_mode : opnd :=
  ODotTable None 30 ["IDX"; "UP"; "DOWN"; "BFLY"].

(** int_sign: operand.h:1204-1204. *)
Definition op_int_sign : opnd :=
  ODotTable (Some 1%N) 48 ["U32"; "S32"].

(** ldg::size: operand.h:1208-1225. *)
Definition op_ldg_size : opnd :=
  OLdgSize.

(** ldg::cache: operand.h:1227-1227. *)
Definition op_ldg_cache : opnd :=
  ODotTable (Some 0%N) 46 [""; "CG"; "CI"; "CV"].

(** i2f::int_format: operand.h:1232-1248. *)
Definition op_i2f_int_format : opnd :=
  OIntFormat ["U8"; "U16"; "U32"; "U64"] ["S8"; "S16"; "S32"; "S64"] 10 13 "expected .U8, .U16, .U32, .U64, .S8, .S16, .S32 or .S64".

(** i2f::selector: operand.h:1250-1263. *)
Definition op_i2f_selector : opnd :=
  OSelector 10 1 ["H0"; "INVALIDSIZE1"; "H1"; "INVALIDSIZE3"] 41.

(** i2i::format: operand.h:1268-1285. *)
Definition op_i2i_format (address : N) (sign_address : N) : opnd :=
  OIntFormat ["U8"; "U16"; "U32"] ["S8"; "S16"; "S32"] address sign_address "expected .U8, .U16, .U32, .S8, .S16 or .S32".

(** i2i::selector: operand.h:1287-1300. *)
Definition op_i2i_selector : opnd :=
  OSelector 10 1 ["H0"; "INVALIDSIZE1"; "H1"; "INVALIDSIZE3"] 41.

(** atoms::operation: operand.h:1305-1306. *)
Definition op_atoms_operation : opnd :=
  ODotTable None 52 ["ADD"; "MIN"; "MAX"; "INC"; "DEC"; "AND"; "OR"; "XOR"; "EXCH"].

(** atoms::size: operand.h:1308-1308. *)
Definition op_atoms_size : opnd :=
  ODotTable None 28 ["U32"; "S32"; "U64"; "S64"].

(** ldl::cache: operand.h:1313-1313. *)
Definition op_ldl_cache : opnd :=
  ODotTable (Some 0%N) 44 [""; "LU"; "CI"; "CV"].

(** atomic_size: operand.h:1316-1340. *)
Definition op_atomic_size (address : N) : opnd :=
  OAtomicSize address.

(** vote::operation: operand.h:1344-1344. *)
Definition op_vote_operation : opnd :=
  ODotTable None 48 ["ALL"; "ANY"; "EQ"].

(** atom::e: operand.h:1349-1349. *)
Definition op_atom_e : opnd :=
  OFlag ".E" 48.

(** atom::operation: operand.h:1351-1352. *)
Definition op_atom_operation : opnd :=
  ODotTable None 52 ["ADD"; "MIN"; "MAX"; "INC"; "DEC"; "AND"; "OR"; "XOR"; "EXCH"; "SAFEADD"].

(** lea::hi: operand.h:1357-1364. *)
Definition op_lea_hi : opnd :=
  OReqText ".HI" 0 "expected .HI".

(** lea::lo: operand.h:1366-1372. *)
Definition op_lea_lo : opnd :=
  OOptText ".LO".

(** shf::r: operand.h:1377-1384. *)
Definition op_shf_r : opnd :=
  OReqText ".R" 0 "expected .R".

(** shf::l: operand.h:1386-1393. *)
Definition op_shf_l : opnd :=
  OReqText ".L" 0 "expected .L".

(** shf::max_shift: operand.h:1395-1395. *)
Definition op_shf_max_shift : opnd :=
  ODotTable (Some 0%N) 37 ["32"; "INVALIDMAXSHIFT3"; "U64"; "S64"].

(** shf::xmode: operand.h:1397-1397. *)
Definition op_shf_xmode : opnd :=
  ODotTable (Some 0%N) 48 [""; "HI"; "X"; "XHI"].

(** noinc: operand.h:1400-1400. *)
Definition op_noinc : opnd :=
  ODotTable (Some 1%N) 6 ["NOINC"; "INC"].

(** video::dest_sign: operand.h:1404-1404. *)
Definition op_video_dest_sign : opnd :=
  ODotTable (Some 1%N) 54 ["UD"; "SD"].

(** video::src_format: operand.h:1406-1426. *)
Definition op_video_src_format (address : N) (sign_address : N) : opnd :=
  OSrcFormat address sign_address.

(** video::mx: operand.h:1428-1429. *)
Definition op_video_mx (address : N) : opnd :=
  ODotTable (Some 0%N) address ["MN"; "MX"].

(** video::vmnmx_op: operand.h:1431-1433. *)
Definition op_video_vmnmx_op (address : N) : opnd :=
  ODotTable (Some 7%N) address ["MRG_16H"; "MRG_16L"; "MRG_8B0"; "MRG_8B2"; "ACC"; "MIN"; "MAX"].

(** video::selector: operand.h:1435-1449. *)
Definition op_video_selector (address : N) (type_address : N) : opnd :=
  OSelector type_address 2 ["H0"; "H1"] address.

(** video::imm_format: operand.h:1451-1461. *)
Definition op_video_imm_format (address : N) (sign_address : N) : opnd :=
  ODotTable (Some 1%N) sign_address ["U16"; "S16"].

(** vmad::scale: operand.h:1466-1466. *)
Definition op_vmad_scale : opnd :=
  ODotTable (Some 0%N) 51 [""; "SHR_7"; "SHR_15"; "INVALIDVMADSCALE3"].

(** red::e: operand.h:1471-1471. *)
Definition op_red_e : opnd :=
  OFlag ".E" 48.

(** red::operation: operand.h:1473-1473. *)
Definition op_red_operation : opnd :=
  ODotTable (Some 0%N) 23 ["ADD"; "MIN"; "MAX"; "INC"; "DEC"; "AND"; "OR"; "XOR"].

(** ndv: operand.h:1476-1477. *)
Definition op_ndv (address : N) : opnd :=
  OFlag ".NDV" address.

(** nodep: operand.h:1479-1480. *)
Definition op_nodep (address : N) : opnd :=
  OFlag ".NODEP" address.

(** dc: operand.h:1482-1483. *)
Definition op_dc (address : N) : opnd :=
  OFlag ".DC" address.

(** aoffi: operand.h:1485-1486. *)
Definition op_aoffi (address : N) : opnd :=
  OFlag ".AOFFI" address.

(** lc: operand.h:1488-1489. *)
Definition op_lc (address : N) : opnd :=
  OFlag ".LC" address.

(** blod: operand.h:1491-1493. *)
Definition op_blod (address : N) : opnd :=
  ODotTable (Some 0%N) address [""; "LZ"; "LB"; "LL"; "INVALIDBLOD4"; "INVALIDBLOD5"; "LBA"; "LLA"].

(** tex_type: operand.h:1495-1509. *)
Definition op_tex_type (address : N) : opnd :=
  OTexType address.

(** b_text: operand.h:1511-1518. *)
Definition op_b_text : opnd :=
  OReqText ".B" 0 "expected .B".

(** lod_text: operand.h:1520-1527. *)
Definition op_lod_text : opnd :=
  OReqText ".LOD" 0 "expected .LOD".

(** zero: operand.h:1529-1536. *)
Definition op_zero : opnd :=
  OZero.

(** sample_size: operand.h:1538-1539. *)
Definition op_sample_size (address : N) : opnd :=
  ODotTable (Some 1%N) address ["F16"; ""].

(** sample_size_inv: operand.h:1541-1542. *)
Definition op_sample_size_inv (address : N) : opnd :=
  ODotTable (Some 0%N) address [""; "F16"].

(** texs_mode: operand.h:1551-1571. *)
Definition op_texs_mode (address : N) : opnd :=
  OTexsMode address.

(** tlds_type: operand.h:1573-1640. *)
Definition op_tlds_type (address : N) : opnd :=
  OTldsType address.

(** texs_type: operand.h:1642-1742. *)
Definition op_texs_type (address : N) : opnd :=
  OTexsType address.

(** texs_swizzle: operand.h:1744-1783. *)
Definition op_texs_swizzle : opnd :=
  OTexsSwizzle.

(** tld4::component: operand.h:1787-1788. *)
Definition op_tld4_component (address : N) : opnd :=
  ODotTable None address ["R"; "G"; "B"; "A"].

(** tld4::offset: operand.h:1790-1791. *)
Definition op_tld4_offset (address : N) : opnd :=
  ODotTable (Some 0%N) address [""; "AOFFI"; "PTP"].

(** tld::lod: operand.h:1796-1797. *)
Definition op_tld_lod (address : N) : opnd :=
  ODotTable None address ["LZ"; "LL"].

(** ms: operand.h:1800-1801. *)
Definition op_ms (address : N) : opnd :=
  OFlag ".MS" address.

(** cl: operand.h:1803-1804. *)
Definition op_cl (address : N) : opnd :=
  OFlag ".CL" address.

(** txq::mode: operand.h:1808-1827. *)
Definition op_txq_mode : opnd :=
  OReqTable "" 22 [""; "TEX_HEADER_DIMENSION"; "TEX_HEADER_TEXTURE_TYPE"; ""; ""; "TEX_HEADER_SAMPLER_POS"] "invalid mode".
