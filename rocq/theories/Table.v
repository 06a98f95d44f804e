(** * Table: the instruction table of /repo/src/table.h:31-302.

    Generated by tools/gen_table.py; do not edit.  One entry per INSN line, in
    the order of the source, with its line number. *)
From Verif Require Import Base Lexer Operand Catalogue.
Local Open Scope string_scope.
Open Scope N_scope.

(** table.h:18-20. *)
Definition NO_PRED : N := 1.
Definition RD : N := 2.
Definition WR : N := 4.

(** table.h:22-28. *)
Record insn := Insn { i_opcode : N; i_flags : N; i_mnemonic : string; i_operands : list opnd }.

Definition table : list insn := [
  (* table.h:32 *)
  Insn 0xEFA0000000000000 0 "AL2P"
    [op_al2p_o; op_amem_size; op_pred 44 false; op_comma; op_dgpr 0; op_comma; op_sgpr 8; op_comma; op_sinteger 11 20];
  (* table.h:33 *)
  Insn 0xEFA0700000000000 0 "AL2P"
    [op_al2p_o; op_amem_size; op_dgpr 0; op_comma; op_sgpr 8; op_comma; op_sinteger 11 20];
  (* table.h:34 *)
  Insn 0xEFA000000000FF00 0 "AL2P"
    [op_al2p_o; op_amem_size; op_pred 44 false; op_comma; op_dgpr 0; op_comma; op_sinteger 11 20];
  (* table.h:35 *)
  Insn 0xEFA070000000FF00 0 "AL2P"
    [op_al2p_o; op_amem_size; op_dgpr 0; op_comma; op_sinteger 11 20];
  (* table.h:36 *)
  Insn 0xEFA0000000000000 0 "AL2P"
    [op_al2p_o; op_amem_size; op_pred 44 false; op_comma; op_dgpr 0; op_comma; op_sgpr 8];
  (* table.h:37 *)
  Insn 0xEFA0700000000000 0 "AL2P"
    [op_al2p_o; op_amem_size; op_dgpr 0; op_comma; op_sgpr 8];
  (* table.h:38 *)
  Insn 0xEFA000000000FF00 0 "AL2P"
    [op_al2p_o; op_amem_size; op_pred 44 false; op_comma; op_dgpr 0];
  (* table.h:39 *)
  Insn 0xEFA070000000FF00 0 "AL2P"
    [op_al2p_o; op_amem_size; op_dgpr 0];
  (* table.h:40 *)
  Insn 0xEFD8000000000000 0 "ALD"
    [op_ald_o; op_ald_size; op_dgpr 0; op_comma; op_ald_imm_attr; op_default_rz 39];
  (* table.h:41 *)
  Insn 0xEFD8000000000000 0 "ALD"
    [op_ald_o; op_ald_size; op_dgpr 0; op_comma; op_ald_imm_attr; op_comma; op_sgpr 39];
  (* table.h:42 *)
  Insn 0xEFD8000000000000 0 "ALD"
    [op_ald_o; op_ald_p; op_ald_size; op_dgpr 0; op_comma; op_ald_patch_attr; op_default_rz 39];
  (* table.h:43 *)
  Insn 0xEFD8000000000000 0 "ALD"
    [op_ald_o; op_ald_p; op_ald_size; op_dgpr 0; op_comma; op_ald_patch_attr; op_comma; op_sgpr 39];
  (* table.h:44 *)
  Insn 0xEFD8000000000000 0 "ALD"
    [op_ald_o; op_ald_phys; op_ald_size; op_dgpr 0; op_comma; op_ald_phys_attr; op_default_rz 39];
  (* table.h:45 *)
  Insn 0xEFD8000000000000 0 "ALD"
    [op_ald_o; op_ald_phys; op_ald_size; op_dgpr 0; op_comma; op_ald_phys_attr; op_comma; op_sgpr 39];
  (* table.h:46 *)
  Insn 0xEFF0000000000000 0 "AST"
    [op_ald_size; op_ald_imm_attr; op_comma; op_sgpr 0; op_default_rz 39];
  (* table.h:47 *)
  Insn 0xEFF0000000000000 0 "AST"
    [op_ald_size; op_ald_imm_attr; op_comma; op_sgpr 0; op_comma; op_sgpr 39];
  (* table.h:48 *)
  Insn 0xEFF0000000000000 0 "AST"
    [op_ald_p; op_ald_size; op_ald_patch_attr; op_comma; op_sgpr 0; op_default_rz 39];
  (* table.h:49 *)
  Insn 0xEFF0000000000000 0 "AST"
    [op_ald_phys; op_ald_size; op_ald_phys_attr; op_comma; op_sgpr 0; op_default_rz 39];
  (* table.h:50 *)
  Insn 0xEFF0000000000000 0 "AST"
    [op_ald_phys; op_ald_size; op_ald_phys_attr; op_comma; op_sgpr 0; op_comma; op_sgpr 39];
  (* table.h:51 *)
  Insn 0xED00000000000000 6 "ATOM"
    [op_atom_e; op_atom_operation; op_atomic_size 49; op_dgpr 0; op_comma; op_memory_address true 28 20 0; op_comma; op_sgpr 20];
  (* table.h:52 *)
  Insn 0xEC00000000000000 6 "ATOMS"
    [op_atoms_operation; op_atoms_size; op_dgpr 0; op_comma; op_memory_address true 30 22 2; op_comma; op_sgpr 20];
  (* table.h:53 *)
  Insn 0xF0B8000000000000 0 "B2R"
    [op_dgpr 0; op_comma; op_uinteger 8 8];
  (* table.h:54 *)
  Insn 0xF0B8000000000000 0 "B2R"
    [op_b2r_warp; op_dgpr 0];
  (* table.h:55 *)
  Insn 0xF0B8000000000000 0 "B2R"
    [op_b2r_result; op_dgpr 0; op_comma; op_pred 45 true];
  (* table.h:57 *)
  Insn 0x5C00000000000000 0 "BFE"
    [op_bfe_format; op_brev 40; op_dgpr 0; op_cc 47; op_comma; op_sgpr 8; op_comma; op_sgpr 20];
  (* table.h:58 *)
  Insn 0x4C00000000000000 0 "BFE"
    [op_bfe_format; op_brev 40; op_dgpr 0; op_cc 47; op_comma; op_sgpr 8; op_comma; op_cbuf];
  (* table.h:59 *)
  Insn 0x3800000000000000 0 "BFE"
    [op_bfe_format; op_brev 40; op_dgpr 0; op_cc 47; op_comma; op_sgpr 8; op_comma; op_imm];
  (* table.h:60 *)
  Insn 0x5BF0000000000000 0 "BFI"
    [op_dgpr 0; op_cc 47; op_comma; op_sgpr 8; op_comma; op_sgpr 20; op_comma; op_sgpr 39];
  (* table.h:61 *)
  Insn 0x53F0000000000000 0 "BFI"
    [op_dgpr 0; op_cc 47; op_comma; op_sgpr 8; op_comma; op_sgpr 39; op_comma; op_cbuf];
  (* table.h:62 *)
  Insn 0x4BF0000000000000 0 "BFI"
    [op_dgpr 0; op_cc 47; op_comma; op_sgpr 8; op_comma; op_cbuf; op_comma; op_sgpr 39];
  (* table.h:63 *)
  Insn 0x36F0000000000000 0 "BFI"
    [op_dgpr 0; op_cc 47; op_comma; op_sgpr 8; op_comma; op_imm; op_comma; op_sgpr 39];
  (* table.h:64 *)
  Insn 0xE3A0000000000000 0 "BPT"
    [op_bpt_mode; op_uinteger 20 20];
  (* table.h:65 *)
  Insn 0xE3A0000000000000 0 "BPT"
    [op_bpt_mode];
  (* table.h:66 *)
  Insn 0x5098000000000000 0 "CSET"
    [op_bf 44; op_cc_tests; op_bop 45; op_dgpr 0; op_cc 47; op_comma; op_cc_text; op_comma; op_pred 39 true];
  (* table.h:67 *)
  Insn 0x50A0000000000000 0 "CSETP"
    [op_cc_tests; op_bop 45; op_pred 3 false; op_comma; op_pred 0 false; op_comma; op_cc_text; op_comma; op_pred 39 true];
  (* table.h:68 *)
  Insn 0x5C70000000000000 0 "DADD"
    [op_fp_rounding 39; op_dgpr 0; op_cc 47; op_comma; op_neg 48; op_abs 46 (op_sgpr 8); op_comma; op_neg 45; op_abs 49 (op_sgpr 20)];
  (* table.h:69 *)
  Insn 0x4C70000000000000 0 "DADD"
    [op_fp_rounding 39; op_dgpr 0; op_cc 47; op_comma; op_neg 48; op_abs 46 (op_sgpr 8); op_comma; op_neg 45; op_abs 49 op_cbuf];
  (* table.h:70 *)
  Insn 0x3870000000000000 0 "DADD"
    [op_fp_rounding 39; op_dgpr 0; op_cc 47; op_comma; op_neg 48; op_abs 46 (op_sgpr 8); op_comma; op_dimm20; op_post_neg 45; op_post_abs 49];
  (* table.h:71 *)
  Insn 0x5B70000000000000 0 "DFMA"
    [op_fp_rounding 50; op_dgpr 0; op_cc 47; op_comma; op_sgpr 8; op_comma; op_neg 48; op_sgpr 20; op_comma; op_neg 49; op_sgpr 39];
  (* table.h:72 *)
  Insn 0x5370000000000000 0 "DFMA"
    [op_fp_rounding 50; op_dgpr 0; op_cc 47; op_comma; op_sgpr 8; op_comma; op_neg 48; op_sgpr 39; op_comma; op_neg 49; op_cbuf];
  (* table.h:73 *)
  Insn 0x4B70000000000000 0 "DFMA"
    [op_fp_rounding 50; op_dgpr 0; op_cc 47; op_comma; op_sgpr 8; op_comma; op_neg 48; op_cbuf; op_comma; op_neg 49; op_sgpr 39];
  (* table.h:74 *)
  Insn 0x3670000000000000 0 "DFMA"
    [op_fp_rounding 50; op_dgpr 0; op_cc 47; op_comma; op_sgpr 8; op_comma; op_dimm20; op_post_neg 48; op_comma; op_neg 49; op_sgpr 39];
  (* table.h:75 *)
  Insn 0x5C50000000000000 0 "DMNMX"
    [op_dgpr 0; op_cc 47; op_comma; op_neg 48; op_abs 46 (op_sgpr 8); op_comma; op_neg 45; op_abs 49 (op_sgpr 20); op_comma; op_pred 39 true];
  (* table.h:76 *)
  Insn 0x4C50000000000000 0 "DMNMX"
    [op_dgpr 0; op_cc 47; op_comma; op_neg 48; op_abs 46 (op_sgpr 8); op_comma; op_neg 45; op_abs 49 op_cbuf; op_comma; op_pred 39 true];
  (* table.h:77 *)
  Insn 0x3850000000000000 0 "DMNMX"
    [op_dgpr 0; op_cc 47; op_comma; op_neg 48; op_abs 46 (op_sgpr 8); op_comma; op_dimm20; op_post_neg 45; op_post_abs 49; op_comma; op_pred 39 true];
  (* table.h:78 *)
  Insn 0x5C80000000000000 0 "DMUL"
    [op_fp_rounding 39; op_dgpr 0; op_cc 47; op_comma; op_sgpr 8; op_comma; op_neg 48; op_sgpr 20];
  (* table.h:79 *)
  Insn 0x4C80000000000000 0 "DMUL"
    [op_fp_rounding 39; op_dgpr 0; op_cc 47; op_comma; op_sgpr 8; op_comma; op_neg 48; op_cbuf];
  (* table.h:80 *)
  Insn 0x3880000000000000 0 "DMUL"
    [op_fp_rounding 39; op_dgpr 0; op_cc 47; op_comma; op_sgpr 8; op_comma; op_dimm20; op_post_neg 48];
  (* table.h:81 *)
  Insn 0x5900000000000000 0 "DSET"
    [op_bf 52; op_float_compare 48; op_bop 45; op_dgpr 0; op_cc 47; op_comma; op_neg 43; op_abs 54 (op_sgpr 8); op_comma; op_neg 53; op_abs 44 (op_sgpr 20); op_comma; op_pred 39 true];
  (* table.h:82 *)
  Insn 0x4900000000000000 0 "DSET"
    [op_bf 52; op_float_compare 48; op_bop 45; op_dgpr 0; op_cc 47; op_comma; op_neg 43; op_abs 54 (op_sgpr 8); op_comma; op_neg 53; op_abs 44 op_cbuf; op_comma; op_pred 39 true];
  (* table.h:83 *)
  Insn 0x3200000000000000 0 "DSET"
    [op_bf 52; op_float_compare 48; op_bop 45; op_dgpr 0; op_cc 47; op_comma; op_neg 43; op_abs 54 (op_sgpr 8); op_comma; op_dimm20; op_post_neg 53; op_post_abs 44; op_comma; op_pred 39 true];
  (* table.h:84 *)
  Insn 0x5B80000000000000 0 "DSETP"
    [op_float_compare 48; op_bop 45; op_pred 3 false; op_comma; op_pred 0 false; op_comma; op_neg 43; op_abs 7 (op_sgpr 8); op_comma; op_neg 6; op_abs 44 (op_sgpr 20); op_comma; op_pred 39 true];
  (* table.h:85 *)
  Insn 0x4B80000000000000 0 "DSETP"
    [op_float_compare 48; op_bop 45; op_pred 3 false; op_comma; op_pred 0 false; op_comma; op_neg 43; op_abs 7 (op_sgpr 8); op_comma; op_neg 6; op_abs 44 op_cbuf; op_comma; op_pred 39 true];
  (* table.h:86 *)
  Insn 0x3680000000000000 0 "DSETP"
    [op_float_compare 48; op_bop 45; op_pred 3 false; op_comma; op_pred 0 false; op_comma; op_neg 43; op_abs 7 (op_sgpr 8); op_comma; op_dimm20; op_post_neg 6; op_post_abs 44; op_comma; op_pred 39 true];
  (* table.h:87 *)
  Insn 0x50B0000000000F00 0 "NOP"
    [op_nop_trig];
  (* table.h:88 *)
  Insn 0x50B0000000000000 0 "NOP"
    [op_nop_trig; op_cc_text; op_cc_tests];
  (* table.h:89 *)
  Insn 0x50B0000000000F00 0 "NOP"
    [op_nop_trig; op_nop_mask];
  (* table.h:90 *)
  Insn 0x50B0000000000000 0 "NOP"
    [op_nop_trig; op_cc_text; op_cc_tests; op_comma; op_nop_mask];
  (* table.h:91 *)
  Insn 0x5C98078000000000 0 "MOV"
    [op_dgpr 0; op_comma; op_sgpr 20];
  (* table.h:92 *)
  Insn 0x5C98000000000000 0 "MOV"
    [op_dgpr 0; op_comma; op_sgpr 20; op_comma; op_mask4 39];
  (* table.h:93 *)
  Insn 0x4C98078000000000 0 "MOV"
    [op_dgpr 0; op_comma; op_cbuf];
  (* table.h:94 *)
  Insn 0x4C98000000000000 0 "MOV"
    [op_dgpr 0; op_comma; op_cbuf; op_comma; op_mask4 39];
  (* table.h:95 *)
  Insn 0x3898078000000000 0 "MOV"
    [op_dgpr 0; op_comma; op_imm];
  (* table.h:96 *)
  Insn 0x3898000000000000 0 "MOV"
    [op_dgpr 0; op_comma; op_imm; op_comma; op_mask4 39];
  (* table.h:97 *)
  Insn 0x010000000000F000 0 "MOV32I"
    [op_dgpr 0; op_comma; op_uimm32];
  (* table.h:98 *)
  Insn 0x0100000000000000 0 "MOV32I"
    [op_dgpr 0; op_comma; op_uimm32; op_comma; op_mask4 12];
  (* table.h:99 *)
  Insn 0x5080000000000000 0 "MUFU"
    [op_mufu_operation; op_sat 50; op_dgpr 0; op_comma; op_neg 48; op_abs 46 (op_sgpr 8)];
  (* table.h:100 *)
  Insn 0xF0C8000000000000 0 "S2R"
    [op_dgpr 0; op_comma; op_s2r];
  (* table.h:101 *)
  Insn 0x5C58000000000000 0 "FADD"
    [op_ftz 44; op_fp_rounding 39; op_sat 50; op_dgpr 0; op_cc 47; op_comma; op_neg 48; op_abs 46 (op_sgpr 8); op_comma; op_neg 45; op_abs 49 (op_sgpr 20)];
  (* table.h:102 *)
  Insn 0x4C58000000000000 0 "FADD"
    [op_ftz 44; op_fp_rounding 39; op_sat 50; op_dgpr 0; op_cc 47; op_comma; op_neg 48; op_abs 46 (op_sgpr 8); op_comma; op_neg 45; op_abs 49 op_cbuf];
  (* table.h:103 *)
  Insn 0x3858000000000000 0 "FADD"
    [op_ftz 44; op_fp_rounding 39; op_sat 50; op_dgpr 0; op_cc 47; op_comma; op_neg 48; op_abs 46 (op_sgpr 8); op_comma; op_fimm; op_post_neg 45; op_post_abs 49];
  (* table.h:104 *)
  Insn 0x0800000000000000 0 "FADD32I"
    [op_ftz 55; op_dgpr 0; op_cc 52; op_comma; op_neg 56; op_abs 54 (op_sgpr 8); op_comma; op_fimm32; op_post_neg 53; op_post_abs 57];
  (* table.h:105 *)
  Insn 0x5980000000000000 0 "FFMA"
    [op_fmul_fmz 53; op_fp_rounding 51; op_sat 50; op_dgpr 0; op_cc 47; op_comma; op_sgpr 8; op_comma; op_neg 48; op_sgpr 20; op_comma; op_neg 49; op_sgpr 39];
  (* table.h:106 *)
  Insn 0x5180000000000000 0 "FFMA"
    [op_fmul_fmz 53; op_fp_rounding 51; op_sat 50; op_dgpr 0; op_cc 47; op_comma; op_sgpr 8; op_comma; op_neg 48; op_sgpr 39; op_comma; op_neg 49; op_cbuf];
  (* table.h:107 *)
  Insn 0x4980000000000000 0 "FFMA"
    [op_fmul_fmz 53; op_fp_rounding 51; op_sat 50; op_dgpr 0; op_cc 47; op_comma; op_sgpr 8; op_comma; op_neg 48; op_cbuf; op_comma; op_neg 49; op_sgpr 39];
  (* table.h:108 *)
  Insn 0x3280000000000000 0 "FFMA"
    [op_fmul_fmz 53; op_fp_rounding 51; op_sat 50; op_dgpr 0; op_cc 47; op_comma; op_sgpr 8; op_comma; op_fimm; op_post_neg 48; op_comma; op_neg 49; op_sgpr 39];
  (* table.h:109 *)
  Insn 0x0C00000000000000 0 "FFMA32I"
    [op_fmul_fmz 53; op_sat 55; op_dgpr 0; op_cc 52; op_comma; op_neg 56; op_sgpr 8; op_comma; op_fimm32; op_comma; op_neg 57; op_mirror_dgpr 0];
  (* table.h:110 *)
  Insn 0x5C60000000000000 0 "FMNMX"
    [op_ftz 44; op_dgpr 0; op_cc 47; op_comma; op_neg 48; op_abs 46 (op_sgpr 8); op_comma; op_neg 45; op_abs 49 (op_sgpr 20); op_comma; op_pred 39 true];
  (* table.h:111 *)
  Insn 0x4C60000000000000 0 "FMNMX"
    [op_ftz 44; op_dgpr 0; op_cc 47; op_comma; op_neg 48; op_abs 46 (op_sgpr 8); op_comma; op_neg 45; op_abs 49 op_cbuf; op_comma; op_pred 39 true];
  (* table.h:112 *)
  Insn 0x3860000000000000 0 "FMNMX"
    [op_ftz 44; op_dgpr 0; op_cc 47; op_comma; op_neg 48; op_abs 46 (op_sgpr 8); op_comma; op_fimm; op_post_neg 45; op_post_abs 49; op_comma; op_pred 39 true];
  (* table.h:113 *)
  Insn 0x5C68000000000000 0 "FMUL"
    [op_fmul_fmz 44; op_fmul_scale; op_fp_rounding 39; op_sat 50; op_dgpr 0; op_cc 47; op_comma; op_sgpr 8; op_comma; op_neg 48; op_sgpr 20];
  (* table.h:114 *)
  Insn 0x4C68000000000000 0 "FMUL"
    [op_fmul_fmz 44; op_fmul_scale; op_fp_rounding 39; op_sat 50; op_dgpr 0; op_cc 47; op_comma; op_sgpr 8; op_comma; op_neg 48; op_cbuf];
  (* table.h:115 *)
  Insn 0x3868000000000000 0 "FMUL"
    [op_fmul_fmz 44; op_fmul_scale; op_fp_rounding 39; op_sat 50; op_dgpr 0; op_cc 47; op_comma; op_sgpr 8; op_comma; op_fimm; op_post_neg 48];
  (* table.h:116 *)
  Insn 0x1E00000000000000 0 "FMUL32I"
    [op_fmul_fmz 53; op_sat 55; op_dgpr 0; op_cc 52; op_comma; op_sgpr 8; op_comma; op_fimm32];
  (* table.h:117 *)
  Insn 0x5800000000000000 0 "FSET"
    [op_bf 52; op_float_compare 48; op_ftz 55; op_bop 45; op_dgpr 0; op_cc 47; op_comma; op_neg 43; op_abs 54 (op_sgpr 8); op_comma; op_neg 53; op_abs 44 (op_sgpr 20); op_comma; op_pred 39 true];
  (* table.h:118 *)
  Insn 0x4800000000000000 0 "FSET"
    [op_bf 52; op_float_compare 48; op_ftz 55; op_bop 45; op_dgpr 0; op_cc 47; op_comma; op_neg 43; op_abs 54 (op_sgpr 8); op_comma; op_neg 53; op_abs 44 op_cbuf; op_comma; op_pred 39 true];
  (* table.h:119 *)
  Insn 0x3000000000000000 0 "FSET"
    [op_bf 52; op_float_compare 48; op_ftz 55; op_bop 45; op_dgpr 0; op_cc 47; op_comma; op_neg 43; op_abs 54 (op_sgpr 8); op_comma; op_fimm; op_post_neg 53; op_post_abs 44; op_comma; op_pred 39 true];
  (* table.h:120 *)
  Insn 0x5BB0000000000000 0 "FSETP"
    [op_float_compare 48; op_ftz 47; op_bop 45; op_pred 3 false; op_comma; op_pred 0 false; op_comma; op_neg 43; op_abs 7 (op_sgpr 8); op_comma; op_neg 6; op_abs 44 (op_sgpr 20); op_comma; op_pred 39 true];
  (* table.h:121 *)
  Insn 0x4BB0000000000000 0 "FSETP"
    [op_float_compare 48; op_ftz 47; op_bop 45; op_pred 3 false; op_comma; op_pred 0 false; op_comma; op_neg 43; op_abs 7 (op_sgpr 8); op_comma; op_neg 6; op_abs 44 op_cbuf; op_comma; op_pred 39 true];
  (* table.h:122 *)
  Insn 0x36B0000000000000 0 "FSETP"
    [op_float_compare 48; op_ftz 47; op_bop 45; op_pred 3 false; op_comma; op_pred 0 false; op_comma; op_neg 43; op_abs 7 (op_sgpr 8); op_comma; op_fimm; op_post_neg 6; op_post_abs 44; op_comma; op_pred 39 true];
  (* table.h:123 *)
  Insn 0x5B00000000000000 0 "XMAD"
    [op_xmad_signs; op_psl 36; op_xmad_mode_a; op_mrg 37; op_x 38; op_dgpr 0; op_cc 47; op_comma; op_sgpr 8; op_half 53; op_comma; op_sgpr 20; op_half 35; op_comma; op_sgpr 39];
  (* table.h:124 *)
  Insn 0x5100000000000000 0 "XMAD"
    [op_xmad_signs; op_xmad_mode_b; op_x 54; op_dgpr 0; op_cc 47; op_comma; op_sgpr 8; op_half 53; op_comma; op_sgpr 39; op_half 52; op_comma; op_cbuf];
  (* table.h:125 *)
  Insn 0x4E00000000000000 0 "XMAD"
    [op_xmad_signs; op_psl 55; op_xmad_mode_b; op_mrg 56; op_x 54; op_dgpr 0; op_cc 47; op_comma; op_sgpr 8; op_half 53; op_comma; op_cbuf; op_half 52; op_comma; op_sgpr 39];
  (* table.h:126 *)
  Insn 0x3600000000000000 0 "XMAD"
    [op_xmad_signs; op_psl 36; op_xmad_mode_a; op_mrg 37; op_x 38; op_dgpr 0; op_cc 47; op_comma; op_sgpr 8; op_half 53; op_comma; op_uimm16; op_comma; op_sgpr 39];
  (* table.h:127 *)
  Insn 0x5C28000000000000 0 "SHR"
    [op_shr_format; op_shr_mode; op_shr_xmode; op_brev 40; op_dgpr 0; op_cc 47; op_comma; op_sgpr 8; op_comma; op_sgpr 20];
  (* table.h:128 *)
  Insn 0x4C28000000000000 0 "SHR"
    [op_shr_format; op_shr_mode; op_shr_xmode; op_brev 40; op_dgpr 0; op_cc 47; op_comma; op_sgpr 8; op_comma; op_cbuf];
  (* table.h:129 *)
  Insn 0x3828000000000000 0 "SHR"
    [op_shr_format; op_shr_mode; op_shr_xmode; op_brev 40; op_dgpr 0; op_cc 47; op_comma; op_sgpr 8; op_comma; op_imm];
  (* table.h:130 *)
  Insn 0x5CF8000000000000 0 "SHF"
    [op_shf_r; op_w 50; op_shf_max_shift; op_shf_xmode; op_dgpr 0; op_cc 47; op_comma; op_sgpr 8; op_comma; op_sgpr 20; op_comma; op_sgpr 39];
  (* table.h:131 *)
  Insn 0x5BF8000000000000 0 "SHF"
    [op_shf_l; op_w 50; op_shf_max_shift; op_shf_xmode; op_dgpr 0; op_cc 47; op_comma; op_sgpr 8; op_comma; op_sgpr 20; op_comma; op_sgpr 39];
  (* table.h:132 *)
  Insn 0x38F8000000000000 0 "SHF"
    [op_shf_r; op_w 50; op_shf_max_shift; op_shf_xmode; op_dgpr 0; op_cc 47; op_comma; op_sgpr 8; op_comma; op_uinteger 6 20; op_comma; op_sgpr 39];
  (* table.h:133 *)
  Insn 0x36F8000000000000 0 "SHF"
    [op_shf_l; op_w 50; op_shf_max_shift; op_shf_xmode; op_dgpr 0; op_cc 47; op_comma; op_sgpr 8; op_comma; op_uinteger 6 20; op_comma; op_sgpr 39];
  (* table.h:134 *)
  Insn 0x5CA8000000000000 0 "F2F"
    [op_ftz 44; op_float_format 8; op_float_format 10; op_f2f_rounding; op_sat 50; op_dgpr 0; op_cc 47; op_comma; op_neg 45; op_abs 49 (op_sgpr 20); op_half 41];
  (* table.h:135 *)
  Insn 0x4CA8000000000000 0 "F2F"
    [op_ftz 44; op_float_format 8; op_float_format 10; op_f2f_rounding; op_sat 50; op_dgpr 0; op_cc 47; op_comma; op_neg 45; op_abs 49 op_cbuf; op_half 41];
  (* table.h:136 *)
  Insn 0x38A8000000000000 0 "F2F"
    [op_ftz 44; op_float_format 8; op_float_format 10; op_f2f_rounding; op_sat 50; op_dgpr 0; op_cc 47; op_comma; op_fimm; op_post_neg 45; op_post_abs 49; op_half 41];
  (* table.h:137 *)
  Insn 0x5CB0000000000000 0 "F2I"
    [op_ftz 44; op_f2i_int_format; op_float_format 10; op_f2i_rounding; op_dgpr 0; op_cc 47; op_comma; op_neg 45; op_abs 49 (op_sgpr 20); op_half 41];
  (* table.h:138 *)
  Insn 0x4CB0000000000000 0 "F2I"
    [op_ftz 44; op_f2i_int_format; op_float_format 10; op_f2i_rounding; op_dgpr 0; op_cc 47; op_comma; op_neg 45; op_abs 49 op_cbuf; op_half 41];
  (* table.h:140 *)
  Insn 0x5CB8000000000000 0 "I2F"
    [op_float_format 8; op_i2f_int_format; op_fp_rounding 39; op_dgpr 0; op_cc 47; op_comma; op_neg 45; op_abs 49 (op_sgpr 20); op_i2f_selector];
  (* table.h:141 *)
  Insn 0x4CB8000000000000 0 "I2F"
    [op_float_format 8; op_i2f_int_format; op_fp_rounding 39; op_dgpr 0; op_cc 47; op_comma; op_neg 45; op_abs 49 op_cbuf; op_i2f_selector];
  (* table.h:142 *)
  Insn 0x38B8000000000000 0 "I2F"
    [op_float_format 8; op_i2f_int_format; op_fp_rounding 39; op_dgpr 0; op_cc 47; op_comma; op_imm; op_post_neg 45; op_post_abs 49; op_i2f_selector];
  (* table.h:143 *)
  Insn 0x5CE0000000000000 0 "I2I"
    [op_i2i_format 8 12; op_i2i_format 10 13; op_sat 50; op_dgpr 0; op_cc 47; op_comma; op_neg 45; op_abs 49 (op_sgpr 20); op_i2i_selector];
  (* table.h:144 *)
  Insn 0x4CE0000000000000 0 "I2I"
    [op_i2i_format 8 12; op_i2i_format 10 13; op_sat 50; op_dgpr 0; op_cc 47; op_comma; op_neg 45; op_abs 49 op_cbuf; op_i2i_selector];
  (* table.h:145 *)
  Insn 0x38E0000000000000 0 "I2I"
    [op_i2i_format 8 12; op_i2i_format 10 13; op_sat 50; op_dgpr 0; op_cc 47; op_comma; op_imm; op_post_neg 45; op_post_abs 49];
  (* table.h:146 *)
  Insn 0x5D10000000000000 0 "HADD2"
    [op_fp16_merge 49; op_ftz 39; op_sat 32; op_dgpr 0; op_comma; op_neg 43; op_abs 44 (op_sgpr 8); op_fp16_swizzle 47; op_comma; op_neg 31; op_abs 30 (op_sgpr 20); op_fp16_swizzle 28];
  (* table.h:147 *)
  Insn 0x7A80000000000000 0 "HADD2"
    [op_fp16_merge 49; op_ftz 39; op_sat 52; op_dgpr 0; op_comma; op_neg 43; op_abs 44 (op_sgpr 8); op_fp16_swizzle 47; op_comma; op_neg 56; op_abs 54 op_cbuf];
  (* table.h:148 *)
  Insn 0x7A00000000000000 0 "HADD2"
    [op_fp16_merge 49; op_ftz 39; op_sat 52; op_dgpr 0; op_comma; op_neg 43; op_abs 44 (op_sgpr 8); op_fp16_swizzle 47; op_comma; op_fimm9_high 56; op_comma; op_fimm9_low 29];
  (* table.h:149 *)
  Insn 0x2C00000000000000 0 "HADD2_32I"
    [op_ftz 55; op_sat 52; op_dgpr 0; op_comma; op_neg 56; op_sgpr 8; op_fp16_swizzle 53; op_comma; op_fimm16_high; op_comma; op_fimm16_low];
  (* table.h:150 *)
  Insn 0x7080000000000000 0 "HFMA2"
    [op_fp16_merge 49; op_fp16_control 57; op_sat 52; op_dgpr 0; op_comma; op_sgpr 8; op_fp16_swizzle 47; op_comma; op_neg 56; op_cbuf; op_comma; op_neg 51; op_sgpr 39; op_fp16_swizzle 53];
  (* table.h:151 *)
  Insn 0x7000000000000000 0 "HFMA2"
    [op_fp16_merge 49; op_fp16_control 57; op_sat 52; op_dgpr 0; op_comma; op_sgpr 8; op_fp16_swizzle 47; op_comma; op_fimm9_high 56; op_comma; op_fimm9_low 29; op_comma; op_neg 51; op_sgpr 39; op_fp16_swizzle 53];
  (* table.h:152 *)
  Insn 0x6080000000000000 0 "HFMA2"
    [op_fp16_merge 49; op_fp16_control 57; op_sat 52; op_dgpr 0; op_comma; op_sgpr 8; op_fp16_swizzle 47; op_comma; op_neg 56; op_sgpr 39; op_fp16_swizzle 53; op_comma; op_neg 51; op_cbuf];
  (* table.h:153 *)
  Insn 0x5D00000000000000 0 "HFMA2"
    [op_fp16_merge 49; op_fp16_control 37; op_sat 32; op_dgpr 0; op_comma; op_sgpr 8; op_fp16_swizzle 47; op_comma; op_neg 31; op_sgpr 20; op_fp16_swizzle 28; op_comma; op_neg 30; op_sgpr 39; op_fp16_swizzle 35];
  (* table.h:154 *)
  Insn 0x2800000000000000 0 "HFMA2_32I"
    [op_fp16_control 55; op_dgpr 0; op_comma; op_sgpr 8; op_fp16_swizzle 53; op_comma; op_fimm16_high; op_comma; op_fimm16_low; op_comma; op_neg 52; op_mirror_dgpr 0];
  (* table.h:155 *)
  Insn 0x5D08000000000000 0 "HMUL2"
    [op_fp16_merge 49; op_fp16_control 39; op_sat 32; op_dgpr 0; op_comma; op_abs 44 (op_sgpr 8); op_fp16_swizzle 47; op_comma; op_neg 31; op_abs 30 (op_sgpr 20); op_fp16_swizzle 28];
  (* table.h:156 *)
  Insn 0x7880000000000000 0 "HMUL2"
    [op_fp16_merge 49; op_fp16_control 39; op_sat 52; op_dgpr 0; op_comma; op_abs 44 (op_sgpr 8); op_fp16_swizzle 47; op_comma; op_neg 43; op_abs 54 op_cbuf];
  (* table.h:157 *)
  Insn 0x7800000000000000 0 "HMUL2"
    [op_fp16_merge 49; op_fp16_control 39; op_sat 52; op_dgpr 0; op_comma; op_neg 43; op_abs 44 (op_sgpr 8); op_fp16_swizzle 47; op_comma; op_fimm9_high 56; op_comma; op_fimm9_low 29];
  (* table.h:158 *)
  Insn 0x2A00000000000000 0 "HMUL2_32I"
    [op_fp16_control 55; op_sat 52; op_dgpr 0; op_comma; op_sgpr 8; op_fp16_swizzle 53; op_comma; op_fimm16_high; op_comma; op_fimm16_low];
  (* table.h:159 *)
  Insn 0x5D18000000000000 0 "HSET2"
    [op_bf 49; op_float_compare 35; op_ftz 50; op_bop 45; op_dgpr 0; op_comma; op_neg 43; op_abs 44 (op_sgpr 8); op_fp16_swizzle 47; op_comma; op_neg 31; op_abs 30 (op_sgpr 20); op_fp16_swizzle 28; op_comma; op_pred 39 true];
  (* table.h:160 *)
  Insn 0x7C80000000000000 0 "HSET2"
    [op_bf 53; op_float_compare 49; op_ftz 54; op_bop 45; op_dgpr 0; op_comma; op_neg 43; op_abs 44 (op_sgpr 8); op_fp16_swizzle 47; op_comma; op_neg 56; op_cbuf; op_comma; op_pred 39 true];
  (* table.h:161 *)
  Insn 0x7C00000000000000 0 "HSET2"
    [op_bf 53; op_float_compare 49; op_ftz 54; op_bop 45; op_dgpr 0; op_comma; op_neg 43; op_abs 44 (op_sgpr 8); op_fp16_swizzle 47; op_comma; op_fimm9_high 56; op_comma; op_fimm9_low 29; op_comma; op_pred 39 true];
  (* table.h:162 *)
  Insn 0x5D20000000000000 0 "HSETP2"
    [op_float_compare 35; op_h_and 49; op_ftz 6; op_bop 45; op_pred 3 false; op_comma; op_pred 0 false; op_comma; op_neg 43; op_abs 44 (op_sgpr 8); op_fp16_swizzle 47; op_comma; op_neg 31; op_abs 30 (op_sgpr 20); op_fp16_swizzle 28; op_comma; op_pred 39 true];
  (* table.h:163 *)
  Insn 0x7E80000000000000 0 "HSETP2"
    [op_float_compare 49; op_h_and 53; op_ftz 6; op_bop 45; op_pred 3 false; op_comma; op_pred 0 false; op_comma; op_neg 43; op_abs 44 (op_sgpr 8); op_fp16_swizzle 47; op_comma; op_neg 56; op_abs 54 op_cbuf; op_comma; op_pred 39 true];
  (* table.h:164 *)
  Insn 0x7E00000000000000 0 "HSETP2"
    [op_float_compare 49; op_h_and 53; op_ftz 6; op_bop 45; op_pred 3 false; op_comma; op_pred 0 false; op_comma; op_neg 43; op_abs 44 (op_sgpr 8); op_fp16_swizzle 47; op_comma; op_fimm9_high 56; op_comma; op_fimm9_low 29; op_comma; op_pred 39 true];
  (* table.h:165 *)
  Insn 0x5090000000000000 0 "PSETP"
    [op_bop 24; op_bop 45; op_pred 3 false; op_comma; op_pred 0 false; op_comma; op_pred 12 true; op_comma; op_pred 29 true; op_comma; op_pred 39 true];
  (* table.h:166 *)
  Insn 0x5088000000000000 0 "PSET"
    [op_bf 44; op_bop 24; op_bop 45; op_dgpr 0; op_cc 47; op_comma; op_pred 12 true; op_comma; op_pred 29 true; op_comma; op_pred 39 true];
  (* table.h:167 *)
  Insn 0x5CE8000000000000 0 "P2R"
    [op_byte_selector 41; op_dgpr 0; op_comma; op_p2r_mode 40; op_comma; op_sgpr 8; op_comma; op_sgpr 20];
  (* table.h:168 *)
  Insn 0x4CE8000000000000 0 "P2R"
    [op_byte_selector 41; op_dgpr 0; op_comma; op_p2r_mode 40; op_comma; op_sgpr 8; op_comma; op_cbuf];
  (* table.h:169 *)
  Insn 0x38E8000000000000 0 "P2R"
    [op_byte_selector 41; op_dgpr 0; op_comma; op_p2r_mode 40; op_comma; op_sgpr 8; op_comma; op_imm];
  (* table.h:170 *)
  Insn 0x5CF0000000000000 0 "R2P"
    [op_p2r_mode 40; op_comma; op_sgpr 8; op_byte_selector 41; op_comma; op_sgpr 20];
  (* table.h:171 *)
  Insn 0x4CF0000000000000 0 "R2P"
    [op_p2r_mode 40; op_comma; op_sgpr 8; op_byte_selector 41; op_comma; op_cbuf];
  (* table.h:172 *)
  Insn 0x38F0000000000000 0 "R2P"
    [op_p2r_mode 40; op_comma; op_sgpr 8; op_byte_selector 41; op_comma; op_imm];
  (* table.h:173 *)
  Insn 0x5C10000000000000 0 "IADD"
    [op_po 48 49; op_sat 50; op_x 43; op_dgpr 0; op_cc 47; op_comma; op_neg 49; op_sgpr 8; op_comma; op_neg 48; op_sgpr 20];
  (* table.h:174 *)
  Insn 0x4C10000000000000 0 "IADD"
    [op_po 48 49; op_sat 50; op_x 43; op_dgpr 0; op_cc 47; op_comma; op_neg 49; op_sgpr 8; op_comma; op_neg 48; op_cbuf];
  (* table.h:175 *)
  Insn 0x3810000000000000 0 "IADD"
    [op_po 48 49; op_sat 50; op_x 43; op_dgpr 0; op_cc 47; op_comma; op_neg 49; op_sgpr 8; op_comma; op_imm; op_post_neg 48];
  (* table.h:176 *)
  Insn 0x1C00000000000000 0 "IADD32I"
    [op_po 55 56; op_sat 54; op_x 53; op_dgpr 0; op_cc 52; op_comma; op_neg 56; op_sgpr 8; op_comma; op_simm32];
  (* table.h:177 *)
  Insn 0x5CC0000000000000 0 "IADD3"
    [op_iadd3_shift; op_x 48; op_dgpr 0; op_cc 47; op_comma; op_neg 51; op_sgpr 8; op_iadd3_half 35; op_comma; op_neg 50; op_sgpr 20; op_iadd3_half 33; op_comma; op_neg 49; op_sgpr 39; op_iadd3_half 31];
  (* table.h:178 *)
  Insn 0x4CC0000000000000 0 "IADD3"
    [op_x 48; op_dgpr 0; op_cc 47; op_comma; op_neg 51; op_sgpr 8; op_comma; op_neg 50; op_cbuf; op_comma; op_neg 49; op_sgpr 39];
  (* table.h:179 *)
  Insn 0x38C0000000000000 0 "IADD3"
    [op_x 48; op_dgpr 0; op_cc 47; op_comma; op_neg 51; op_sgpr 8; op_comma; op_uimm_extended; op_post_neg 50; op_comma; op_neg 49; op_sgpr 39];
  (* table.h:180 *)
  Insn 0x5B40000000000000 0 "ICMP"
    [op_integer_compare 49; op_int_sign; op_dgpr 0; op_comma; op_sgpr 8; op_comma; op_sgpr 20; op_comma; op_sgpr 39];
  (* table.h:181 *)
  Insn 0x5340000000000000 0 "ICMP"
    [op_integer_compare 49; op_int_sign; op_dgpr 0; op_comma; op_sgpr 8; op_comma; op_sgpr 39; op_comma; op_cbuf];
  (* table.h:182 *)
  Insn 0x5340000000000000 0 "ICMP"
    [op_integer_compare 49; op_int_sign; op_dgpr 0; op_comma; op_sgpr 8; op_comma; op_cbuf; op_comma; op_sgpr 39];
  (* table.h:183 *)
  Insn 0x3640000000000000 0 "ICMP"
    [op_integer_compare 49; op_int_sign; op_dgpr 0; op_comma; op_sgpr 8; op_comma; op_imm; op_comma; op_sgpr 39];
  (* table.h:184 *)
  Insn 0x5C20000000000000 0 "IMNMX"
    [op_int_sign; op_imnmx_mode; op_dgpr 0; op_cc 47; op_comma; op_sgpr 8; op_comma; op_sgpr 20; op_comma; op_pred 39 true];
  (* table.h:185 *)
  Insn 0x4C20000000000000 0 "IMNMX"
    [op_int_sign; op_imnmx_mode; op_dgpr 0; op_cc 47; op_comma; op_sgpr 8; op_comma; op_cbuf; op_comma; op_pred 39 true];
  (* table.h:186 *)
  Insn 0x3820000000000000 0 "IMNMX"
    [op_int_sign; op_imnmx_mode; op_dgpr 0; op_cc 47; op_comma; op_sgpr 8; op_comma; op_imm; op_comma; op_pred 39 true];
  (* table.h:187 *)
  Insn 0x5C18000000000000 0 "ISCADD"
    [op_po 48 49; op_dgpr 0; op_cc 47; op_comma; op_neg 49; op_sgpr 8; op_comma; op_neg 48; op_sgpr 20; op_comma; op_uinteger 5 39];
  (* table.h:188 *)
  Insn 0x4C18000000000000 0 "ISCADD"
    [op_po 48 49; op_dgpr 0; op_cc 47; op_comma; op_neg 49; op_sgpr 8; op_comma; op_neg 48; op_cbuf; op_comma; op_uinteger 5 39];
  (* table.h:189 *)
  Insn 0x3818000000000000 0 "ISCADD"
    [op_po 48 49; op_dgpr 0; op_cc 47; op_comma; op_neg 49; op_sgpr 8; op_comma; op_neg 48; op_imm; op_comma; op_uinteger 5 39];
  (* table.h:190 *)
  Insn 0x5B50000000000000 0 "ISET"
    [op_bf 44; op_integer_compare 49; op_int_sign; op_x 43; op_bop 45; op_dgpr 0; op_cc 47; op_comma; op_sgpr 8; op_comma; op_sgpr 20; op_comma; op_pred 39 true];
  (* table.h:191 *)
  Insn 0x4B50000000000000 0 "ISET"
    [op_bf 44; op_integer_compare 49; op_int_sign; op_x 43; op_bop 45; op_dgpr 0; op_cc 47; op_comma; op_sgpr 8; op_comma; op_cbuf; op_comma; op_pred 39 true];
  (* table.h:192 *)
  Insn 0x3650000000000000 0 "ISET"
    [op_bf 44; op_integer_compare 49; op_int_sign; op_x 43; op_bop 45; op_dgpr 0; op_cc 47; op_comma; op_sgpr 8; op_comma; op_imm; op_comma; op_pred 39 true];
  (* table.h:193 *)
  Insn 0x5B60000000000000 0 "ISETP"
    [op_integer_compare 49; op_int_sign; op_x 43; op_bop 45; op_pred 3 false; op_comma; op_pred 0 false; op_comma; op_sgpr 8; op_comma; op_sgpr 20; op_comma; op_pred 39 true];
  (* table.h:194 *)
  Insn 0x4B60000000000000 0 "ISETP"
    [op_integer_compare 49; op_int_sign; op_x 43; op_bop 45; op_pred 3 false; op_comma; op_pred 0 false; op_comma; op_sgpr 8; op_comma; op_cbuf; op_comma; op_pred 39 true];
  (* table.h:195 *)
  Insn 0x3660000000000000 0 "ISETP"
    [op_integer_compare 49; op_int_sign; op_x 43; op_bop 45; op_pred 3 false; op_comma; op_pred 0 false; op_comma; op_sgpr 8; op_comma; op_imm; op_comma; op_pred 39 true];
  (* table.h:196 *)
  Insn 0x5C30000000000000 0 "FLO"
    [op_int_sign; op_sh 41; op_dgpr 0; op_cc 47; op_comma; op_tilde 40; op_sgpr 20];
  (* table.h:197 *)
  Insn 0x4C30000000000000 0 "FLO"
    [op_int_sign; op_sh 41; op_dgpr 0; op_cc 47; op_comma; op_tilde 40; op_cbuf];
  (* table.h:198 *)
  Insn 0x3830000000000000 0 "FLO"
    [op_int_sign; op_sh 41; op_dgpr 0; op_cc 47; op_comma; op_imm; op_inv 40];
  (* table.h:199 *)
  Insn 0x5C08000000000000 0 "POPC"
    [op_dgpr 0; op_comma; op_tilde 40; op_sgpr 20];
  (* table.h:200 *)
  Insn 0x4C08000000000000 0 "POPC"
    [op_dgpr 0; op_comma; op_tilde 40; op_cbuf];
  (* table.h:201 *)
  Insn 0x3808000000000000 0 "POPC"
    [op_dgpr 0; op_comma; op_imm; op_inv 40];
  (* table.h:202 *)
  Insn 0xEF90000000000000 0 "LDC"
    [op_ldc_size; op_ldc_mode; op_dgpr 0; op_comma; op_ldc_address];
  (* table.h:203 *)
  Insn 0x5BDF000000000000 0 "LEA"
    [op_lea_hi; op_x 38; op_dgpr 0; op_cc 47; op_comma; op_neg 37; op_sgpr 8; op_comma; op_sgpr 20; op_comma; op_sgpr 39];
  (* table.h:204 *)
  Insn 0x5BDF000000000000 0 "LEA"
    [op_lea_hi; op_x 38; op_dgpr 0; op_cc 47; op_comma; op_neg 37; op_sgpr 8; op_comma; op_sgpr 20; op_comma; op_sgpr 39; op_comma; op_uinteger 5 28];
  (* table.h:205 *)
  Insn 0x5BD8000000000000 0 "LEA"
    [op_lea_hi; op_x 38; op_pred 48 false; op_comma; op_dgpr 0; op_cc 47; op_comma; op_neg 37; op_sgpr 8; op_comma; op_sgpr 20; op_comma; op_sgpr 39];
  (* table.h:206 *)
  Insn 0x5BD8000000000000 0 "LEA"
    [op_lea_hi; op_x 38; op_pred 48 false; op_comma; op_dgpr 0; op_cc 47; op_comma; op_neg 37; op_sgpr 8; op_comma; op_sgpr 20; op_comma; op_sgpr 39; op_comma; op_uinteger 5 28];
  (* table.h:207 *)
  Insn 0x1807000000000000 0 "LEA"
    [op_lea_hi; op_x 57; op_dgpr 0; op_cc 47; op_comma; op_neg 56; op_sgpr 8; op_comma; op_cbuf; op_comma; op_sgpr 39];
  (* table.h:208 *)
  Insn 0x1807000000000000 0 "LEA"
    [op_lea_hi; op_x 57; op_dgpr 0; op_cc 47; op_comma; op_neg 56; op_sgpr 8; op_comma; op_cbuf; op_comma; op_sgpr 39; op_comma; op_uinteger 5 51];
  (* table.h:209 *)
  Insn 0x1800000000000000 0 "LEA"
    [op_lea_hi; op_x 57; op_pred 48 false; op_comma; op_dgpr 0; op_cc 47; op_comma; op_neg 56; op_sgpr 8; op_comma; op_cbuf; op_comma; op_sgpr 39];
  (* table.h:210 *)
  Insn 0x1800000000000000 0 "LEA"
    [op_lea_hi; op_x 57; op_pred 48 false; op_comma; op_dgpr 0; op_cc 47; op_comma; op_neg 56; op_sgpr 8; op_comma; op_cbuf; op_comma; op_sgpr 39; op_comma; op_uinteger 5 51];
  (* table.h:211 *)
  Insn 0x5BD7000000000000 0 "LEA"
    [op_lea_lo; op_x 46; op_dgpr 0; op_cc 47; op_comma; op_neg 45; op_sgpr 8; op_comma; op_sgpr 20];
  (* table.h:212 *)
  Insn 0x5BD7000000000000 0 "LEA"
    [op_lea_lo; op_x 46; op_dgpr 0; op_cc 47; op_comma; op_neg 45; op_sgpr 8; op_comma; op_sgpr 20; op_comma; op_uinteger 5 39];
  (* table.h:213 *)
  Insn 0x5BD0000000000000 0 "LEA"
    [op_lea_lo; op_x 46; op_pred 48 false; op_comma; op_dgpr 0; op_cc 47; op_comma; op_neg 45; op_sgpr 8; op_comma; op_sgpr 20];
  (* table.h:214 *)
  Insn 0x5BD0000000000000 0 "LEA"
    [op_lea_lo; op_x 46; op_pred 48 false; op_comma; op_dgpr 0; op_cc 47; op_comma; op_neg 45; op_sgpr 8; op_comma; op_sgpr 20; op_comma; op_uinteger 5 39];
  (* table.h:215 *)
  Insn 0x4BD7000000000000 0 "LEA"
    [op_lea_lo; op_x 46; op_dgpr 0; op_cc 47; op_comma; op_neg 45; op_sgpr 8; op_comma; op_cbuf];
  (* table.h:216 *)
  Insn 0x4BD7000000000000 0 "LEA"
    [op_lea_lo; op_x 46; op_dgpr 0; op_cc 47; op_comma; op_neg 45; op_sgpr 8; op_comma; op_cbuf; op_comma; op_uinteger 5 39];
  (* table.h:217 *)
  Insn 0x4BD0000000000000 0 "LEA"
    [op_lea_lo; op_x 46; op_pred 48 false; op_comma; op_dgpr 0; op_cc 47; op_comma; op_neg 45; op_sgpr 8; op_comma; op_cbuf];
  (* table.h:218 *)
  Insn 0x4BD0000000000000 0 "LEA"
    [op_lea_lo; op_x 46; op_pred 48 false; op_comma; op_dgpr 0; op_cc 47; op_comma; op_neg 45; op_sgpr 8; op_comma; op_cbuf; op_comma; op_uinteger 5 39];
  (* table.h:219 *)
  Insn 0x36D7000000000000 0 "LEA"
    [op_lea_lo; op_x 46; op_dgpr 0; op_cc 47; op_comma; op_neg 45; op_sgpr 8; op_comma; op_imm];
  (* table.h:220 *)
  Insn 0x36D7000000000000 0 "LEA"
    [op_lea_lo; op_x 46; op_dgpr 0; op_cc 47; op_comma; op_neg 45; op_sgpr 8; op_comma; op_imm; op_comma; op_uinteger 5 39];
  (* table.h:221 *)
  Insn 0x36D0000000000000 0 "LEA"
    [op_lea_lo; op_x 46; op_pred 48 false; op_comma; op_dgpr 0; op_cc 47; op_comma; op_neg 45; op_sgpr 8; op_comma; op_imm];
  (* table.h:222 *)
  Insn 0x36D0000000000000 0 "LEA"
    [op_lea_lo; op_x 46; op_pred 48 false; op_comma; op_dgpr 0; op_cc 47; op_comma; op_neg 45; op_sgpr 8; op_comma; op_imm; op_comma; op_uinteger 5 39];
  (* table.h:223 *)
  Insn 0x5C40000000000000 0 "LOP"
    [op_lop_bit_op 41; op_x 43; op_lop_pred_op; op_pred 48 false; op_comma; op_dgpr 0; op_cc 47; op_comma; op_tilde 39; op_sgpr 8; op_comma; op_tilde 40; op_sgpr 20];
  (* table.h:224 *)
  Insn 0x4C40000000000000 0 "LOP"
    [op_lop_bit_op 41; op_x 43; op_lop_pred_op; op_pred 48 false; op_comma; op_dgpr 0; op_cc 47; op_comma; op_tilde 39; op_sgpr 8; op_comma; op_tilde 40; op_cbuf];
  (* table.h:225 *)
  Insn 0x3840000000000000 0 "LOP"
    [op_lop_bit_op 41; op_x 43; op_lop_pred_op; op_pred 48 false; op_comma; op_dgpr 0; op_cc 47; op_comma; op_tilde 39; op_sgpr 8; op_comma; op_tilde 40; op_imm];
  (* table.h:226 *)
  Insn 0x0400000000000000 0 "LOP32I"
    [op_lop_bit_op 53; op_x 57; op_dgpr 0; op_cc 52; op_comma; op_tilde 55; op_sgpr 8; op_comma; op_uimm32; op_inv 56];
  (* table.h:227 *)
  Insn 0x5BE0000000000000 0 "LOP3"
    [op_lop3_lut; op_x 38; op_lop3_operation; op_pred 48 false; op_comma; op_dgpr 0; op_cc 47; op_comma; op_sgpr 8; op_comma; op_sgpr 20; op_comma; op_sgpr 39; op_comma; op_uinteger 8 28];
  (* table.h:228 *)
  Insn 0x5BE7000000000000 0 "LOP3"
    [op_lop3_lut; op_x 38; op_lop3_operation; op_dgpr 0; op_cc 47; op_comma; op_sgpr 8; op_comma; op_sgpr 20; op_comma; op_sgpr 39; op_comma; op_uinteger 8 28];
  (* table.h:229 *)
  Insn 0x3C00000000000000 0 "LOP3"
    [op_lop3_lut; op_dgpr 0; op_cc 47; op_comma; op_sgpr 8; op_comma; op_imm; op_comma; op_sgpr 39; op_comma; op_uinteger 8 48];
  (* table.h:230 *)
  Insn 0x0200000000000000 0 "LOP3"
    [op_lop3_lut; op_dgpr 0; op_cc 47; op_comma; op_sgpr 8; op_comma; op_cbuf; op_comma; op_sgpr 39; op_comma; op_uinteger 8 48];
  (* table.h:231 *)
  Insn 0x5BA0000000000000 0 "FCMP"
    [op_float_compare 48; op_ftz 47; op_dgpr 0; op_comma; op_sgpr 8; op_comma; op_sgpr 20; op_comma; op_sgpr 39];
  (* table.h:232 *)
  Insn 0x53A0000000000000 0 "FCMP"
    [op_float_compare 48; op_ftz 47; op_dgpr 0; op_comma; op_sgpr 8; op_comma; op_sgpr 39; op_comma; op_cbuf];
  (* table.h:233 *)
  Insn 0x4BA0000000000000 0 "FCMP"
    [op_float_compare 48; op_ftz 47; op_dgpr 0; op_comma; op_sgpr 8; op_comma; op_cbuf; op_comma; op_sgpr 39];
  (* table.h:234 *)
  Insn 0x36A0000000000000 0 "FCMP"
    [op_float_compare 48; op_ftz 47; op_dgpr 0; op_comma; op_sgpr 8; op_comma; op_fimm; op_comma; op_sgpr 39];
  (* table.h:235 *)
  Insn 0x5CA0000000000000 0 "SEL"
    [op_dgpr 0; op_comma; op_sgpr 8; op_comma; op_sgpr 20; op_comma; op_pred 39 true];
  (* table.h:236 *)
  Insn 0x4CA0000000000000 0 "SEL"
    [op_dgpr 0; op_comma; op_sgpr 8; op_comma; op_cbuf; op_comma; op_pred 39 true];
  (* table.h:237 *)
  Insn 0x38A0000000000000 0 "SEL"
    [op_dgpr 0; op_comma; op_sgpr 8; op_comma; op_imm; op_comma; op_pred 39 true];
  (* table.h:238 *)
  Insn 0xEF10000000000000 0 "SHFL"
    [op_shfl_mode; op_pred 48 false; op_comma; op_dgpr 0; op_comma; op_sgpr 8; op_comma; op_sgpr 20; op_comma; op_sgpr 39];
  (* table.h:239 *)
  Insn 0xEF10000010000000 0 "SHFL"
    [op_shfl_mode; op_pred 48 false; op_comma; op_dgpr 0; op_comma; op_sgpr 8; op_comma; op_uinteger 5 20; op_comma; op_sgpr 39];
  (* table.h:240 *)
  Insn 0xEF10000020000000 0 "SHFL"
    [op_shfl_mode; op_pred 48 false; op_comma; op_dgpr 0; op_comma; op_sgpr 8; op_comma; op_sgpr 20; op_comma; op_uinteger 13 34];
  (* table.h:241 *)
  Insn 0xEF10000030000000 0 "SHFL"
    [op_shfl_mode; op_pred 48 false; op_comma; op_dgpr 0; op_comma; op_sgpr 8; op_comma; op_uinteger 5 20; op_comma; op_uinteger 13 34];
  (* table.h:242 *)
  Insn 0x5C48000000000000 0 "SHL"
    [op_w 39; op_x 43; op_dgpr 0; op_cc 47; op_comma; op_sgpr 8; op_comma; op_sgpr 20];
  (* table.h:243 *)
  Insn 0x4C48000000000000 0 "SHL"
    [op_w 39; op_x 43; op_dgpr 0; op_cc 47; op_comma; op_sgpr 8; op_comma; op_cbuf];
  (* table.h:244 *)
  Insn 0x3848000000000000 0 "SHL"
    [op_w 39; op_x 43; op_dgpr 0; op_cc 47; op_comma; op_sgpr 8; op_comma; op_imm];
  (* table.h:245 *)
  Insn 0xF0F8000000000000 0 "SYNC"
    [op_flow_tests];
  (* table.h:246 *)
  Insn 0xE350000000000000 0 "CONT"
    [op_flow_tests];
  (* table.h:247 *)
  Insn 0xE340000000000000 0 "BRK"
    [op_flow_tests];
  (* table.h:248 *)
  Insn 0xE330000000000000 0 "KIL"
    [op_flow_tests];
  (* table.h:249 *)
  Insn 0xE320000000000000 0 "RET"
    [op_flow_tests];
  (* table.h:250 *)
  Insn 0xE310000000000000 0 "LONGJMP"
    [op_flow_tests];
  (* table.h:251 *)
  Insn 0xE300000000000000 0 "EXIT"
    [op_keeprefcount; op_flow_tests];
  (* table.h:252 *)
  Insn 0x5C90000000000000 0 "RRO"
    [op_rro_mode; op_dgpr 0; op_comma; op_neg 45; op_abs 49 (op_sgpr 20)];
  (* table.h:253 *)
  Insn 0x4C90000000000000 0 "RRO"
    [op_rro_mode; op_dgpr 0; op_comma; op_neg 45; op_abs 49 op_cbuf];
  (* table.h:254 *)
  Insn 0x3890000000000000 0 "RRO"
    [op_rro_mode; op_dgpr 0; op_comma; op_fimm; op_post_neg 45; op_post_abs 49];
  (* table.h:255 *)
  Insn 0xEB20000000000000 0 "SUST"
    [op_image_p; op_image_type; op_store_cache 24; op_image_rgba; op_image_clamp; op_memory_address false 20 24 0; op_comma; op_sgpr 0; op_comma; op_sgpr 39];
  (* table.h:256 *)
  Insn 0xEB28000000000000 0 "SUST"
    [op_image_p; op_image_type; op_store_cache 24; op_image_rgba; op_image_clamp; op_memory_address false 20 24 0; op_comma; op_sgpr 0; op_comma; op_uinteger 13 36];
  (* table.h:257 *)
  Insn 0xEB20000000000000 0 "SUST"
    [op_image_d; op_image_ba 52; op_image_type; op_store_cache 24; op_image_size; op_image_clamp; op_memory_address false 20 24 0; op_comma; op_sgpr 0; op_comma; op_sgpr 39];
  (* table.h:258 *)
  Insn 0xEB28000000000000 0 "SUST"
    [op_image_d; op_image_ba 52; op_image_type; op_store_cache 24; op_image_size; op_image_clamp; op_memory_address false 20 24 0; op_comma; op_sgpr 0; op_comma; op_uinteger 13 36];
  (* table.h:259 *)
  Insn 0xEB00000000000000 0 "SULD"
    [op_image_p; op_image_type; op_load_cache 24; op_image_rgba; op_image_clamp; op_dgpr 0; op_comma; op_memory_address false 20 24 0; op_comma; op_sgpr 39];
  (* table.h:260 *)
  Insn 0xEB08000000000000 0 "SULD"
    [op_image_p; op_image_type; op_load_cache 24; op_image_rgba; op_image_clamp; op_dgpr 0; op_comma; op_memory_address false 20 24 0; op_comma; op_uinteger 13 36];
  (* table.h:261 *)
  Insn 0xEB00000000000000 0 "SULD"
    [op_image_d; op_image_ba 23; op_image_type; op_load_cache 24; op_image_size; op_image_clamp; op_dgpr 0; op_comma; op_memory_address false 20 24 0; op_comma; op_sgpr 39];
  (* table.h:262 *)
  Insn 0xEB08000000000000 0 "SULD"
    [op_image_d; op_image_ba 23; op_image_type; op_load_cache 24; op_image_size; op_image_clamp; op_dgpr 0; op_comma; op_memory_address false 20 24 0; op_comma; op_uinteger 13 36];
  (* table.h:263 *)
  Insn 0x50D8000000000000 0 "VOTE"
    [op_vote_operation; op_dgpr 0; op_comma; op_pred 45 false; op_comma; op_pred 39 true];
  (* table.h:264 *)
  Insn 0x5F04000000000000 0 "VMAD"
    [op_video_src_format 37 48; op_video_src_format 29 49; op_po 53 54; op_vmad_scale; op_sat 55; op_dgpr 0; op_cc 47; op_comma; op_neg 54; op_sgpr 8; op_video_selector 36 37; op_comma; op_sgpr 20; op_video_selector 28 29; op_comma; op_neg 53; op_sgpr 39];
  (* table.h:265 *)
  Insn 0x5F00000000000000 0 "VMAD"
    [op_video_src_format 37 48; op_video_imm_format 29 49; op_po 53 54; op_vmad_scale; op_sat 55; op_dgpr 0; op_cc 47; op_comma; op_neg 54; op_sgpr 8; op_video_selector 36 37; op_comma; op_uinteger 16 20; op_comma; op_neg 53; op_sgpr 39];
  (* table.h:266 *)
  Insn 0x3A04000000000000 0 "VMNMX"
    [op_video_dest_sign; op_video_src_format 37 48; op_video_src_format 29 49; op_video_mx 56; op_sat 55; op_video_vmnmx_op 51; op_dgpr 0; op_cc 47; op_comma; op_sgpr 8; op_video_selector 36 37; op_comma; op_sgpr 20; op_video_selector 28 29; op_comma; op_sgpr 39];
  (* table.h:267 *)
  Insn 0x3A00000000000000 0 "VMNMX"
    [op_video_dest_sign; op_video_src_format 37 48; op_video_imm_format 29 49; op_video_mx 56; op_sat 55; op_video_vmnmx_op 51; op_dgpr 0; op_cc 47; op_comma; op_sgpr 8; op_video_selector 36 37; op_comma; op_uinteger 16 20; op_comma; op_sgpr 39];
  (* table.h:268 *)
  Insn 0x50F4000000000000 0 "VSETP"
    [op_vsetp_integer_compare 43; op_video_src_format 37 48; op_video_src_format 29 49; op_bop 45; op_pred 3 false; op_comma; op_pred 0 false; op_comma; op_sgpr 8; op_video_selector 36 37; op_comma; op_sgpr 20; op_video_selector 28 29; op_comma; op_pred 39 true];
  (* table.h:269 *)
  Insn 0x50F0000000000000 0 "VSETP"
    [op_vsetp_integer_compare 43; op_video_src_format 37 48; op_video_imm_format 29 49; op_bop 45; op_pred 3 false; op_comma; op_pred 0 false; op_comma; op_sgpr 8; op_video_selector 36 37; op_comma; op_uinteger 16 20; op_comma; op_pred 39 true];
  (* table.h:270 *)
  Insn 0xEED8000000000000 2 "STG"
    [op_stg_e; op_store_cache 46; op_memory_size; op_memory_address true 20 24 0; op_comma; op_sgpr 0];
  (* table.h:271 *)
  Insn 0xEF58000000000000 2 "STS"
    [op_memory_size; op_memory_address true 20 24 0; op_comma; op_sgpr 0];
  (* table.h:272 *)
  Insn 0xEF50000000000000 2 "STL"
    [op_stl_cache; op_memory_size; op_memory_address true 20 24 0; op_comma; op_sgpr 0];
  (* table.h:273 *)
  Insn 0xC000000000000000 0 "TEX"
    [op_ndv 35; op_nodep 49; op_aoffi 54; op_blod 55; op_dc 50; op_lc 58; op_pred 51 false; op_comma; op_dgpr 0; op_comma; op_sgpr 8; op_comma; op_sgpr 20; op_comma; op_uinteger 13 36; op_comma; op_tex_type 28; op_comma; op_uinteger 4 31];
  (* table.h:274 *)
  Insn 0xDE80000000000000 0 "TEX"
    [op_b_text; op_ndv 35; op_nodep 49; op_aoffi 36; op_blod 37; op_dc 50; op_lc 40; op_pred 51 false; op_comma; op_dgpr 0; op_comma; op_sgpr 8; op_comma; op_sgpr 20; op_comma; op_zero; op_comma; op_tex_type 28; op_comma; op_uinteger 4 31];
  (* table.h:275 *)
  Insn 0xD000000000000000 0 "TEXS"
    [op_sample_size 59; op_texs_mode 53; op_nodep 49; op_dgpr 28; op_comma; op_dgpr 0; op_comma; op_sgpr 8; op_comma; op_sgpr 20; op_comma; op_uinteger 13 36; op_comma; op_texs_type 53; op_comma; op_texs_swizzle];
  (* table.h:276 *)
  Insn 0xC800000000000000 0 "TLD4"
    [op_tld4_component 56; op_tld4_offset 54; op_dc 50; op_ndv 35; op_nodep 49; op_pred 51 false; op_comma; op_dgpr 0; op_comma; op_sgpr 8; op_comma; op_sgpr 20; op_comma; op_uinteger 13 36; op_comma; op_tex_type 28; op_comma; op_uinteger 4 31];
  (* table.h:277 *)
  Insn 0xDEC0000000000000 0 "TLD4"
    [op_tld4_component 38; op_b_text; op_tld4_offset 36; op_dc 50; op_ndv 35; op_nodep 49; op_pred 51 false; op_comma; op_dgpr 0; op_comma; op_sgpr 8; op_comma; op_sgpr 20; op_comma; op_zero; op_comma; op_tex_type 28; op_comma; op_uinteger 4 31];
  (* table.h:278 *)
  Insn 0xDF00000000000000 0 "TLD4S"
    [op_sample_size_inv 55; op_tld4_component 52; op_aoffi 51; op_dc 50; op_nodep 49; op_dgpr 28; op_comma; op_dgpr 0; op_comma; op_sgpr 8; op_comma; op_sgpr 20; op_comma; op_uinteger 13 36];
  (* table.h:279 *)
  Insn 0xDC00000000000000 0 "TLD"
    [op_tld_lod 55; op_aoffi 35; op_ms 50; op_cl 54; op_nodep 49; op_pred 51 false; op_comma; op_dgpr 0; op_comma; op_sgpr 8; op_comma; op_sgpr 20; op_comma; op_uinteger 13 36; op_comma; op_tex_type 28; op_comma; op_uinteger 4 31];
  (* table.h:280 *)
  Insn 0xDD00000000000000 0 "TLD"
    [op_b_text; op_tld_lod 55; op_aoffi 35; op_ms 50; op_cl 54; op_nodep 49; op_pred 51 false; op_comma; op_dgpr 0; op_comma; op_sgpr 8; op_comma; op_sgpr 20; op_comma; op_zero; op_comma; op_tex_type 28; op_comma; op_uinteger 4 31];
  (* table.h:281 *)
  Insn 0xD200000000000000 0 "TLDS"
    [op_sample_size 59; op_tld_lod 53; op_aoffi 54; op_ms 55; op_nodep 49; op_dgpr 28; op_comma; op_dgpr 0; op_comma; op_sgpr 8; op_comma; op_sgpr 20; op_comma; op_uinteger 13 36; op_comma; op_tlds_type 53; op_comma; op_texs_swizzle];
  (* table.h:282 *)
  Insn 0xDF58000000000000 0 "TMML"
    [op_lod_text; op_ndv 35; op_nodep 49; op_dgpr 0; op_comma; op_sgpr 8; op_comma; op_uinteger 13 36; op_comma; op_tex_type 28; op_comma; op_uinteger 4 31];
  (* table.h:283 *)
  Insn 0xDF60000000000000 0 "TMML"
    [op_b_text; op_lod_text; op_ndv 35; op_nodep 49; op_dgpr 0; op_comma; op_sgpr 8; op_comma; op_sgpr 20; op_comma; op_zero; op_comma; op_tex_type 28; op_comma; op_uinteger 4 31];
  (* table.h:284 *)
  Insn 0xDE00000000000000 0 "TXD"
    [op_lc 50; op_aoffi 35; op_nodep 49; op_pred 51 false; op_comma; op_dgpr 0; op_comma; op_sgpr 8; op_comma; op_sgpr 20; op_comma; op_uinteger 13 36; op_comma; op_tex_type 28; op_comma; op_uinteger 4 31];
  (* table.h:285 *)
  Insn 0xDE40000000000000 0 "TXD"
    [op_b_text; op_lc 50; op_aoffi 35; op_nodep 49; op_pred 51 false; op_comma; op_dgpr 0; op_comma; op_sgpr 8; op_comma; op_sgpr 20; op_comma; op_zero; op_comma; op_tex_type 28; op_comma; op_uinteger 4 31];
  (* table.h:286 *)
  Insn 0xDF48000000000000 0 "TXQ"
    [op_nodep 49; op_dgpr 0; op_comma; op_sgpr 8; op_comma; op_txq_mode; op_comma; op_uinteger 13 36; op_comma; op_uinteger 4 31];
  (* table.h:287 *)
  Insn 0xDF50000000000000 0 "TXQ"
    [op_b_text; op_nodep 49; op_dgpr 0; op_comma; op_sgpr 8; op_comma; op_txq_mode; op_comma; op_zero; op_comma; op_uinteger 4 31];
  (* table.h:288 *)
  Insn 0xEED0000000000000 6 "LDG"
    [op_stg_e; op_ldg_cache; op_ldg_size; op_dgpr 0; op_comma; op_memory_address true 20 24 0];
  (* table.h:289 *)
  Insn 0xEEC8000000000000 6 "LDG"
    [op_stg_e; op_ldg_cache; op_ldg_size; op_inverted_pred 41; op_comma; op_dgpr 0; op_comma; op_memory_address true 20 20 0];
  (* table.h:290 *)
  Insn 0xEF48000000000000 6 "LDS"
    [op_lds_u; op_memory_size; op_dgpr 0; op_comma; op_memory_address true 20 24 0];
  (* table.h:291 *)
  Insn 0xEF40000000000000 6 "LDL"
    [op_ldl_cache; op_memory_size; op_dgpr 0; op_comma; op_memory_address true 20 24 0];
  (* table.h:292 *)
  Insn 0xEBF8000000000000 6 "RED"
    [op_red_e; op_red_operation; op_atomic_size 20; op_memory_address true 28 20 0; op_comma; op_sgpr 0];
  (* table.h:293 *)
  Insn 0xE240000000000000 0 "BRA"
    [op_u 7; op_lmt 6; op_flow_tests; op_comma; op_label];
  (* table.h:294 *)
  Insn 0xE24000000000000F 0 "BRA"
    [op_u 7; op_lmt 6; op_label];
  (* table.h:295 *)
  Insn 0xE2A0000000000000 1 "PBK"
    [op_label];
  (* table.h:297 *)
  Insn 0xE290000000000000 1 "SSY"
    [op_label];
  (* table.h:299 *)
  Insn 0xE260000000000000 1 "CAL"
    [op_noinc; op_label];
  (* table.h:301 *)
  Insn 0xE2B0000000000000 1 "PCNT"
    [op_label]
].
