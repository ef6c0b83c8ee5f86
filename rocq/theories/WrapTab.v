(** WrapTab.v — generated from the text of src/*.c and src/autocode/*.c: every use of a
    wrapper macro, and every definition of a modern entry point ([CACHE_SIZE_T int...] and
    [void int..._optimizer] functions) with the shape of its parameter list. *)
From Coq Require Import String List.
From Verif Require Import WrapModel.
Import ListNotations.
Local Open Scope string_scope.

(** (macro, NAME), one per use; the comment is file:line *)
Definition instances : list (macro * string) := [
  (MC, "int2e_gauge_r1_ssp1ssp2") (* autocode/breit1.c:213 *);
  (MF, "int2e_gauge_r1_ssp1ssp2") (* autocode/breit1.c:214 *);
  (MC, "int2e_gauge_r1_ssp1sps2") (* autocode/breit1.c:411 *);
  (MF, "int2e_gauge_r1_ssp1sps2") (* autocode/breit1.c:412 *);
  (MC, "int2e_gauge_r1_sps1ssp2") (* autocode/breit1.c:609 *);
  (MF, "int2e_gauge_r1_sps1ssp2") (* autocode/breit1.c:610 *);
  (MC, "int2e_gauge_r1_sps1sps2") (* autocode/breit1.c:807 *);
  (MF, "int2e_gauge_r1_sps1sps2") (* autocode/breit1.c:808 *);
  (MC, "int2e_gauge_r2_ssp1ssp2") (* autocode/breit1.c:1009 *);
  (MF, "int2e_gauge_r2_ssp1ssp2") (* autocode/breit1.c:1010 *);
  (MC, "int2e_gauge_r2_ssp1sps2") (* autocode/breit1.c:1211 *);
  (MF, "int2e_gauge_r2_ssp1sps2") (* autocode/breit1.c:1212 *);
  (MC, "int2e_gauge_r2_sps1ssp2") (* autocode/breit1.c:1413 *);
  (MF, "int2e_gauge_r2_sps1ssp2") (* autocode/breit1.c:1414 *);
  (MC, "int2e_gauge_r2_sps1sps2") (* autocode/breit1.c:1615 *);
  (MF, "int2e_gauge_r2_sps1sps2") (* autocode/breit1.c:1616 *);
  (MC1E, "int1e_ipipipnuc") (* autocode/deriv3.c:157 *);
  (MF1E, "int1e_ipipipnuc") (* autocode/deriv3.c:158 *);
  (MC1E, "int1e_ipipiprinv") (* autocode/deriv3.c:299 *);
  (MF1E, "int1e_ipipiprinv") (* autocode/deriv3.c:300 *);
  (MC1E, "int1e_ipipnucip") (* autocode/deriv3.c:441 *);
  (MF1E, "int1e_ipipnucip") (* autocode/deriv3.c:442 *);
  (MC1E, "int1e_ipiprinvip") (* autocode/deriv3.c:583 *);
  (MF1E, "int1e_ipiprinvip") (* autocode/deriv3.c:584 *);
  (MC1E, "int1e_ipiprinvipip") (* autocode/deriv4.c:335 *);
  (MF1E, "int1e_ipiprinvipip") (* autocode/deriv4.c:336 *);
  (MC1E, "int1e_ipipiprinvip") (* autocode/deriv4.c:655 *);
  (MF1E, "int1e_ipipiprinvip") (* autocode/deriv4.c:656 *);
  (MC1E, "int1e_ipipipiprinv") (* autocode/deriv4.c:975 *);
  (MF1E, "int1e_ipipipiprinv") (* autocode/deriv4.c:976 *);
  (MC1E, "int1e_spspsp") (* autocode/dkb.c:107 *);
  (MF1E, "int1e_spspsp") (* autocode/dkb.c:108 *);
  (MC1E, "int1e_spnuc") (* autocode/dkb.c:167 *);
  (MF1E, "int1e_spnuc") (* autocode/dkb.c:168 *);
  (MC, "int2e_spv1") (* autocode/dkb.c:251 *);
  (MF, "int2e_spv1") (* autocode/dkb.c:252 *);
  (MC, "int2e_vsp1") (* autocode/dkb.c:335 *);
  (MF, "int2e_vsp1") (* autocode/dkb.c:336 *);
  (MC, "int2e_spsp2") (* autocode/dkb.c:407 *);
  (MF, "int2e_spsp2") (* autocode/dkb.c:408 *);
  (MC, "int2e_spv1spv2") (* autocode/dkb.c:503 *);
  (MF, "int2e_spv1spv2") (* autocode/dkb.c:504 *);
  (MC, "int2e_vsp1spv2") (* autocode/dkb.c:599 *);
  (MF, "int2e_vsp1spv2") (* autocode/dkb.c:600 *);
  (MC, "int2e_spv1vsp2") (* autocode/dkb.c:695 *);
  (MF, "int2e_spv1vsp2") (* autocode/dkb.c:696 *);
  (MC, "int2e_vsp1vsp2") (* autocode/dkb.c:791 *);
  (MF, "int2e_vsp1vsp2") (* autocode/dkb.c:792 *);
  (MC, "int2e_spv1spsp2") (* autocode/dkb.c:913 *);
  (MF, "int2e_spv1spsp2") (* autocode/dkb.c:914 *);
  (MC, "int2e_vsp1spsp2") (* autocode/dkb.c:1035 *);
  (MF, "int2e_vsp1spsp2") (* autocode/dkb.c:1036 *);
  (MC, "int2e_ssp1ssp2") (* autocode/gaunt1.c:113 *);
  (MF, "int2e_ssp1ssp2") (* autocode/gaunt1.c:114 *);
  (MC, "int2e_ssp1sps2") (* autocode/gaunt1.c:211 *);
  (MF, "int2e_ssp1sps2") (* autocode/gaunt1.c:212 *);
  (MC, "int2e_sps1ssp2") (* autocode/gaunt1.c:309 *);
  (MF, "int2e_sps1ssp2") (* autocode/gaunt1.c:310 *);
  (MC, "int2e_sps1sps2") (* autocode/gaunt1.c:407 *);
  (MF, "int2e_sps1sps2") (* autocode/gaunt1.c:408 *);
  (MC, "int2e_cg_ssa10ssp2") (* autocode/gaunt1.c:571 *);
  (MF, "int2e_cg_ssa10ssp2") (* autocode/gaunt1.c:572 *);
  (MC, "int2e_giao_ssa10ssp2") (* autocode/gaunt1.c:731 *);
  (MF, "int2e_giao_ssa10ssp2") (* autocode/gaunt1.c:732 *);
  (MC, "int2e_gssp1ssp2") (* autocode/gaunt1.c:964 *);
  (MF, "int2e_gssp1ssp2") (* autocode/gaunt1.c:965 *);
  (MC1E, "int1e_ipovlp") (* autocode/grad1.c:69 *);
  (MF1E, "int1e_ipovlp") (* autocode/grad1.c:70 *);
  (MC1E, "int1e_ovlpip") (* autocode/grad1.c:123 *);
  (MF1E, "int1e_ovlpip") (* autocode/grad1.c:124 *);
  (MC1E, "int1e_ipkin") (* autocode/grad1.c:216 *);
  (MF1E, "int1e_ipkin") (* autocode/grad1.c:217 *);
  (MC1E, "int1e_kinip") (* autocode/grad1.c:309 *);
  (MF1E, "int1e_kinip") (* autocode/grad1.c:310 *);
  (MC1E, "int1e_ipnuc") (* autocode/grad1.c:367 *);
  (MF1E, "int1e_ipnuc") (* autocode/grad1.c:368 *);
  (MC1E, "int1e_iprinv") (* autocode/grad1.c:425 *);
  (MF1E, "int1e_iprinv") (* autocode/grad1.c:426 *);
  (MC1E, "int1e_ipspnucsp") (* autocode/grad1.c:537 *);
  (MF1E, "int1e_ipspnucsp") (* autocode/grad1.c:538 *);
  (MC1E, "int1e_ipsprinvsp") (* autocode/grad1.c:649 *);
  (MF1E, "int1e_ipsprinvsp") (* autocode/grad1.c:650 *);
  (MC1E, "int1e_ippnucp") (* autocode/grad1.c:743 *);
  (MF1E, "int1e_ippnucp") (* autocode/grad1.c:744 *);
  (MC1E, "int1e_ipprinvp") (* autocode/grad1.c:837 *);
  (MF1E, "int1e_ipprinvp") (* autocode/grad1.c:838 *);
  (MC, "int2e_ip1") (* autocode/grad2.c:97 *);
  (MF, "int2e_ip1") (* autocode/grad2.c:98 *);
  (MC, "int2e_ip2") (* autocode/grad2.c:179 *);
  (MF, "int2e_ip2") (* autocode/grad2.c:180 *);
  (MC, "int2e_ipspsp1") (* autocode/grad2.c:293 *);
  (MF, "int2e_ipspsp1") (* autocode/grad2.c:294 *);
  (MC, "int2e_ip1spsp2") (* autocode/grad2.c:407 *);
  (MF, "int2e_ip1spsp2") (* autocode/grad2.c:408 *);
  (MC, "int2e_ipspsp1spsp2") (* autocode/grad2.c:857 *);
  (MF, "int2e_ipspsp1spsp2") (* autocode/grad2.c:858 *);
  (MC, "int2e_ipsrsr1") (* autocode/grad2.c:971 *);
  (MF, "int2e_ipsrsr1") (* autocode/grad2.c:972 *);
  (MC, "int2e_ip1srsr2") (* autocode/grad2.c:1085 *);
  (MF, "int2e_ip1srsr2") (* autocode/grad2.c:1086 *);
  (MC, "int2e_ipsrsr1srsr2") (* autocode/grad2.c:1535 *);
  (MF, "int2e_ipsrsr1srsr2") (* autocode/grad2.c:1536 *);
  (MC1E, "int1e_ipipovlp") (* autocode/hess.c:91 *);
  (MF1E, "int1e_ipipovlp") (* autocode/hess.c:92 *);
  (MC1E, "int1e_ipovlpip") (* autocode/hess.c:167 *);
  (MF1E, "int1e_ipovlpip") (* autocode/hess.c:168 *);
  (MC1E, "int1e_ipipkin") (* autocode/hess.c:342 *);
  (MF1E, "int1e_ipipkin") (* autocode/hess.c:343 *);
  (MC1E, "int1e_ipkinip") (* autocode/hess.c:517 *);
  (MF1E, "int1e_ipkinip") (* autocode/hess.c:518 *);
  (MC1E, "int1e_ipipnuc") (* autocode/hess.c:597 *);
  (MF1E, "int1e_ipipnuc") (* autocode/hess.c:598 *);
  (MC1E, "int1e_ipnucip") (* autocode/hess.c:677 *);
  (MF1E, "int1e_ipnucip") (* autocode/hess.c:678 *);
  (MC1E, "int1e_ipiprinv") (* autocode/hess.c:757 *);
  (MF1E, "int1e_ipiprinv") (* autocode/hess.c:758 *);
  (MC1E, "int1e_iprinvip") (* autocode/hess.c:837 *);
  (MF1E, "int1e_iprinvip") (* autocode/hess.c:838 *);
  (MC1E, "int1e_ipipr") (* autocode/hess.c:979 *);
  (MF1E, "int1e_ipipr") (* autocode/hess.c:980 *);
  (MC1E, "int1e_iprip") (* autocode/hess.c:1121 *);
  (MF1E, "int1e_iprip") (* autocode/hess.c:1122 *);
  (MC, "int2e_ipip1") (* autocode/hess.c:1203 *);
  (MF, "int2e_ipip1") (* autocode/hess.c:1204 *);
  (MC, "int2e_ipvip1") (* autocode/hess.c:1285 *);
  (MF, "int2e_ipvip1") (* autocode/hess.c:1286 *);
  (MC, "int2e_ip1ip2") (* autocode/hess.c:1367 *);
  (MF, "int2e_ip1ip2") (* autocode/hess.c:1368 *);
  (MC1E, "int1e_ipippnucp") (* autocode/hess.c:1543 *);
  (MF1E, "int1e_ipippnucp") (* autocode/hess.c:1544 *);
  (MC1E, "int1e_ippnucpip") (* autocode/hess.c:1719 *);
  (MF1E, "int1e_ippnucpip") (* autocode/hess.c:1720 *);
  (MC1E, "int1e_ipipprinvp") (* autocode/hess.c:1895 *);
  (MF1E, "int1e_ipipprinvp") (* autocode/hess.c:1896 *);
  (MC1E, "int1e_ipprinvpip") (* autocode/hess.c:2071 *);
  (MF1E, "int1e_ipprinvpip") (* autocode/hess.c:2072 *);
  (MC1E, "int1e_ipipspnucsp") (* autocode/hess.c:2301 *);
  (MF1E, "int1e_ipipspnucsp") (* autocode/hess.c:2302 *);
  (MC1E, "int1e_ipspnucspip") (* autocode/hess.c:2531 *);
  (MF1E, "int1e_ipspnucspip") (* autocode/hess.c:2532 *);
  (MC1E, "int1e_ipipsprinvsp") (* autocode/hess.c:2761 *);
  (MF1E, "int1e_ipipsprinvsp") (* autocode/hess.c:2762 *);
  (MC1E, "int1e_ipsprinvspip") (* autocode/hess.c:2991 *);
  (MF1E, "int1e_ipsprinvspip") (* autocode/hess.c:2992 *);
  (MC, "int2e_ipip1ipip2") (* autocode/hess.c:3313 *);
  (MF, "int2e_ipip1ipip2") (* autocode/hess.c:3314 *);
  (MC, "int2e_ipvip1ipvip2") (* autocode/hess.c:3635 *);
  (MF, "int2e_ipvip1ipvip2") (* autocode/hess.c:3636 *);
  (MC1E, "int1e_grids_ip") (* autocode/int1e_grids1.c:79 *);
  (MF1E, "int1e_grids_ip") (* autocode/int1e_grids1.c:80 *);
  (MC1E, "int1e_grids_ipvip") (* autocode/int1e_grids1.c:165 *);
  (MF1E, "int1e_grids_ipvip") (* autocode/int1e_grids1.c:166 *);
  (MC1E, "int1e_grids_spvsp") (* autocode/int1e_grids1.c:241 *);
  (MF1E, "int1e_grids_spvsp") (* autocode/int1e_grids1.c:242 *);
  (MC1E, "int1e_grids_ipip") (* autocode/int1e_grids1.c:327 *);
  (MF1E, "int1e_grids_ipip") (* autocode/int1e_grids1.c:328 *);
  (MC, "int3c1e_p2") (* autocode/int3c1e.c:76 *);
  (MF, "int3c1e_p2") (* autocode/int3c1e.c:77 *);
  (MC, "int3c1e_iprinv") (* autocode/int3c1e.c:131 *);
  (MF, "int3c1e_iprinv") (* autocode/int3c1e.c:132 *);
  (MC, "int3c1e_ip1") (* autocode/int3c1e.c:186 *);
  (MF, "int3c1e_ip1") (* autocode/int3c1e.c:187 *);
  (MC, "int3c2e_ip1") (* autocode/int3c2e.c:96 *);
  (MF, "int3c2e_ip1") (* autocode/int3c2e.c:97 *);
  (MC, "int3c2e_ip2") (* autocode/int3c2e.c:177 *);
  (MF, "int3c2e_ip2") (* autocode/int3c2e.c:178 *);
  (MC, "int3c2e_pvp1") (* autocode/int3c2e.c:242 *);
  (MF, "int3c2e_pvp1") (* autocode/int3c2e.c:243 *);
  (MC, "int3c2e_pvxp1") (* autocode/int3c2e.c:311 *);
  (MF, "int3c2e_pvxp1") (* autocode/int3c2e.c:312 *);
  (MC, "int2c2e_ip1") (* autocode/int3c2e.c:389 *);
  (MF, "int2c2e_ip1") (* autocode/int3c2e.c:390 *);
  (MC, "int2c2e_ip2") (* autocode/int3c2e.c:467 *);
  (MF, "int2c2e_ip2") (* autocode/int3c2e.c:468 *);
  (MC, "int3c2e_ig1") (* autocode/int3c2e.c:594 *);
  (MF, "int3c2e_ig1") (* autocode/int3c2e.c:595 *);
  (MC, "int3c2e_spsp1") (* autocode/int3c2e.c:665 *);
  (MF, "int3c2e_spsp1") (* autocode/int3c2e.c:666 *);
  (MC, "int3c2e_ipspsp1") (* autocode/int3c2e.c:778 *);
  (MF, "int3c2e_ipspsp1") (* autocode/int3c2e.c:779 *);
  (MC, "int3c2e_spsp1ip2") (* autocode/int3c2e.c:891 *);
  (MF, "int3c2e_spsp1ip2") (* autocode/int3c2e.c:892 *);
  (MC, "int3c2e_ipip1") (* autocode/int3c2e.c:972 *);
  (MF, "int3c2e_ipip1") (* autocode/int3c2e.c:973 *);
  (MC, "int3c2e_ipip2") (* autocode/int3c2e.c:1053 *);
  (MF, "int3c2e_ipip2") (* autocode/int3c2e.c:1054 *);
  (MC, "int3c2e_ipvip1") (* autocode/int3c2e.c:1134 *);
  (MF, "int3c2e_ipvip1") (* autocode/int3c2e.c:1135 *);
  (MC, "int3c2e_ip1ip2") (* autocode/int3c2e.c:1215 *);
  (MF, "int3c2e_ip1ip2") (* autocode/int3c2e.c:1216 *);
  (MC, "int2c2e_ipip1") (* autocode/int3c2e.c:1293 *);
  (MF, "int2c2e_ipip1") (* autocode/int3c2e.c:1294 *);
  (MC, "int2c2e_ip1ip2") (* autocode/int3c2e.c:1371 *);
  (MF, "int2c2e_ip1ip2") (* autocode/int3c2e.c:1372 *);
  (MC1E, "int1e_kin") (* autocode/intor1.c:78 *);
  (MF1E, "int1e_kin") (* autocode/intor1.c:79 *);
  (MC1E, "int1e_ia01p") (* autocode/intor1.c:148 *);
  (MF1E, "int1e_ia01p") (* autocode/intor1.c:149 *);
  (MC1E, "int1e_giao_irjxp") (* autocode/intor1.c:212 *);
  (MF1E, "int1e_giao_irjxp") (* autocode/intor1.c:213 *);
  (MC1E, "int1e_cg_irxp") (* autocode/intor1.c:280 *);
  (MF1E, "int1e_cg_irxp") (* autocode/intor1.c:281 *);
  (MC1E, "int1e_giao_a11part") (* autocode/intor1.c:365 *);
  (MF1E, "int1e_giao_a11part") (* autocode/intor1.c:366 *);
  (MC1E, "int1e_cg_a11part") (* autocode/intor1.c:454 *);
  (MF1E, "int1e_cg_a11part") (* autocode/intor1.c:455 *);
  (MC1E, "int1e_a01gp") (* autocode/intor1.c:608 *);
  (MF1E, "int1e_a01gp") (* autocode/intor1.c:609 *);
  (MC1E, "int1e_igkin") (* autocode/intor1.c:744 *);
  (MF1E, "int1e_igkin") (* autocode/intor1.c:745 *);
  (MC1E, "int1e_igovlp") (* autocode/intor1.c:844 *);
  (MF1E, "int1e_igovlp") (* autocode/intor1.c:845 *);
  (MC1E, "int1e_ignuc") (* autocode/intor1.c:948 *);
  (MF1E, "int1e_ignuc") (* autocode/intor1.c:949 *);
  (MC1E, "int1e_pnucp") (* autocode/intor1.c:1012 *);
  (MF1E, "int1e_pnucp") (* autocode/intor1.c:1013 *);
  (MC1E, "int1e_z") (* autocode/intor1.c:1066 *);
  (MF1E, "int1e_z") (* autocode/intor1.c:1067 *);
  (MC1E, "int1e_zz") (* autocode/intor1.c:1130 *);
  (MF1E, "int1e_zz") (* autocode/intor1.c:1131 *);
  (MC1E, "int1e_r") (* autocode/intor1.c:1188 *);
  (MF1E, "int1e_r") (* autocode/intor1.c:1189 *);
  (MC1E, "int1e_r2") (* autocode/intor1.c:1252 *);
  (MF1E, "int1e_r2") (* autocode/intor1.c:1253 *);
  (MC1E, "int1e_r4") (* autocode/intor1.c:1412 *);
  (MF1E, "int1e_r4") (* autocode/intor1.c:1413 *);
  (MC1E, "int1e_rr") (* autocode/intor1.c:1492 *);
  (MF1E, "int1e_rr") (* autocode/intor1.c:1493 *);
  (MC1E, "int1e_rrr") (* autocode/intor1.c:1634 *);
  (MF1E, "int1e_rrr") (* autocode/intor1.c:1635 *);
  (MC1E, "int1e_rrrr") (* autocode/intor1.c:1954 *);
  (MF1E, "int1e_rrrr") (* autocode/intor1.c:1955 *);
  (MC1E, "int1e_z_origj") (* autocode/intor1.c:2004 *);
  (MF1E, "int1e_z_origj") (* autocode/intor1.c:2005 *);
  (MC1E, "int1e_zz_origj") (* autocode/intor1.c:2064 *);
  (MF1E, "int1e_zz_origj") (* autocode/intor1.c:2065 *);
  (MC1E, "int1e_r_origj") (* autocode/intor1.c:2118 *);
  (MF1E, "int1e_r_origj") (* autocode/intor1.c:2119 *);
  (MC1E, "int1e_rr_origj") (* autocode/intor1.c:2194 *);
  (MF1E, "int1e_rr_origj") (* autocode/intor1.c:2195 *);
  (MC1E, "int1e_r2_origj") (* autocode/intor1.c:2254 *);
  (MF1E, "int1e_r2_origj") (* autocode/intor1.c:2255 *);
  (MC1E, "int1e_r4_origj") (* autocode/intor1.c:2410 *);
  (MF1E, "int1e_r4_origj") (* autocode/intor1.c:2411 *);
  (MC1E, "int1e_p4") (* autocode/intor1.c:2566 *);
  (MF1E, "int1e_p4") (* autocode/intor1.c:2567 *);
  (MC1E, "int1e_prinvp") (* autocode/intor1.c:2630 *);
  (MF1E, "int1e_prinvp") (* autocode/intor1.c:2631 *);
  (MC1E, "int1e_prinvxp") (* autocode/intor1.c:2698 *);
  (MF1E, "int1e_prinvxp") (* autocode/intor1.c:2699 *);
  (MC1E, "int1e_pnucxp") (* autocode/intor1.c:2766 *);
  (MF1E, "int1e_pnucxp") (* autocode/intor1.c:2767 *);
  (MC1E, "int1e_irp") (* autocode/intor1.c:2846 *);
  (MF1E, "int1e_irp") (* autocode/intor1.c:2847 *);
  (MC1E, "int1e_irrp") (* autocode/intor1.c:2988 *);
  (MF1E, "int1e_irrp") (* autocode/intor1.c:2989 *);
  (MC1E, "int1e_irpr") (* autocode/intor1.c:3130 *);
  (MF1E, "int1e_irpr") (* autocode/intor1.c:3131 *);
  (MC1E, "int1e_ggovlp") (* autocode/intor1.c:3222 *);
  (MF1E, "int1e_ggovlp") (* autocode/intor1.c:3223 *);
  (MC1E, "int1e_ggkin") (* autocode/intor1.c:3410 *);
  (MF1E, "int1e_ggkin") (* autocode/intor1.c:3411 *);
  (MC1E, "int1e_ggnuc") (* autocode/intor1.c:3506 *);
  (MF1E, "int1e_ggnuc") (* autocode/intor1.c:3507 *);
  (MC1E, "int1e_grjxp") (* autocode/intor1.c:3618 *);
  (MF1E, "int1e_grjxp") (* autocode/intor1.c:3619 *);
  (MC1E, "int1e_rinv") (* autocode/intor1.c:3668 *);
  (MF1E, "int1e_rinv") (* autocode/intor1.c:3669 *);
  (MC1E, "int1e_drinv") (* autocode/intor1.c:3729 *);
  (MF1E, "int1e_drinv") (* autocode/intor1.c:3730 *);
  (MC, "int2e_ig1") (* autocode/intor2.c:144 *);
  (MF, "int2e_ig1") (* autocode/intor2.c:145 *);
  (MC, "int2e_gg1") (* autocode/intor2.c:279 *);
  (MF, "int2e_gg1") (* autocode/intor2.c:280 *);
  (MC, "int2e_g1g2") (* autocode/intor2.c:448 *);
  (MF, "int2e_g1g2") (* autocode/intor2.c:449 *);
  (MC, "int2e_p1vxp1") (* autocode/intor2.c:518 *);
  (MF, "int2e_p1vxp1") (* autocode/intor2.c:519 *);
  (MC, "int2e_ip1v_rc1") (* autocode/intor2.c:606 *);
  (MF, "int2e_ip1v_rc1") (* autocode/intor2.c:607 *);
  (MC, "int2e_ip1v_r1") (* autocode/intor2.c:690 *);
  (MF, "int2e_ip1v_r1") (* autocode/intor2.c:691 *);
  (MC, "int2e_ipvg1_xp1") (* autocode/intor2.c:847 *);
  (MF, "int2e_ipvg1_xp1") (* autocode/intor2.c:848 *);
  (MC, "int2e_ipvg2_xp1") (* autocode/intor2.c:1006 *);
  (MF, "int2e_ipvg2_xp1") (* autocode/intor2.c:1007 *);
  (MC1E, "int1e_inuc_rcxp") (* autocode/intor2.c:1078 *);
  (MF1E, "int1e_inuc_rcxp") (* autocode/intor2.c:1079 *);
  (MC1E, "int1e_inuc_rxp") (* autocode/intor2.c:1146 *);
  (MF1E, "int1e_inuc_rxp") (* autocode/intor2.c:1147 *);
  (MC1E, "int1e_sigma") (* autocode/intor3.c:83 *);
  (MF1E, "int1e_sigma") (* autocode/intor3.c:84 *);
  (MC1E, "int1e_spsigmasp") (* autocode/intor3.c:165 *);
  (MF1E, "int1e_spsigmasp") (* autocode/intor3.c:166 *);
  (MC1E, "int1e_srsr") (* autocode/intor3.c:231 *);
  (MF1E, "int1e_srsr") (* autocode/intor3.c:232 *);
  (MC1E, "int1e_sr") (* autocode/intor3.c:287 *);
  (MF1E, "int1e_sr") (* autocode/intor3.c:288 *);
  (MC1E, "int1e_srsp") (* autocode/intor3.c:353 *);
  (MF1E, "int1e_srsp") (* autocode/intor3.c:354 *);
  (MC1E, "int1e_spsp") (* autocode/intor3.c:413 *);
  (MF1E, "int1e_spsp") (* autocode/intor3.c:414 *);
  (MC1E, "int1e_sp") (* autocode/intor3.c:469 *);
  (MF1E, "int1e_sp") (* autocode/intor3.c:470 *);
  (MC1E, "int1e_spnucsp") (* autocode/intor3.c:539 *);
  (MF1E, "int1e_spnucsp") (* autocode/intor3.c:540 *);
  (MC1E, "int1e_sprinvsp") (* autocode/intor3.c:609 *);
  (MF1E, "int1e_sprinvsp") (* autocode/intor3.c:610 *);
  (MC1E, "int1e_srnucsr") (* autocode/intor3.c:679 *);
  (MF1E, "int1e_srnucsr") (* autocode/intor3.c:680 *);
  (MC1E, "int1e_sprsp") (* autocode/intor3.c:791 *);
  (MF1E, "int1e_sprsp") (* autocode/intor3.c:792 *);
  (MC1E, "int1e_govlp") (* autocode/intor3.c:891 *);
  (MF1E, "int1e_govlp") (* autocode/intor3.c:892 *);
  (MC1E, "int1e_gnuc") (* autocode/intor3.c:995 *);
  (MF1E, "int1e_gnuc") (* autocode/intor3.c:996 *);
  (MC1E, "int1e_cg_sa10sa01") (* autocode/intor3.c:1138 *);
  (MF1E, "int1e_cg_sa10sa01") (* autocode/intor3.c:1139 *);
  (MC1E, "int1e_cg_sa10sp") (* autocode/intor3.c:1227 *);
  (MF1E, "int1e_cg_sa10sp") (* autocode/intor3.c:1228 *);
  (MC1E, "int1e_cg_sa10nucsp") (* autocode/intor3.c:1320 *);
  (MF1E, "int1e_cg_sa10nucsp") (* autocode/intor3.c:1321 *);
  (MC1E, "int1e_giao_sa10sa01") (* autocode/intor3.c:1459 *);
  (MF1E, "int1e_giao_sa10sa01") (* autocode/intor3.c:1460 *);
  (MC1E, "int1e_giao_sa10sp") (* autocode/intor3.c:1544 *);
  (MF1E, "int1e_giao_sa10sp") (* autocode/intor3.c:1545 *);
  (MC1E, "int1e_giao_sa10nucsp") (* autocode/intor3.c:1633 *);
  (MF1E, "int1e_giao_sa10nucsp") (* autocode/intor3.c:1634 *);
  (MC1E, "int1e_sa01sp") (* autocode/intor3.c:1721 *);
  (MF1E, "int1e_sa01sp") (* autocode/intor3.c:1722 *);
  (MC1E, "int1e_spgsp") (* autocode/intor3.c:1875 *);
  (MF1E, "int1e_spgsp") (* autocode/intor3.c:1876 *);
  (MC1E, "int1e_spgnucsp") (* autocode/intor3.c:2033 *);
  (MF1E, "int1e_spgnucsp") (* autocode/intor3.c:2034 *);
  (MC1E, "int1e_spgsa01") (* autocode/intor3.c:2241 *);
  (MF1E, "int1e_spgsa01") (* autocode/intor3.c:2242 *);
  (MC, "int2e_spsp1") (* autocode/intor4.c:87 *);
  (MF, "int2e_spsp1") (* autocode/intor4.c:88 *);
  (MC, "int2e_spsp1spsp2") (* autocode/intor4.c:279 *);
  (MF, "int2e_spsp1spsp2") (* autocode/intor4.c:280 *);
  (MC, "int2e_srsr1") (* autocode/intor4.c:351 *);
  (MF, "int2e_srsr1") (* autocode/intor4.c:352 *);
  (MC, "int2e_srsr1srsr2") (* autocode/intor4.c:543 *);
  (MF, "int2e_srsr1srsr2") (* autocode/intor4.c:544 *);
  (MC, "int2e_cg_sa10sp1") (* autocode/intor4.c:638 *);
  (MF, "int2e_cg_sa10sp1") (* autocode/intor4.c:639 *);
  (MC, "int2e_cg_sa10sp1spsp2") (* autocode/intor4.c:901 *);
  (MF, "int2e_cg_sa10sp1spsp2") (* autocode/intor4.c:902 *);
  (MC, "int2e_giao_sa10sp1") (* autocode/intor4.c:992 *);
  (MF, "int2e_giao_sa10sp1") (* autocode/intor4.c:993 *);
  (MC, "int2e_giao_sa10sp1spsp2") (* autocode/intor4.c:1251 *);
  (MF, "int2e_giao_sa10sp1spsp2") (* autocode/intor4.c:1252 *);
  (MC, "int2e_g1") (* autocode/intor4.c:1380 *);
  (MF, "int2e_g1") (* autocode/intor4.c:1381 *);
  (MC, "int2e_spgsp1") (* autocode/intor4.c:1541 *);
  (MF, "int2e_spgsp1") (* autocode/intor4.c:1542 *);
  (MC, "int2e_g1spsp2") (* autocode/intor4.c:1702 *);
  (MF, "int2e_g1spsp2") (* autocode/intor4.c:1703 *);
  (MC, "int2e_spgsp1spsp2") (* autocode/intor4.c:2199 *);
  (MF, "int2e_spgsp1spsp2") (* autocode/intor4.c:2200 *);
  (MC, "int2e_pp1") (* autocode/intor4.c:2265 *);
  (MF, "int2e_pp1") (* autocode/intor4.c:2266 *);
  (MC, "int2e_pp2") (* autocode/intor4.c:2331 *);
  (MF, "int2e_pp2") (* autocode/intor4.c:2332 *);
  (MC, "int2e_pp1pp2") (* autocode/intor4.c:2493 *);
  (MF, "int2e_pp1pp2") (* autocode/intor4.c:2494 *);
  (MC1E, "int1e_iprinvr") (* autocode/lresc.c:95 *);
  (MF1E, "int1e_iprinvr") (* autocode/lresc.c:96 *);
  (MC1E, "int1e_iprinviprip") (* autocode/lresc.c:415 *);
  (MF1E, "int1e_iprinviprip") (* autocode/lresc.c:416 *);
  (MC1E, "int1e_rinvipiprip") (* autocode/lresc.c:735 *);
  (MF1E, "int1e_rinvipiprip") (* autocode/lresc.c:736 *);
  (MC1E, "int1e_ipiprinvrip") (* autocode/lresc.c:1055 *);
  (MF1E, "int1e_ipiprinvrip") (* autocode/lresc.c:1056 *);
  (MC, "int2e_breit_r1p2") (* breit.c:227 *);
  (MF, "int2e_breit_r1p2") (* breit.c:228 *);
  (MC, "int2e_breit_r2p2") (* breit.c:316 *);
  (MF, "int2e_breit_r2p2") (* breit.c:317 *);
  (MC, "int1e_ovlp") (* cint1e.c:433 *);
  (MC, "int1e_nuc") (* cint1e.c:434 *);
  (MF, "int1e_ovlp") (* cint1e.c:435 *);
  (MF, "int1e_nuc") (* cint1e.c:436 *);
  (MC1E, "int1e_r2_origi") (* cint1e_a.c:71 *);
  (MC1E, "int1e_r4_origi") (* cint1e_a.c:147 *);
  (MC1E, "int1e_r2_origi_ip2") (* cint1e_a.c:214 *);
  (MC1E, "int1e_r4_origi_ip2") (* cint1e_a.c:316 *);
  (MC, "int1e_grids") (* cint1e_grids.c:368 *);
  (MC, "int2c2e") (* cint2c2e.c:388 *);
  (MF, "int2c2e") (* cint2c2e.c:389 *);
  (MC, "int2e") (* cint2e.c:1227 *);
  (MF, "int2e") (* cint2e.c:1228 *);
  (MF12, "int2e_yp") (* cint2e_f12.c:54 *);
  (MF12, "int2e_stg") (* cint2e_f12.c:55 *);
  (MF12, "int2e_yp_ip1") (* cint2e_f12.c:78 *);
  (MF12, "int2e_stg_ip1") (* cint2e_f12.c:93 *);
  (MF12, "int2e_yp_ipip1") (* cint2e_f12.c:114 *);
  (MF12, "int2e_stg_ipip1") (* cint2e_f12.c:129 *);
  (MF12, "int2e_yp_ipvip1") (* cint2e_f12.c:150 *);
  (MF12, "int2e_stg_ipvip1") (* cint2e_f12.c:165 *);
  (MF12, "int2e_yp_ip1ip2") (* cint2e_f12.c:186 *);
  (MF12, "int2e_stg_ip1ip2") (* cint2e_f12.c:201 *);
  (MC, "int3c1e") (* cint3c1e.c:530 *);
  (MF, "int3c1e") (* cint3c1e.c:531 *);
  (MC, "int3c1e_r2_origk") (* cint3c1e_a.c:71 *);
  (MF, "int3c1e_r2_origk") (* cint3c1e_a.c:72 *);
  (MC, "int3c1e_r4_origk") (* cint3c1e_a.c:149 *);
  (MF, "int3c1e_r4_origk") (* cint3c1e_a.c:150 *);
  (MC, "int3c1e_r6_origk") (* cint3c1e_a.c:285 *);
  (MF, "int3c1e_r6_origk") (* cint3c1e_a.c:286 *);
  (MC, "int3c1e_ip1_r2_origk") (* cint3c1e_a.c:358 *);
  (MF, "int3c1e_ip1_r2_origk") (* cint3c1e_a.c:359 *);
  (MC, "int3c1e_ip1_r4_origk") (* cint3c1e_a.c:461 *);
  (MF, "int3c1e_ip1_r4_origk") (* cint3c1e_a.c:462 *);
  (MC, "int3c1e_ip1_r6_origk") (* cint3c1e_a.c:674 *);
  (MF, "int3c1e_ip1_r6_origk") (* cint3c1e_a.c:675 *);
  (MC, "int3c2e") (* cint3c2e.c:767 *);
  (MF, "int3c2e") (* cint3c2e.c:768 *);
  (MC, "int4c1e") (* cint4c1e.c:356 *);
  (MF, "int4c1e") (* cint4c1e.c:357 *);
  (MBREIT, "ssp1ssp2") (* breit.c:135 *);
  (MBREIT, "ssp1sps2") (* breit.c:136 *);
  (MBREIT, "sps1ssp2") (* breit.c:137 *);
  (MBREIT, "sps1sps2") (* breit.c:138 *)
].

(** modern entry points; the comment is file:line of the definition *)
Definition modern : list (string * shape) := [
  ("int2e_gauge_r1_ssp1ssp2_optimizer", Sopt) (* autocode/breit1.c:183 *);
  ("int2e_gauge_r1_ssp1ssp2_cart", Sreal) (* autocode/breit1.c:187 *);
  ("int2e_gauge_r1_ssp1ssp2_sph", Sreal) (* autocode/breit1.c:196 *);
  ("int2e_gauge_r1_ssp1ssp2_spinor", Scplx) (* autocode/breit1.c:205 *);
  ("int2e_gauge_r1_ssp1sps2_optimizer", Sopt) (* autocode/breit1.c:381 *);
  ("int2e_gauge_r1_ssp1sps2_cart", Sreal) (* autocode/breit1.c:385 *);
  ("int2e_gauge_r1_ssp1sps2_sph", Sreal) (* autocode/breit1.c:394 *);
  ("int2e_gauge_r1_ssp1sps2_spinor", Scplx) (* autocode/breit1.c:403 *);
  ("int2e_gauge_r1_sps1ssp2_optimizer", Sopt) (* autocode/breit1.c:579 *);
  ("int2e_gauge_r1_sps1ssp2_cart", Sreal) (* autocode/breit1.c:583 *);
  ("int2e_gauge_r1_sps1ssp2_sph", Sreal) (* autocode/breit1.c:592 *);
  ("int2e_gauge_r1_sps1ssp2_spinor", Scplx) (* autocode/breit1.c:601 *);
  ("int2e_gauge_r1_sps1sps2_optimizer", Sopt) (* autocode/breit1.c:777 *);
  ("int2e_gauge_r1_sps1sps2_cart", Sreal) (* autocode/breit1.c:781 *);
  ("int2e_gauge_r1_sps1sps2_sph", Sreal) (* autocode/breit1.c:790 *);
  ("int2e_gauge_r1_sps1sps2_spinor", Scplx) (* autocode/breit1.c:799 *);
  ("int2e_gauge_r2_ssp1ssp2_optimizer", Sopt) (* autocode/breit1.c:979 *);
  ("int2e_gauge_r2_ssp1ssp2_cart", Sreal) (* autocode/breit1.c:983 *);
  ("int2e_gauge_r2_ssp1ssp2_sph", Sreal) (* autocode/breit1.c:992 *);
  ("int2e_gauge_r2_ssp1ssp2_spinor", Scplx) (* autocode/breit1.c:1001 *);
  ("int2e_gauge_r2_ssp1sps2_optimizer", Sopt) (* autocode/breit1.c:1181 *);
  ("int2e_gauge_r2_ssp1sps2_cart", Sreal) (* autocode/breit1.c:1185 *);
  ("int2e_gauge_r2_ssp1sps2_sph", Sreal) (* autocode/breit1.c:1194 *);
  ("int2e_gauge_r2_ssp1sps2_spinor", Scplx) (* autocode/breit1.c:1203 *);
  ("int2e_gauge_r2_sps1ssp2_optimizer", Sopt) (* autocode/breit1.c:1383 *);
  ("int2e_gauge_r2_sps1ssp2_cart", Sreal) (* autocode/breit1.c:1387 *);
  ("int2e_gauge_r2_sps1ssp2_sph", Sreal) (* autocode/breit1.c:1396 *);
  ("int2e_gauge_r2_sps1ssp2_spinor", Scplx) (* autocode/breit1.c:1405 *);
  ("int2e_gauge_r2_sps1sps2_optimizer", Sopt) (* autocode/breit1.c:1585 *);
  ("int2e_gauge_r2_sps1sps2_cart", Sreal) (* autocode/breit1.c:1589 *);
  ("int2e_gauge_r2_sps1sps2_sph", Sreal) (* autocode/breit1.c:1598 *);
  ("int2e_gauge_r2_sps1sps2_spinor", Scplx) (* autocode/breit1.c:1607 *);
  ("int1e_ipipipnuc_optimizer", Sopt) (* autocode/deriv3.c:129 *);
  ("int1e_ipipipnuc_cart", Sreal) (* autocode/deriv3.c:133 *);
  ("int1e_ipipipnuc_sph", Sreal) (* autocode/deriv3.c:141 *);
  ("int1e_ipipipnuc_spinor", Scplx) (* autocode/deriv3.c:149 *);
  ("int1e_ipipiprinv_optimizer", Sopt) (* autocode/deriv3.c:271 *);
  ("int1e_ipipiprinv_cart", Sreal) (* autocode/deriv3.c:275 *);
  ("int1e_ipipiprinv_sph", Sreal) (* autocode/deriv3.c:283 *);
  ("int1e_ipipiprinv_spinor", Scplx) (* autocode/deriv3.c:291 *);
  ("int1e_ipipnucip_optimizer", Sopt) (* autocode/deriv3.c:413 *);
  ("int1e_ipipnucip_cart", Sreal) (* autocode/deriv3.c:417 *);
  ("int1e_ipipnucip_sph", Sreal) (* autocode/deriv3.c:425 *);
  ("int1e_ipipnucip_spinor", Scplx) (* autocode/deriv3.c:433 *);
  ("int1e_ipiprinvip_optimizer", Sopt) (* autocode/deriv3.c:555 *);
  ("int1e_ipiprinvip_cart", Sreal) (* autocode/deriv3.c:559 *);
  ("int1e_ipiprinvip_sph", Sreal) (* autocode/deriv3.c:567 *);
  ("int1e_ipiprinvip_spinor", Scplx) (* autocode/deriv3.c:575 *);
  ("int1e_ipiprinvipip_optimizer", Sopt) (* autocode/deriv4.c:307 *);
  ("int1e_ipiprinvipip_cart", Sreal) (* autocode/deriv4.c:311 *);
  ("int1e_ipiprinvipip_sph", Sreal) (* autocode/deriv4.c:319 *);
  ("int1e_ipiprinvipip_spinor", Scplx) (* autocode/deriv4.c:327 *);
  ("int1e_ipipiprinvip_optimizer", Sopt) (* autocode/deriv4.c:627 *);
  ("int1e_ipipiprinvip_cart", Sreal) (* autocode/deriv4.c:631 *);
  ("int1e_ipipiprinvip_sph", Sreal) (* autocode/deriv4.c:639 *);
  ("int1e_ipipiprinvip_spinor", Scplx) (* autocode/deriv4.c:647 *);
  ("int1e_ipipipiprinv_optimizer", Sopt) (* autocode/deriv4.c:947 *);
  ("int1e_ipipipiprinv_cart", Sreal) (* autocode/deriv4.c:951 *);
  ("int1e_ipipipiprinv_sph", Sreal) (* autocode/deriv4.c:959 *);
  ("int1e_ipipipiprinv_spinor", Scplx) (* autocode/deriv4.c:967 *);
  ("int1e_spspsp_optimizer", Sopt) (* autocode/dkb.c:79 *);
  ("int1e_spspsp_cart", Sreal) (* autocode/dkb.c:83 *);
  ("int1e_spspsp_sph", Sreal) (* autocode/dkb.c:91 *);
  ("int1e_spspsp_spinor", Scplx) (* autocode/dkb.c:99 *);
  ("int1e_spnuc_optimizer", Sopt) (* autocode/dkb.c:139 *);
  ("int1e_spnuc_cart", Sreal) (* autocode/dkb.c:143 *);
  ("int1e_spnuc_sph", Sreal) (* autocode/dkb.c:151 *);
  ("int1e_spnuc_spinor", Scplx) (* autocode/dkb.c:159 *);
  ("int2e_spv1_optimizer", Sopt) (* autocode/dkb.c:223 *);
  ("int2e_spv1_cart", Sreal) (* autocode/dkb.c:227 *);
  ("int2e_spv1_sph", Sreal) (* autocode/dkb.c:235 *);
  ("int2e_spv1_spinor", Scplx) (* autocode/dkb.c:243 *);
  ("int2e_vsp1_optimizer", Sopt) (* autocode/dkb.c:307 *);
  ("int2e_vsp1_cart", Sreal) (* autocode/dkb.c:311 *);
  ("int2e_vsp1_sph", Sreal) (* autocode/dkb.c:319 *);
  ("int2e_vsp1_spinor", Scplx) (* autocode/dkb.c:327 *);
  ("int2e_spsp2_optimizer", Sopt) (* autocode/dkb.c:379 *);
  ("int2e_spsp2_cart", Sreal) (* autocode/dkb.c:383 *);
  ("int2e_spsp2_sph", Sreal) (* autocode/dkb.c:391 *);
  ("int2e_spsp2_spinor", Scplx) (* autocode/dkb.c:399 *);
  ("int2e_spv1spv2_optimizer", Sopt) (* autocode/dkb.c:475 *);
  ("int2e_spv1spv2_cart", Sreal) (* autocode/dkb.c:479 *);
  ("int2e_spv1spv2_sph", Sreal) (* autocode/dkb.c:487 *);
  ("int2e_spv1spv2_spinor", Scplx) (* autocode/dkb.c:495 *);
  ("int2e_vsp1spv2_optimizer", Sopt) (* autocode/dkb.c:571 *);
  ("int2e_vsp1spv2_cart", Sreal) (* autocode/dkb.c:575 *);
  ("int2e_vsp1spv2_sph", Sreal) (* autocode/dkb.c:583 *);
  ("int2e_vsp1spv2_spinor", Scplx) (* autocode/dkb.c:591 *);
  ("int2e_spv1vsp2_optimizer", Sopt) (* autocode/dkb.c:667 *);
  ("int2e_spv1vsp2_cart", Sreal) (* autocode/dkb.c:671 *);
  ("int2e_spv1vsp2_sph", Sreal) (* autocode/dkb.c:679 *);
  ("int2e_spv1vsp2_spinor", Scplx) (* autocode/dkb.c:687 *);
  ("int2e_vsp1vsp2_optimizer", Sopt) (* autocode/dkb.c:763 *);
  ("int2e_vsp1vsp2_cart", Sreal) (* autocode/dkb.c:767 *);
  ("int2e_vsp1vsp2_sph", Sreal) (* autocode/dkb.c:775 *);
  ("int2e_vsp1vsp2_spinor", Scplx) (* autocode/dkb.c:783 *);
  ("int2e_spv1spsp2_optimizer", Sopt) (* autocode/dkb.c:885 *);
  ("int2e_spv1spsp2_cart", Sreal) (* autocode/dkb.c:889 *);
  ("int2e_spv1spsp2_sph", Sreal) (* autocode/dkb.c:897 *);
  ("int2e_spv1spsp2_spinor", Scplx) (* autocode/dkb.c:905 *);
  ("int2e_vsp1spsp2_optimizer", Sopt) (* autocode/dkb.c:1007 *);
  ("int2e_vsp1spsp2_cart", Sreal) (* autocode/dkb.c:1011 *);
  ("int2e_vsp1spsp2_sph", Sreal) (* autocode/dkb.c:1019 *);
  ("int2e_vsp1spsp2_spinor", Scplx) (* autocode/dkb.c:1027 *);
  ("int2e_ssp1ssp2_optimizer", Sopt) (* autocode/gaunt1.c:83 *);
  ("int2e_ssp1ssp2_cart", Sreal) (* autocode/gaunt1.c:87 *);
  ("int2e_ssp1ssp2_sph", Sreal) (* autocode/gaunt1.c:96 *);
  ("int2e_ssp1ssp2_spinor", Scplx) (* autocode/gaunt1.c:105 *);
  ("int2e_ssp1sps2_optimizer", Sopt) (* autocode/gaunt1.c:181 *);
  ("int2e_ssp1sps2_cart", Sreal) (* autocode/gaunt1.c:185 *);
  ("int2e_ssp1sps2_sph", Sreal) (* autocode/gaunt1.c:194 *);
  ("int2e_ssp1sps2_spinor", Scplx) (* autocode/gaunt1.c:203 *);
  ("int2e_sps1ssp2_optimizer", Sopt) (* autocode/gaunt1.c:279 *);
  ("int2e_sps1ssp2_cart", Sreal) (* autocode/gaunt1.c:283 *);
  ("int2e_sps1ssp2_sph", Sreal) (* autocode/gaunt1.c:292 *);
  ("int2e_sps1ssp2_spinor", Scplx) (* autocode/gaunt1.c:301 *);
  ("int2e_sps1sps2_optimizer", Sopt) (* autocode/gaunt1.c:377 *);
  ("int2e_sps1sps2_cart", Sreal) (* autocode/gaunt1.c:381 *);
  ("int2e_sps1sps2_sph", Sreal) (* autocode/gaunt1.c:390 *);
  ("int2e_sps1sps2_spinor", Scplx) (* autocode/gaunt1.c:399 *);
  ("int2e_cg_ssa10ssp2_optimizer", Sopt) (* autocode/gaunt1.c:543 *);
  ("int2e_cg_ssa10ssp2_cart", Sreal) (* autocode/gaunt1.c:547 *);
  ("int2e_cg_ssa10ssp2_sph", Sreal) (* autocode/gaunt1.c:555 *);
  ("int2e_cg_ssa10ssp2_spinor", Scplx) (* autocode/gaunt1.c:563 *);
  ("int2e_giao_ssa10ssp2_optimizer", Sopt) (* autocode/gaunt1.c:703 *);
  ("int2e_giao_ssa10ssp2_cart", Sreal) (* autocode/gaunt1.c:707 *);
  ("int2e_giao_ssa10ssp2_sph", Sreal) (* autocode/gaunt1.c:715 *);
  ("int2e_giao_ssa10ssp2_spinor", Scplx) (* autocode/gaunt1.c:723 *);
  ("int2e_gssp1ssp2_optimizer", Sopt) (* autocode/gaunt1.c:897 *);
  ("int2e_gssp1ssp2_cart", Sreal) (* autocode/gaunt1.c:901 *);
  ("int2e_gssp1ssp2_sph", Sreal) (* autocode/gaunt1.c:922 *);
  ("int2e_gssp1ssp2_spinor", Scplx) (* autocode/gaunt1.c:943 *);
  ("int1e_ipovlp_optimizer", Sopt) (* autocode/grad1.c:41 *);
  ("int1e_ipovlp_cart", Sreal) (* autocode/grad1.c:45 *);
  ("int1e_ipovlp_sph", Sreal) (* autocode/grad1.c:53 *);
  ("int1e_ipovlp_spinor", Scplx) (* autocode/grad1.c:61 *);
  ("int1e_ovlpip_optimizer", Sopt) (* autocode/grad1.c:95 *);
  ("int1e_ovlpip_cart", Sreal) (* autocode/grad1.c:99 *);
  ("int1e_ovlpip_sph", Sreal) (* autocode/grad1.c:107 *);
  ("int1e_ovlpip_spinor", Scplx) (* autocode/grad1.c:115 *);
  ("int1e_ipkin_optimizer", Sopt) (* autocode/grad1.c:185 *);
  ("int1e_ipkin_cart", Sreal) (* autocode/grad1.c:189 *);
  ("int1e_ipkin_sph", Sreal) (* autocode/grad1.c:198 *);
  ("int1e_ipkin_spinor", Scplx) (* autocode/grad1.c:207 *);
  ("int1e_kinip_optimizer", Sopt) (* autocode/grad1.c:278 *);
  ("int1e_kinip_cart", Sreal) (* autocode/grad1.c:282 *);
  ("int1e_kinip_sph", Sreal) (* autocode/grad1.c:291 *);
  ("int1e_kinip_spinor", Scplx) (* autocode/grad1.c:300 *);
  ("int1e_ipnuc_optimizer", Sopt) (* autocode/grad1.c:339 *);
  ("int1e_ipnuc_cart", Sreal) (* autocode/grad1.c:343 *);
  ("int1e_ipnuc_sph", Sreal) (* autocode/grad1.c:351 *);
  ("int1e_ipnuc_spinor", Scplx) (* autocode/grad1.c:359 *);
  ("int1e_iprinv_optimizer", Sopt) (* autocode/grad1.c:397 *);
  ("int1e_iprinv_cart", Sreal) (* autocode/grad1.c:401 *);
  ("int1e_iprinv_sph", Sreal) (* autocode/grad1.c:409 *);
  ("int1e_iprinv_spinor", Scplx) (* autocode/grad1.c:417 *);
  ("int1e_ipspnucsp_optimizer", Sopt) (* autocode/grad1.c:509 *);
  ("int1e_ipspnucsp_cart", Sreal) (* autocode/grad1.c:513 *);
  ("int1e_ipspnucsp_sph", Sreal) (* autocode/grad1.c:521 *);
  ("int1e_ipspnucsp_spinor", Scplx) (* autocode/grad1.c:529 *);
  ("int1e_ipsprinvsp_optimizer", Sopt) (* autocode/grad1.c:621 *);
  ("int1e_ipsprinvsp_cart", Sreal) (* autocode/grad1.c:625 *);
  ("int1e_ipsprinvsp_sph", Sreal) (* autocode/grad1.c:633 *);
  ("int1e_ipsprinvsp_spinor", Scplx) (* autocode/grad1.c:641 *);
  ("int1e_ippnucp_optimizer", Sopt) (* autocode/grad1.c:715 *);
  ("int1e_ippnucp_cart", Sreal) (* autocode/grad1.c:719 *);
  ("int1e_ippnucp_sph", Sreal) (* autocode/grad1.c:727 *);
  ("int1e_ippnucp_spinor", Scplx) (* autocode/grad1.c:735 *);
  ("int1e_ipprinvp_optimizer", Sopt) (* autocode/grad1.c:809 *);
  ("int1e_ipprinvp_cart", Sreal) (* autocode/grad1.c:813 *);
  ("int1e_ipprinvp_sph", Sreal) (* autocode/grad1.c:821 *);
  ("int1e_ipprinvp_spinor", Scplx) (* autocode/grad1.c:829 *);
  ("int2e_ip1_optimizer", Sopt) (* autocode/grad2.c:69 *);
  ("int2e_ip1_cart", Sreal) (* autocode/grad2.c:73 *);
  ("int2e_ip1_sph", Sreal) (* autocode/grad2.c:81 *);
  ("int2e_ip1_spinor", Scplx) (* autocode/grad2.c:89 *);
  ("int2e_ip2_optimizer", Sopt) (* autocode/grad2.c:151 *);
  ("int2e_ip2_cart", Sreal) (* autocode/grad2.c:155 *);
  ("int2e_ip2_sph", Sreal) (* autocode/grad2.c:163 *);
  ("int2e_ip2_spinor", Scplx) (* autocode/grad2.c:171 *);
  ("int2e_ipspsp1_optimizer", Sopt) (* autocode/grad2.c:265 *);
  ("int2e_ipspsp1_cart", Sreal) (* autocode/grad2.c:269 *);
  ("int2e_ipspsp1_sph", Sreal) (* autocode/grad2.c:277 *);
  ("int2e_ipspsp1_spinor", Scplx) (* autocode/grad2.c:285 *);
  ("int2e_ip1spsp2_optimizer", Sopt) (* autocode/grad2.c:379 *);
  ("int2e_ip1spsp2_cart", Sreal) (* autocode/grad2.c:383 *);
  ("int2e_ip1spsp2_sph", Sreal) (* autocode/grad2.c:391 *);
  ("int2e_ip1spsp2_spinor", Scplx) (* autocode/grad2.c:399 *);
  ("int2e_ipspsp1spsp2_optimizer", Sopt) (* autocode/grad2.c:829 *);
  ("int2e_ipspsp1spsp2_cart", Sreal) (* autocode/grad2.c:833 *);
  ("int2e_ipspsp1spsp2_sph", Sreal) (* autocode/grad2.c:841 *);
  ("int2e_ipspsp1spsp2_spinor", Scplx) (* autocode/grad2.c:849 *);
  ("int2e_ipsrsr1_optimizer", Sopt) (* autocode/grad2.c:943 *);
  ("int2e_ipsrsr1_cart", Sreal) (* autocode/grad2.c:947 *);
  ("int2e_ipsrsr1_sph", Sreal) (* autocode/grad2.c:955 *);
  ("int2e_ipsrsr1_spinor", Scplx) (* autocode/grad2.c:963 *);
  ("int2e_ip1srsr2_optimizer", Sopt) (* autocode/grad2.c:1057 *);
  ("int2e_ip1srsr2_cart", Sreal) (* autocode/grad2.c:1061 *);
  ("int2e_ip1srsr2_sph", Sreal) (* autocode/grad2.c:1069 *);
  ("int2e_ip1srsr2_spinor", Scplx) (* autocode/grad2.c:1077 *);
  ("int2e_ipsrsr1srsr2_optimizer", Sopt) (* autocode/grad2.c:1507 *);
  ("int2e_ipsrsr1srsr2_cart", Sreal) (* autocode/grad2.c:1511 *);
  ("int2e_ipsrsr1srsr2_sph", Sreal) (* autocode/grad2.c:1519 *);
  ("int2e_ipsrsr1srsr2_spinor", Scplx) (* autocode/grad2.c:1527 *);
  ("int1e_ipipovlp_optimizer", Sopt) (* autocode/hess.c:63 *);
  ("int1e_ipipovlp_cart", Sreal) (* autocode/hess.c:67 *);
  ("int1e_ipipovlp_sph", Sreal) (* autocode/hess.c:75 *);
  ("int1e_ipipovlp_spinor", Scplx) (* autocode/hess.c:83 *);
  ("int1e_ipovlpip_optimizer", Sopt) (* autocode/hess.c:139 *);
  ("int1e_ipovlpip_cart", Sreal) (* autocode/hess.c:143 *);
  ("int1e_ipovlpip_sph", Sreal) (* autocode/hess.c:151 *);
  ("int1e_ipovlpip_spinor", Scplx) (* autocode/hess.c:159 *);
  ("int1e_ipipkin_optimizer", Sopt) (* autocode/hess.c:311 *);
  ("int1e_ipipkin_cart", Sreal) (* autocode/hess.c:315 *);
  ("int1e_ipipkin_sph", Sreal) (* autocode/hess.c:324 *);
  ("int1e_ipipkin_spinor", Scplx) (* autocode/hess.c:333 *);
  ("int1e_ipkinip_optimizer", Sopt) (* autocode/hess.c:486 *);
  ("int1e_ipkinip_cart", Sreal) (* autocode/hess.c:490 *);
  ("int1e_ipkinip_sph", Sreal) (* autocode/hess.c:499 *);
  ("int1e_ipkinip_spinor", Scplx) (* autocode/hess.c:508 *);
  ("int1e_ipipnuc_optimizer", Sopt) (* autocode/hess.c:569 *);
  ("int1e_ipipnuc_cart", Sreal) (* autocode/hess.c:573 *);
  ("int1e_ipipnuc_sph", Sreal) (* autocode/hess.c:581 *);
  ("int1e_ipipnuc_spinor", Scplx) (* autocode/hess.c:589 *);
  ("int1e_ipnucip_optimizer", Sopt) (* autocode/hess.c:649 *);
  ("int1e_ipnucip_cart", Sreal) (* autocode/hess.c:653 *);
  ("int1e_ipnucip_sph", Sreal) (* autocode/hess.c:661 *);
  ("int1e_ipnucip_spinor", Scplx) (* autocode/hess.c:669 *);
  ("int1e_ipiprinv_optimizer", Sopt) (* autocode/hess.c:729 *);
  ("int1e_ipiprinv_cart", Sreal) (* autocode/hess.c:733 *);
  ("int1e_ipiprinv_sph", Sreal) (* autocode/hess.c:741 *);
  ("int1e_ipiprinv_spinor", Scplx) (* autocode/hess.c:749 *);
  ("int1e_iprinvip_optimizer", Sopt) (* autocode/hess.c:809 *);
  ("int1e_iprinvip_cart", Sreal) (* autocode/hess.c:813 *);
  ("int1e_iprinvip_sph", Sreal) (* autocode/hess.c:821 *);
  ("int1e_iprinvip_spinor", Scplx) (* autocode/hess.c:829 *);
  ("int1e_ipipr_optimizer", Sopt) (* autocode/hess.c:951 *);
  ("int1e_ipipr_cart", Sreal) (* autocode/hess.c:955 *);
  ("int1e_ipipr_sph", Sreal) (* autocode/hess.c:963 *);
  ("int1e_ipipr_spinor", Scplx) (* autocode/hess.c:971 *);
  ("int1e_iprip_optimizer", Sopt) (* autocode/hess.c:1093 *);
  ("int1e_iprip_cart", Sreal) (* autocode/hess.c:1097 *);
  ("int1e_iprip_sph", Sreal) (* autocode/hess.c:1105 *);
  ("int1e_iprip_spinor", Scplx) (* autocode/hess.c:1113 *);
  ("int2e_ipip1_optimizer", Sopt) (* autocode/hess.c:1175 *);
  ("int2e_ipip1_cart", Sreal) (* autocode/hess.c:1179 *);
  ("int2e_ipip1_sph", Sreal) (* autocode/hess.c:1187 *);
  ("int2e_ipip1_spinor", Scplx) (* autocode/hess.c:1195 *);
  ("int2e_ipvip1_optimizer", Sopt) (* autocode/hess.c:1257 *);
  ("int2e_ipvip1_cart", Sreal) (* autocode/hess.c:1261 *);
  ("int2e_ipvip1_sph", Sreal) (* autocode/hess.c:1269 *);
  ("int2e_ipvip1_spinor", Scplx) (* autocode/hess.c:1277 *);
  ("int2e_ip1ip2_optimizer", Sopt) (* autocode/hess.c:1339 *);
  ("int2e_ip1ip2_cart", Sreal) (* autocode/hess.c:1343 *);
  ("int2e_ip1ip2_sph", Sreal) (* autocode/hess.c:1351 *);
  ("int2e_ip1ip2_spinor", Scplx) (* autocode/hess.c:1359 *);
  ("int1e_ipippnucp_optimizer", Sopt) (* autocode/hess.c:1515 *);
  ("int1e_ipippnucp_cart", Sreal) (* autocode/hess.c:1519 *);
  ("int1e_ipippnucp_sph", Sreal) (* autocode/hess.c:1527 *);
  ("int1e_ipippnucp_spinor", Scplx) (* autocode/hess.c:1535 *);
  ("int1e_ippnucpip_optimizer", Sopt) (* autocode/hess.c:1691 *);
  ("int1e_ippnucpip_cart", Sreal) (* autocode/hess.c:1695 *);
  ("int1e_ippnucpip_sph", Sreal) (* autocode/hess.c:1703 *);
  ("int1e_ippnucpip_spinor", Scplx) (* autocode/hess.c:1711 *);
  ("int1e_ipipprinvp_optimizer", Sopt) (* autocode/hess.c:1867 *);
  ("int1e_ipipprinvp_cart", Sreal) (* autocode/hess.c:1871 *);
  ("int1e_ipipprinvp_sph", Sreal) (* autocode/hess.c:1879 *);
  ("int1e_ipipprinvp_spinor", Scplx) (* autocode/hess.c:1887 *);
  ("int1e_ipprinvpip_optimizer", Sopt) (* autocode/hess.c:2043 *);
  ("int1e_ipprinvpip_cart", Sreal) (* autocode/hess.c:2047 *);
  ("int1e_ipprinvpip_sph", Sreal) (* autocode/hess.c:2055 *);
  ("int1e_ipprinvpip_spinor", Scplx) (* autocode/hess.c:2063 *);
  ("int1e_ipipspnucsp_optimizer", Sopt) (* autocode/hess.c:2273 *);
  ("int1e_ipipspnucsp_cart", Sreal) (* autocode/hess.c:2277 *);
  ("int1e_ipipspnucsp_sph", Sreal) (* autocode/hess.c:2285 *);
  ("int1e_ipipspnucsp_spinor", Scplx) (* autocode/hess.c:2293 *);
  ("int1e_ipspnucspip_optimizer", Sopt) (* autocode/hess.c:2503 *);
  ("int1e_ipspnucspip_cart", Sreal) (* autocode/hess.c:2507 *);
  ("int1e_ipspnucspip_sph", Sreal) (* autocode/hess.c:2515 *);
  ("int1e_ipspnucspip_spinor", Scplx) (* autocode/hess.c:2523 *);
  ("int1e_ipipsprinvsp_optimizer", Sopt) (* autocode/hess.c:2733 *);
  ("int1e_ipipsprinvsp_cart", Sreal) (* autocode/hess.c:2737 *);
  ("int1e_ipipsprinvsp_sph", Sreal) (* autocode/hess.c:2745 *);
  ("int1e_ipipsprinvsp_spinor", Scplx) (* autocode/hess.c:2753 *);
  ("int1e_ipsprinvspip_optimizer", Sopt) (* autocode/hess.c:2963 *);
  ("int1e_ipsprinvspip_cart", Sreal) (* autocode/hess.c:2967 *);
  ("int1e_ipsprinvspip_sph", Sreal) (* autocode/hess.c:2975 *);
  ("int1e_ipsprinvspip_spinor", Scplx) (* autocode/hess.c:2983 *);
  ("int2e_ipip1ipip2_optimizer", Sopt) (* autocode/hess.c:3285 *);
  ("int2e_ipip1ipip2_cart", Sreal) (* autocode/hess.c:3289 *);
  ("int2e_ipip1ipip2_sph", Sreal) (* autocode/hess.c:3297 *);
  ("int2e_ipip1ipip2_spinor", Scplx) (* autocode/hess.c:3305 *);
  ("int2e_ipvip1ipvip2_optimizer", Sopt) (* autocode/hess.c:3607 *);
  ("int2e_ipvip1ipvip2_cart", Sreal) (* autocode/hess.c:3611 *);
  ("int2e_ipvip1ipvip2_sph", Sreal) (* autocode/hess.c:3619 *);
  ("int2e_ipvip1ipvip2_spinor", Scplx) (* autocode/hess.c:3627 *);
  ("int1e_grids_ip_optimizer", Sopt) (* autocode/int1e_grids1.c:51 *);
  ("int1e_grids_ip_cart", Sreal) (* autocode/int1e_grids1.c:55 *);
  ("int1e_grids_ip_sph", Sreal) (* autocode/int1e_grids1.c:63 *);
  ("int1e_grids_ip_spinor", Scplx) (* autocode/int1e_grids1.c:71 *);
  ("int1e_grids_ipvip_optimizer", Sopt) (* autocode/int1e_grids1.c:137 *);
  ("int1e_grids_ipvip_cart", Sreal) (* autocode/int1e_grids1.c:141 *);
  ("int1e_grids_ipvip_sph", Sreal) (* autocode/int1e_grids1.c:149 *);
  ("int1e_grids_ipvip_spinor", Scplx) (* autocode/int1e_grids1.c:157 *);
  ("int1e_grids_spvsp_optimizer", Sopt) (* autocode/int1e_grids1.c:213 *);
  ("int1e_grids_spvsp_cart", Sreal) (* autocode/int1e_grids1.c:217 *);
  ("int1e_grids_spvsp_sph", Sreal) (* autocode/int1e_grids1.c:225 *);
  ("int1e_grids_spvsp_spinor", Scplx) (* autocode/int1e_grids1.c:233 *);
  ("int1e_grids_ipip_optimizer", Sopt) (* autocode/int1e_grids1.c:299 *);
  ("int1e_grids_ipip_cart", Sreal) (* autocode/int1e_grids1.c:303 *);
  ("int1e_grids_ipip_sph", Sreal) (* autocode/int1e_grids1.c:311 *);
  ("int1e_grids_ipip_spinor", Scplx) (* autocode/int1e_grids1.c:319 *);
  ("int3c1e_p2_optimizer", Sopt) (* autocode/int3c1e.c:47 *);
  ("int3c1e_p2_cart", Sreal) (* autocode/int3c1e.c:51 *);
  ("int3c1e_p2_sph", Sreal) (* autocode/int3c1e.c:60 *);
  ("int3c1e_p2_spinor", Scplx) (* autocode/int3c1e.c:68 *);
  ("int3c1e_iprinv_optimizer", Sopt) (* autocode/int3c1e.c:102 *);
  ("int3c1e_iprinv_cart", Sreal) (* autocode/int3c1e.c:106 *);
  ("int3c1e_iprinv_sph", Sreal) (* autocode/int3c1e.c:115 *);
  ("int3c1e_iprinv_spinor", Scplx) (* autocode/int3c1e.c:123 *);
  ("int3c1e_ip1_optimizer", Sopt) (* autocode/int3c1e.c:157 *);
  ("int3c1e_ip1_cart", Sreal) (* autocode/int3c1e.c:161 *);
  ("int3c1e_ip1_sph", Sreal) (* autocode/int3c1e.c:170 *);
  ("int3c1e_ip1_spinor", Scplx) (* autocode/int3c1e.c:178 *);
  ("int3c2e_ip1_optimizer", Sopt) (* autocode/int3c2e.c:68 *);
  ("int3c2e_ip1_cart", Sreal) (* autocode/int3c2e.c:72 *);
  ("int3c2e_ip1_sph", Sreal) (* autocode/int3c2e.c:80 *);
  ("int3c2e_ip1_spinor", Scplx) (* autocode/int3c2e.c:88 *);
  ("int3c2e_ip2_optimizer", Sopt) (* autocode/int3c2e.c:149 *);
  ("int3c2e_ip2_cart", Sreal) (* autocode/int3c2e.c:153 *);
  ("int3c2e_ip2_sph", Sreal) (* autocode/int3c2e.c:161 *);
  ("int3c2e_ip2_spinor", Scplx) (* autocode/int3c2e.c:169 *);
  ("int3c2e_pvp1_optimizer", Sopt) (* autocode/int3c2e.c:214 *);
  ("int3c2e_pvp1_cart", Sreal) (* autocode/int3c2e.c:218 *);
  ("int3c2e_pvp1_sph", Sreal) (* autocode/int3c2e.c:226 *);
  ("int3c2e_pvp1_spinor", Scplx) (* autocode/int3c2e.c:234 *);
  ("int3c2e_pvxp1_optimizer", Sopt) (* autocode/int3c2e.c:283 *);
  ("int3c2e_pvxp1_cart", Sreal) (* autocode/int3c2e.c:287 *);
  ("int3c2e_pvxp1_sph", Sreal) (* autocode/int3c2e.c:295 *);
  ("int3c2e_pvxp1_spinor", Scplx) (* autocode/int3c2e.c:303 *);
  ("int2c2e_ip1_optimizer", Sopt) (* autocode/int3c2e.c:364 *);
  ("int2c2e_ip1_cart", Sreal) (* autocode/int3c2e.c:368 *);
  ("int2c2e_ip1_sph", Sreal) (* autocode/int3c2e.c:376 *);
  ("int2c2e_ip1_spinor", Scplx) (* autocode/int3c2e.c:384 *);
  ("int2c2e_ip2_optimizer", Sopt) (* autocode/int3c2e.c:442 *);
  ("int2c2e_ip2_cart", Sreal) (* autocode/int3c2e.c:446 *);
  ("int2c2e_ip2_sph", Sreal) (* autocode/int3c2e.c:454 *);
  ("int2c2e_ip2_spinor", Scplx) (* autocode/int3c2e.c:462 *);
  ("int3c2e_ig1_optimizer", Sopt) (* autocode/int3c2e.c:527 *);
  ("int3c2e_ig1_cart", Sreal) (* autocode/int3c2e.c:531 *);
  ("int3c2e_ig1_sph", Sreal) (* autocode/int3c2e.c:552 *);
  ("int3c2e_ig1_spinor", Scplx) (* autocode/int3c2e.c:573 *);
  ("int3c2e_spsp1_optimizer", Sopt) (* autocode/int3c2e.c:637 *);
  ("int3c2e_spsp1_cart", Sreal) (* autocode/int3c2e.c:641 *);
  ("int3c2e_spsp1_sph", Sreal) (* autocode/int3c2e.c:649 *);
  ("int3c2e_spsp1_spinor", Scplx) (* autocode/int3c2e.c:657 *);
  ("int3c2e_ipspsp1_optimizer", Sopt) (* autocode/int3c2e.c:750 *);
  ("int3c2e_ipspsp1_cart", Sreal) (* autocode/int3c2e.c:754 *);
  ("int3c2e_ipspsp1_sph", Sreal) (* autocode/int3c2e.c:762 *);
  ("int3c2e_ipspsp1_spinor", Scplx) (* autocode/int3c2e.c:770 *);
  ("int3c2e_spsp1ip2_optimizer", Sopt) (* autocode/int3c2e.c:863 *);
  ("int3c2e_spsp1ip2_cart", Sreal) (* autocode/int3c2e.c:867 *);
  ("int3c2e_spsp1ip2_sph", Sreal) (* autocode/int3c2e.c:875 *);
  ("int3c2e_spsp1ip2_spinor", Scplx) (* autocode/int3c2e.c:883 *);
  ("int3c2e_ipip1_optimizer", Sopt) (* autocode/int3c2e.c:944 *);
  ("int3c2e_ipip1_cart", Sreal) (* autocode/int3c2e.c:948 *);
  ("int3c2e_ipip1_sph", Sreal) (* autocode/int3c2e.c:956 *);
  ("int3c2e_ipip1_spinor", Scplx) (* autocode/int3c2e.c:964 *);
  ("int3c2e_ipip2_optimizer", Sopt) (* autocode/int3c2e.c:1025 *);
  ("int3c2e_ipip2_cart", Sreal) (* autocode/int3c2e.c:1029 *);
  ("int3c2e_ipip2_sph", Sreal) (* autocode/int3c2e.c:1037 *);
  ("int3c2e_ipip2_spinor", Scplx) (* autocode/int3c2e.c:1045 *);
  ("int3c2e_ipvip1_optimizer", Sopt) (* autocode/int3c2e.c:1106 *);
  ("int3c2e_ipvip1_cart", Sreal) (* autocode/int3c2e.c:1110 *);
  ("int3c2e_ipvip1_sph", Sreal) (* autocode/int3c2e.c:1118 *);
  ("int3c2e_ipvip1_spinor", Scplx) (* autocode/int3c2e.c:1126 *);
  ("int3c2e_ip1ip2_optimizer", Sopt) (* autocode/int3c2e.c:1187 *);
  ("int3c2e_ip1ip2_cart", Sreal) (* autocode/int3c2e.c:1191 *);
  ("int3c2e_ip1ip2_sph", Sreal) (* autocode/int3c2e.c:1199 *);
  ("int3c2e_ip1ip2_spinor", Scplx) (* autocode/int3c2e.c:1207 *);
  ("int2c2e_ipip1_optimizer", Sopt) (* autocode/int3c2e.c:1268 *);
  ("int2c2e_ipip1_cart", Sreal) (* autocode/int3c2e.c:1272 *);
  ("int2c2e_ipip1_sph", Sreal) (* autocode/int3c2e.c:1280 *);
  ("int2c2e_ipip1_spinor", Scplx) (* autocode/int3c2e.c:1288 *);
  ("int2c2e_ip1ip2_optimizer", Sopt) (* autocode/int3c2e.c:1346 *);
  ("int2c2e_ip1ip2_cart", Sreal) (* autocode/int3c2e.c:1350 *);
  ("int2c2e_ip1ip2_sph", Sreal) (* autocode/int3c2e.c:1358 *);
  ("int2c2e_ip1ip2_spinor", Scplx) (* autocode/int3c2e.c:1366 *);
  ("int1e_kin_optimizer", Sopt) (* autocode/intor1.c:47 *);
  ("int1e_kin_cart", Sreal) (* autocode/intor1.c:51 *);
  ("int1e_kin_sph", Sreal) (* autocode/intor1.c:60 *);
  ("int1e_kin_spinor", Scplx) (* autocode/intor1.c:69 *);
  ("int1e_ia01p_optimizer", Sopt) (* autocode/intor1.c:120 *);
  ("int1e_ia01p_cart", Sreal) (* autocode/intor1.c:124 *);
  ("int1e_ia01p_sph", Sreal) (* autocode/intor1.c:132 *);
  ("int1e_ia01p_spinor", Scplx) (* autocode/intor1.c:140 *);
  ("int1e_giao_irjxp_optimizer", Sopt) (* autocode/intor1.c:184 *);
  ("int1e_giao_irjxp_cart", Sreal) (* autocode/intor1.c:188 *);
  ("int1e_giao_irjxp_sph", Sreal) (* autocode/intor1.c:196 *);
  ("int1e_giao_irjxp_spinor", Scplx) (* autocode/intor1.c:204 *);
  ("int1e_cg_irxp_optimizer", Sopt) (* autocode/intor1.c:252 *);
  ("int1e_cg_irxp_cart", Sreal) (* autocode/intor1.c:256 *);
  ("int1e_cg_irxp_sph", Sreal) (* autocode/intor1.c:264 *);
  ("int1e_cg_irxp_spinor", Scplx) (* autocode/intor1.c:272 *);
  ("int1e_giao_a11part_optimizer", Sopt) (* autocode/intor1.c:334 *);
  ("int1e_giao_a11part_cart", Sreal) (* autocode/intor1.c:338 *);
  ("int1e_giao_a11part_sph", Sreal) (* autocode/intor1.c:347 *);
  ("int1e_giao_a11part_spinor", Scplx) (* autocode/intor1.c:356 *);
  ("int1e_cg_a11part_optimizer", Sopt) (* autocode/intor1.c:423 *);
  ("int1e_cg_a11part_cart", Sreal) (* autocode/intor1.c:427 *);
  ("int1e_cg_a11part_sph", Sreal) (* autocode/intor1.c:436 *);
  ("int1e_cg_a11part_spinor", Scplx) (* autocode/intor1.c:445 *);
  ("int1e_a01gp_optimizer", Sopt) (* autocode/intor1.c:541 *);
  ("int1e_a01gp_cart", Sreal) (* autocode/intor1.c:545 *);
  ("int1e_a01gp_sph", Sreal) (* autocode/intor1.c:566 *);
  ("int1e_a01gp_spinor", Scplx) (* autocode/intor1.c:587 *);
  ("int1e_igkin_optimizer", Sopt) (* autocode/intor1.c:677 *);
  ("int1e_igkin_cart", Sreal) (* autocode/intor1.c:681 *);
  ("int1e_igkin_sph", Sreal) (* autocode/intor1.c:702 *);
  ("int1e_igkin_spinor", Scplx) (* autocode/intor1.c:723 *);
  ("int1e_igovlp_optimizer", Sopt) (* autocode/intor1.c:777 *);
  ("int1e_igovlp_cart", Sreal) (* autocode/intor1.c:781 *);
  ("int1e_igovlp_sph", Sreal) (* autocode/intor1.c:802 *);
  ("int1e_igovlp_spinor", Scplx) (* autocode/intor1.c:823 *);
  ("int1e_ignuc_optimizer", Sopt) (* autocode/intor1.c:881 *);
  ("int1e_ignuc_cart", Sreal) (* autocode/intor1.c:885 *);
  ("int1e_ignuc_sph", Sreal) (* autocode/intor1.c:906 *);
  ("int1e_ignuc_spinor", Scplx) (* autocode/intor1.c:927 *);
  ("int1e_pnucp_optimizer", Sopt) (* autocode/intor1.c:984 *);
  ("int1e_pnucp_cart", Sreal) (* autocode/intor1.c:988 *);
  ("int1e_pnucp_sph", Sreal) (* autocode/intor1.c:996 *);
  ("int1e_pnucp_spinor", Scplx) (* autocode/intor1.c:1004 *);
  ("int1e_z_optimizer", Sopt) (* autocode/intor1.c:1038 *);
  ("int1e_z_cart", Sreal) (* autocode/intor1.c:1042 *);
  ("int1e_z_sph", Sreal) (* autocode/intor1.c:1050 *);
  ("int1e_z_spinor", Scplx) (* autocode/intor1.c:1058 *);
  ("int1e_zz_optimizer", Sopt) (* autocode/intor1.c:1102 *);
  ("int1e_zz_cart", Sreal) (* autocode/intor1.c:1106 *);
  ("int1e_zz_sph", Sreal) (* autocode/intor1.c:1114 *);
  ("int1e_zz_spinor", Scplx) (* autocode/intor1.c:1122 *);
  ("int1e_r_optimizer", Sopt) (* autocode/intor1.c:1160 *);
  ("int1e_r_cart", Sreal) (* autocode/intor1.c:1164 *);
  ("int1e_r_sph", Sreal) (* autocode/intor1.c:1172 *);
  ("int1e_r_spinor", Scplx) (* autocode/intor1.c:1180 *);
  ("int1e_r2_optimizer", Sopt) (* autocode/intor1.c:1224 *);
  ("int1e_r2_cart", Sreal) (* autocode/intor1.c:1228 *);
  ("int1e_r2_sph", Sreal) (* autocode/intor1.c:1236 *);
  ("int1e_r2_spinor", Scplx) (* autocode/intor1.c:1244 *);
  ("int1e_r4_optimizer", Sopt) (* autocode/intor1.c:1384 *);
  ("int1e_r4_cart", Sreal) (* autocode/intor1.c:1388 *);
  ("int1e_r4_sph", Sreal) (* autocode/intor1.c:1396 *);
  ("int1e_r4_spinor", Scplx) (* autocode/intor1.c:1404 *);
  ("int1e_rr_optimizer", Sopt) (* autocode/intor1.c:1464 *);
  ("int1e_rr_cart", Sreal) (* autocode/intor1.c:1468 *);
  ("int1e_rr_sph", Sreal) (* autocode/intor1.c:1476 *);
  ("int1e_rr_spinor", Scplx) (* autocode/intor1.c:1484 *);
  ("int1e_rrr_optimizer", Sopt) (* autocode/intor1.c:1606 *);
  ("int1e_rrr_cart", Sreal) (* autocode/intor1.c:1610 *);
  ("int1e_rrr_sph", Sreal) (* autocode/intor1.c:1618 *);
  ("int1e_rrr_spinor", Scplx) (* autocode/intor1.c:1626 *);
  ("int1e_rrrr_optimizer", Sopt) (* autocode/intor1.c:1926 *);
  ("int1e_rrrr_cart", Sreal) (* autocode/intor1.c:1930 *);
  ("int1e_rrrr_sph", Sreal) (* autocode/intor1.c:1938 *);
  ("int1e_rrrr_spinor", Scplx) (* autocode/intor1.c:1946 *);
  ("int1e_z_origj_optimizer", Sopt) (* autocode/intor1.c:1976 *);
  ("int1e_z_origj_cart", Sreal) (* autocode/intor1.c:1980 *);
  ("int1e_z_origj_sph", Sreal) (* autocode/intor1.c:1988 *);
  ("int1e_z_origj_spinor", Scplx) (* autocode/intor1.c:1996 *);
  ("int1e_zz_origj_optimizer", Sopt) (* autocode/intor1.c:2036 *);
  ("int1e_zz_origj_cart", Sreal) (* autocode/intor1.c:2040 *);
  ("int1e_zz_origj_sph", Sreal) (* autocode/intor1.c:2048 *);
  ("int1e_zz_origj_spinor", Scplx) (* autocode/intor1.c:2056 *);
  ("int1e_r_origj_optimizer", Sopt) (* autocode/intor1.c:2090 *);
  ("int1e_r_origj_cart", Sreal) (* autocode/intor1.c:2094 *);
  ("int1e_r_origj_sph", Sreal) (* autocode/intor1.c:2102 *);
  ("int1e_r_origj_spinor", Scplx) (* autocode/intor1.c:2110 *);
  ("int1e_rr_origj_optimizer", Sopt) (* autocode/intor1.c:2166 *);
  ("int1e_rr_origj_cart", Sreal) (* autocode/intor1.c:2170 *);
  ("int1e_rr_origj_sph", Sreal) (* autocode/intor1.c:2178 *);
  ("int1e_rr_origj_spinor", Scplx) (* autocode/intor1.c:2186 *);
  ("int1e_r2_origj_optimizer", Sopt) (* autocode/intor1.c:2226 *);
  ("int1e_r2_origj_cart", Sreal) (* autocode/intor1.c:2230 *);
  ("int1e_r2_origj_sph", Sreal) (* autocode/intor1.c:2238 *);
  ("int1e_r2_origj_spinor", Scplx) (* autocode/intor1.c:2246 *);
  ("int1e_r4_origj_optimizer", Sopt) (* autocode/intor1.c:2382 *);
  ("int1e_r4_origj_cart", Sreal) (* autocode/intor1.c:2386 *);
  ("int1e_r4_origj_sph", Sreal) (* autocode/intor1.c:2394 *);
  ("int1e_r4_origj_spinor", Scplx) (* autocode/intor1.c:2402 *);
  ("int1e_p4_optimizer", Sopt) (* autocode/intor1.c:2538 *);
  ("int1e_p4_cart", Sreal) (* autocode/intor1.c:2542 *);
  ("int1e_p4_sph", Sreal) (* autocode/intor1.c:2550 *);
  ("int1e_p4_spinor", Scplx) (* autocode/intor1.c:2558 *);
  ("int1e_prinvp_optimizer", Sopt) (* autocode/intor1.c:2602 *);
  ("int1e_prinvp_cart", Sreal) (* autocode/intor1.c:2606 *);
  ("int1e_prinvp_sph", Sreal) (* autocode/intor1.c:2614 *);
  ("int1e_prinvp_spinor", Scplx) (* autocode/intor1.c:2622 *);
  ("int1e_prinvxp_optimizer", Sopt) (* autocode/intor1.c:2670 *);
  ("int1e_prinvxp_cart", Sreal) (* autocode/intor1.c:2674 *);
  ("int1e_prinvxp_sph", Sreal) (* autocode/intor1.c:2682 *);
  ("int1e_prinvxp_spinor", Scplx) (* autocode/intor1.c:2690 *);
  ("int1e_pnucxp_optimizer", Sopt) (* autocode/intor1.c:2738 *);
  ("int1e_pnucxp_cart", Sreal) (* autocode/intor1.c:2742 *);
  ("int1e_pnucxp_sph", Sreal) (* autocode/intor1.c:2750 *);
  ("int1e_pnucxp_spinor", Scplx) (* autocode/intor1.c:2758 *);
  ("int1e_irp_optimizer", Sopt) (* autocode/intor1.c:2818 *);
  ("int1e_irp_cart", Sreal) (* autocode/intor1.c:2822 *);
  ("int1e_irp_sph", Sreal) (* autocode/intor1.c:2830 *);
  ("int1e_irp_spinor", Scplx) (* autocode/intor1.c:2838 *);
  ("int1e_irrp_optimizer", Sopt) (* autocode/intor1.c:2960 *);
  ("int1e_irrp_cart", Sreal) (* autocode/intor1.c:2964 *);
  ("int1e_irrp_sph", Sreal) (* autocode/intor1.c:2972 *);
  ("int1e_irrp_spinor", Scplx) (* autocode/intor1.c:2980 *);
  ("int1e_irpr_optimizer", Sopt) (* autocode/intor1.c:3102 *);
  ("int1e_irpr_cart", Sreal) (* autocode/intor1.c:3106 *);
  ("int1e_irpr_sph", Sreal) (* autocode/intor1.c:3114 *);
  ("int1e_irpr_spinor", Scplx) (* autocode/intor1.c:3122 *);
  ("int1e_ggovlp_optimizer", Sopt) (* autocode/intor1.c:3191 *);
  ("int1e_ggovlp_cart", Sreal) (* autocode/intor1.c:3195 *);
  ("int1e_ggovlp_sph", Sreal) (* autocode/intor1.c:3204 *);
  ("int1e_ggovlp_spinor", Scplx) (* autocode/intor1.c:3213 *);
  ("int1e_ggkin_optimizer", Sopt) (* autocode/intor1.c:3379 *);
  ("int1e_ggkin_cart", Sreal) (* autocode/intor1.c:3383 *);
  ("int1e_ggkin_sph", Sreal) (* autocode/intor1.c:3392 *);
  ("int1e_ggkin_spinor", Scplx) (* autocode/intor1.c:3401 *);
  ("int1e_ggnuc_optimizer", Sopt) (* autocode/intor1.c:3475 *);
  ("int1e_ggnuc_cart", Sreal) (* autocode/intor1.c:3479 *);
  ("int1e_ggnuc_sph", Sreal) (* autocode/intor1.c:3488 *);
  ("int1e_ggnuc_spinor", Scplx) (* autocode/intor1.c:3497 *);
  ("int1e_grjxp_optimizer", Sopt) (* autocode/intor1.c:3587 *);
  ("int1e_grjxp_cart", Sreal) (* autocode/intor1.c:3591 *);
  ("int1e_grjxp_sph", Sreal) (* autocode/intor1.c:3600 *);
  ("int1e_grjxp_spinor", Scplx) (* autocode/intor1.c:3609 *);
  ("int1e_rinv_optimizer", Sopt) (* autocode/intor1.c:3640 *);
  ("int1e_rinv_cart", Sreal) (* autocode/intor1.c:3644 *);
  ("int1e_rinv_sph", Sreal) (* autocode/intor1.c:3652 *);
  ("int1e_rinv_spinor", Scplx) (* autocode/intor1.c:3660 *);
  ("int1e_drinv_optimizer", Sopt) (* autocode/intor1.c:3701 *);
  ("int1e_drinv_cart", Sreal) (* autocode/intor1.c:3705 *);
  ("int1e_drinv_sph", Sreal) (* autocode/intor1.c:3713 *);
  ("int1e_drinv_spinor", Scplx) (* autocode/intor1.c:3721 *);
  ("int2e_ig1_optimizer", Sopt) (* autocode/intor2.c:77 *);
  ("int2e_ig1_cart", Sreal) (* autocode/intor2.c:81 *);
  ("int2e_ig1_sph", Sreal) (* autocode/intor2.c:102 *);
  ("int2e_ig1_spinor", Scplx) (* autocode/intor2.c:123 *);
  ("int2e_gg1_optimizer", Sopt) (* autocode/intor2.c:212 *);
  ("int2e_gg1_cart", Sreal) (* autocode/intor2.c:216 *);
  ("int2e_gg1_sph", Sreal) (* autocode/intor2.c:237 *);
  ("int2e_gg1_spinor", Scplx) (* autocode/intor2.c:258 *);
  ("int2e_g1g2_optimizer", Sopt) (* autocode/intor2.c:351 *);
  ("int2e_g1g2_cart", Sreal) (* autocode/intor2.c:355 *);
  ("int2e_g1g2_sph", Sreal) (* autocode/intor2.c:386 *);
  ("int2e_g1g2_spinor", Scplx) (* autocode/intor2.c:417 *);
  ("int2e_p1vxp1_optimizer", Sopt) (* autocode/intor2.c:490 *);
  ("int2e_p1vxp1_cart", Sreal) (* autocode/intor2.c:494 *);
  ("int2e_p1vxp1_sph", Sreal) (* autocode/intor2.c:502 *);
  ("int2e_p1vxp1_spinor", Scplx) (* autocode/intor2.c:510 *);
  ("int2e_ip1v_rc1_optimizer", Sopt) (* autocode/intor2.c:578 *);
  ("int2e_ip1v_rc1_cart", Sreal) (* autocode/intor2.c:582 *);
  ("int2e_ip1v_rc1_sph", Sreal) (* autocode/intor2.c:590 *);
  ("int2e_ip1v_rc1_spinor", Scplx) (* autocode/intor2.c:598 *);
  ("int2e_ip1v_r1_optimizer", Sopt) (* autocode/intor2.c:662 *);
  ("int2e_ip1v_r1_cart", Sreal) (* autocode/intor2.c:666 *);
  ("int2e_ip1v_r1_sph", Sreal) (* autocode/intor2.c:674 *);
  ("int2e_ip1v_r1_spinor", Scplx) (* autocode/intor2.c:682 *);
  ("int2e_ipvg1_xp1_optimizer", Sopt) (* autocode/intor2.c:780 *);
  ("int2e_ipvg1_xp1_cart", Sreal) (* autocode/intor2.c:784 *);
  ("int2e_ipvg1_xp1_sph", Sreal) (* autocode/intor2.c:805 *);
  ("int2e_ipvg1_xp1_spinor", Scplx) (* autocode/intor2.c:826 *);
  ("int2e_ipvg2_xp1_optimizer", Sopt) (* autocode/intor2.c:939 *);
  ("int2e_ipvg2_xp1_cart", Sreal) (* autocode/intor2.c:943 *);
  ("int2e_ipvg2_xp1_sph", Sreal) (* autocode/intor2.c:964 *);
  ("int2e_ipvg2_xp1_spinor", Scplx) (* autocode/intor2.c:985 *);
  ("int1e_inuc_rcxp_optimizer", Sopt) (* autocode/intor2.c:1050 *);
  ("int1e_inuc_rcxp_cart", Sreal) (* autocode/intor2.c:1054 *);
  ("int1e_inuc_rcxp_sph", Sreal) (* autocode/intor2.c:1062 *);
  ("int1e_inuc_rcxp_spinor", Scplx) (* autocode/intor2.c:1070 *);
  ("int1e_inuc_rxp_optimizer", Sopt) (* autocode/intor2.c:1118 *);
  ("int1e_inuc_rxp_cart", Sreal) (* autocode/intor2.c:1122 *);
  ("int1e_inuc_rxp_sph", Sreal) (* autocode/intor2.c:1130 *);
  ("int1e_inuc_rxp_spinor", Scplx) (* autocode/intor2.c:1138 *);
  ("int1e_sigma_optimizer", Sopt) (* autocode/intor3.c:55 *);
  ("int1e_sigma_cart", Sreal) (* autocode/intor3.c:59 *);
  ("int1e_sigma_sph", Sreal) (* autocode/intor3.c:67 *);
  ("int1e_sigma_spinor", Scplx) (* autocode/intor3.c:75 *);
  ("int1e_spsigmasp_optimizer", Sopt) (* autocode/intor3.c:137 *);
  ("int1e_spsigmasp_cart", Sreal) (* autocode/intor3.c:141 *);
  ("int1e_spsigmasp_sph", Sreal) (* autocode/intor3.c:149 *);
  ("int1e_spsigmasp_spinor", Scplx) (* autocode/intor3.c:157 *);
  ("int1e_srsr_optimizer", Sopt) (* autocode/intor3.c:203 *);
  ("int1e_srsr_cart", Sreal) (* autocode/intor3.c:207 *);
  ("int1e_srsr_sph", Sreal) (* autocode/intor3.c:215 *);
  ("int1e_srsr_spinor", Scplx) (* autocode/intor3.c:223 *);
  ("int1e_sr_optimizer", Sopt) (* autocode/intor3.c:259 *);
  ("int1e_sr_cart", Sreal) (* autocode/intor3.c:263 *);
  ("int1e_sr_sph", Sreal) (* autocode/intor3.c:271 *);
  ("int1e_sr_spinor", Scplx) (* autocode/intor3.c:279 *);
  ("int1e_srsp_optimizer", Sopt) (* autocode/intor3.c:325 *);
  ("int1e_srsp_cart", Sreal) (* autocode/intor3.c:329 *);
  ("int1e_srsp_sph", Sreal) (* autocode/intor3.c:337 *);
  ("int1e_srsp_spinor", Scplx) (* autocode/intor3.c:345 *);
  ("int1e_spsp_optimizer", Sopt) (* autocode/intor3.c:385 *);
  ("int1e_spsp_cart", Sreal) (* autocode/intor3.c:389 *);
  ("int1e_spsp_sph", Sreal) (* autocode/intor3.c:397 *);
  ("int1e_spsp_spinor", Scplx) (* autocode/intor3.c:405 *);
  ("int1e_sp_optimizer", Sopt) (* autocode/intor3.c:441 *);
  ("int1e_sp_cart", Sreal) (* autocode/intor3.c:445 *);
  ("int1e_sp_sph", Sreal) (* autocode/intor3.c:453 *);
  ("int1e_sp_spinor", Scplx) (* autocode/intor3.c:461 *);
  ("int1e_spnucsp_optimizer", Sopt) (* autocode/intor3.c:511 *);
  ("int1e_spnucsp_cart", Sreal) (* autocode/intor3.c:515 *);
  ("int1e_spnucsp_sph", Sreal) (* autocode/intor3.c:523 *);
  ("int1e_spnucsp_spinor", Scplx) (* autocode/intor3.c:531 *);
  ("int1e_sprinvsp_optimizer", Sopt) (* autocode/intor3.c:581 *);
  ("int1e_sprinvsp_cart", Sreal) (* autocode/intor3.c:585 *);
  ("int1e_sprinvsp_sph", Sreal) (* autocode/intor3.c:593 *);
  ("int1e_sprinvsp_spinor", Scplx) (* autocode/intor3.c:601 *);
  ("int1e_srnucsr_optimizer", Sopt) (* autocode/intor3.c:651 *);
  ("int1e_srnucsr_cart", Sreal) (* autocode/intor3.c:655 *);
  ("int1e_srnucsr_sph", Sreal) (* autocode/intor3.c:663 *);
  ("int1e_srnucsr_spinor", Scplx) (* autocode/intor3.c:671 *);
  ("int1e_sprsp_optimizer", Sopt) (* autocode/intor3.c:763 *);
  ("int1e_sprsp_cart", Sreal) (* autocode/intor3.c:767 *);
  ("int1e_sprsp_sph", Sreal) (* autocode/intor3.c:775 *);
  ("int1e_sprsp_spinor", Scplx) (* autocode/intor3.c:783 *);
  ("int1e_govlp_optimizer", Sopt) (* autocode/intor3.c:824 *);
  ("int1e_govlp_cart", Sreal) (* autocode/intor3.c:828 *);
  ("int1e_govlp_sph", Sreal) (* autocode/intor3.c:849 *);
  ("int1e_govlp_spinor", Scplx) (* autocode/intor3.c:870 *);
  ("int1e_gnuc_optimizer", Sopt) (* autocode/intor3.c:928 *);
  ("int1e_gnuc_cart", Sreal) (* autocode/intor3.c:932 *);
  ("int1e_gnuc_sph", Sreal) (* autocode/intor3.c:953 *);
  ("int1e_gnuc_spinor", Scplx) (* autocode/intor3.c:974 *);
  ("int1e_cg_sa10sa01_optimizer", Sopt) (* autocode/intor3.c:1107 *);
  ("int1e_cg_sa10sa01_cart", Sreal) (* autocode/intor3.c:1111 *);
  ("int1e_cg_sa10sa01_sph", Sreal) (* autocode/intor3.c:1120 *);
  ("int1e_cg_sa10sa01_spinor", Scplx) (* autocode/intor3.c:1129 *);
  ("int1e_cg_sa10sp_optimizer", Sopt) (* autocode/intor3.c:1196 *);
  ("int1e_cg_sa10sp_cart", Sreal) (* autocode/intor3.c:1200 *);
  ("int1e_cg_sa10sp_sph", Sreal) (* autocode/intor3.c:1209 *);
  ("int1e_cg_sa10sp_spinor", Scplx) (* autocode/intor3.c:1218 *);
  ("int1e_cg_sa10nucsp_optimizer", Sopt) (* autocode/intor3.c:1289 *);
  ("int1e_cg_sa10nucsp_cart", Sreal) (* autocode/intor3.c:1293 *);
  ("int1e_cg_sa10nucsp_sph", Sreal) (* autocode/intor3.c:1302 *);
  ("int1e_cg_sa10nucsp_spinor", Scplx) (* autocode/intor3.c:1311 *);
  ("int1e_giao_sa10sa01_optimizer", Sopt) (* autocode/intor3.c:1428 *);
  ("int1e_giao_sa10sa01_cart", Sreal) (* autocode/intor3.c:1432 *);
  ("int1e_giao_sa10sa01_sph", Sreal) (* autocode/intor3.c:1441 *);
  ("int1e_giao_sa10sa01_spinor", Scplx) (* autocode/intor3.c:1450 *);
  ("int1e_giao_sa10sp_optimizer", Sopt) (* autocode/intor3.c:1513 *);
  ("int1e_giao_sa10sp_cart", Sreal) (* autocode/intor3.c:1517 *);
  ("int1e_giao_sa10sp_sph", Sreal) (* autocode/intor3.c:1526 *);
  ("int1e_giao_sa10sp_spinor", Scplx) (* autocode/intor3.c:1535 *);
  ("int1e_giao_sa10nucsp_optimizer", Sopt) (* autocode/intor3.c:1602 *);
  ("int1e_giao_sa10nucsp_cart", Sreal) (* autocode/intor3.c:1606 *);
  ("int1e_giao_sa10nucsp_sph", Sreal) (* autocode/intor3.c:1615 *);
  ("int1e_giao_sa10nucsp_spinor", Scplx) (* autocode/intor3.c:1624 *);
  ("int1e_sa01sp_optimizer", Sopt) (* autocode/intor3.c:1693 *);
  ("int1e_sa01sp_cart", Sreal) (* autocode/intor3.c:1697 *);
  ("int1e_sa01sp_sph", Sreal) (* autocode/intor3.c:1705 *);
  ("int1e_sa01sp_spinor", Scplx) (* autocode/intor3.c:1713 *);
  ("int1e_spgsp_optimizer", Sopt) (* autocode/intor3.c:1808 *);
  ("int1e_spgsp_cart", Sreal) (* autocode/intor3.c:1812 *);
  ("int1e_spgsp_sph", Sreal) (* autocode/intor3.c:1833 *);
  ("int1e_spgsp_spinor", Scplx) (* autocode/intor3.c:1854 *);
  ("int1e_spgnucsp_optimizer", Sopt) (* autocode/intor3.c:1966 *);
  ("int1e_spgnucsp_cart", Sreal) (* autocode/intor3.c:1970 *);
  ("int1e_spgnucsp_sph", Sreal) (* autocode/intor3.c:1991 *);
  ("int1e_spgnucsp_spinor", Scplx) (* autocode/intor3.c:2012 *);
  ("int1e_spgsa01_optimizer", Sopt) (* autocode/intor3.c:2174 *);
  ("int1e_spgsa01_cart", Sreal) (* autocode/intor3.c:2178 *);
  ("int1e_spgsa01_sph", Sreal) (* autocode/intor3.c:2199 *);
  ("int1e_spgsa01_spinor", Scplx) (* autocode/intor3.c:2220 *);
  ("int2e_spsp1_optimizer", Sopt) (* autocode/intor4.c:59 *);
  ("int2e_spsp1_cart", Sreal) (* autocode/intor4.c:63 *);
  ("int2e_spsp1_sph", Sreal) (* autocode/intor4.c:71 *);
  ("int2e_spsp1_spinor", Scplx) (* autocode/intor4.c:79 *);
  ("int2e_spsp1spsp2_optimizer", Sopt) (* autocode/intor4.c:251 *);
  ("int2e_spsp1spsp2_cart", Sreal) (* autocode/intor4.c:255 *);
  ("int2e_spsp1spsp2_sph", Sreal) (* autocode/intor4.c:263 *);
  ("int2e_spsp1spsp2_spinor", Scplx) (* autocode/intor4.c:271 *);
  ("int2e_srsr1_optimizer", Sopt) (* autocode/intor4.c:323 *);
  ("int2e_srsr1_cart", Sreal) (* autocode/intor4.c:327 *);
  ("int2e_srsr1_sph", Sreal) (* autocode/intor4.c:335 *);
  ("int2e_srsr1_spinor", Scplx) (* autocode/intor4.c:343 *);
  ("int2e_srsr1srsr2_optimizer", Sopt) (* autocode/intor4.c:515 *);
  ("int2e_srsr1srsr2_cart", Sreal) (* autocode/intor4.c:519 *);
  ("int2e_srsr1srsr2_sph", Sreal) (* autocode/intor4.c:527 *);
  ("int2e_srsr1srsr2_spinor", Scplx) (* autocode/intor4.c:535 *);
  ("int2e_cg_sa10sp1_optimizer", Sopt) (* autocode/intor4.c:607 *);
  ("int2e_cg_sa10sp1_cart", Sreal) (* autocode/intor4.c:611 *);
  ("int2e_cg_sa10sp1_sph", Sreal) (* autocode/intor4.c:620 *);
  ("int2e_cg_sa10sp1_spinor", Scplx) (* autocode/intor4.c:629 *);
  ("int2e_cg_sa10sp1spsp2_optimizer", Sopt) (* autocode/intor4.c:870 *);
  ("int2e_cg_sa10sp1spsp2_cart", Sreal) (* autocode/intor4.c:874 *);
  ("int2e_cg_sa10sp1spsp2_sph", Sreal) (* autocode/intor4.c:883 *);
  ("int2e_cg_sa10sp1spsp2_spinor", Scplx) (* autocode/intor4.c:892 *);
  ("int2e_giao_sa10sp1_optimizer", Sopt) (* autocode/intor4.c:961 *);
  ("int2e_giao_sa10sp1_cart", Sreal) (* autocode/intor4.c:965 *);
  ("int2e_giao_sa10sp1_sph", Sreal) (* autocode/intor4.c:974 *);
  ("int2e_giao_sa10sp1_spinor", Scplx) (* autocode/intor4.c:983 *);
  ("int2e_giao_sa10sp1spsp2_optimizer", Sopt) (* autocode/intor4.c:1220 *);
  ("int2e_giao_sa10sp1spsp2_cart", Sreal) (* autocode/intor4.c:1224 *);
  ("int2e_giao_sa10sp1spsp2_sph", Sreal) (* autocode/intor4.c:1233 *);
  ("int2e_giao_sa10sp1spsp2_spinor", Scplx) (* autocode/intor4.c:1242 *);
  ("int2e_g1_optimizer", Sopt) (* autocode/intor4.c:1313 *);
  ("int2e_g1_cart", Sreal) (* autocode/intor4.c:1317 *);
  ("int2e_g1_sph", Sreal) (* autocode/intor4.c:1338 *);
  ("int2e_g1_spinor", Scplx) (* autocode/intor4.c:1359 *);
  ("int2e_spgsp1_optimizer", Sopt) (* autocode/intor4.c:1474 *);
  ("int2e_spgsp1_cart", Sreal) (* autocode/intor4.c:1478 *);
  ("int2e_spgsp1_sph", Sreal) (* autocode/intor4.c:1499 *);
  ("int2e_spgsp1_spinor", Scplx) (* autocode/intor4.c:1520 *);
  ("int2e_g1spsp2_optimizer", Sopt) (* autocode/intor4.c:1635 *);
  ("int2e_g1spsp2_cart", Sreal) (* autocode/intor4.c:1639 *);
  ("int2e_g1spsp2_sph", Sreal) (* autocode/intor4.c:1660 *);
  ("int2e_g1spsp2_spinor", Scplx) (* autocode/intor4.c:1681 *);
  ("int2e_spgsp1spsp2_optimizer", Sopt) (* autocode/intor4.c:2132 *);
  ("int2e_spgsp1spsp2_cart", Sreal) (* autocode/intor4.c:2136 *);
  ("int2e_spgsp1spsp2_sph", Sreal) (* autocode/intor4.c:2157 *);
  ("int2e_spgsp1spsp2_spinor", Scplx) (* autocode/intor4.c:2178 *);
  ("int2e_pp1_optimizer", Sopt) (* autocode/intor4.c:2237 *);
  ("int2e_pp1_cart", Sreal) (* autocode/intor4.c:2241 *);
  ("int2e_pp1_sph", Sreal) (* autocode/intor4.c:2249 *);
  ("int2e_pp1_spinor", Scplx) (* autocode/intor4.c:2257 *);
  ("int2e_pp2_optimizer", Sopt) (* autocode/intor4.c:2303 *);
  ("int2e_pp2_cart", Sreal) (* autocode/intor4.c:2307 *);
  ("int2e_pp2_sph", Sreal) (* autocode/intor4.c:2315 *);
  ("int2e_pp2_spinor", Scplx) (* autocode/intor4.c:2323 *);
  ("int2e_pp1pp2_optimizer", Sopt) (* autocode/intor4.c:2465 *);
  ("int2e_pp1pp2_cart", Sreal) (* autocode/intor4.c:2469 *);
  ("int2e_pp1pp2_sph", Sreal) (* autocode/intor4.c:2477 *);
  ("int2e_pp1pp2_spinor", Scplx) (* autocode/intor4.c:2485 *);
  ("int1e_iprinvr_optimizer", Sopt) (* autocode/lresc.c:67 *);
  ("int1e_iprinvr_cart", Sreal) (* autocode/lresc.c:71 *);
  ("int1e_iprinvr_sph", Sreal) (* autocode/lresc.c:79 *);
  ("int1e_iprinvr_spinor", Scplx) (* autocode/lresc.c:87 *);
  ("int1e_iprinviprip_optimizer", Sopt) (* autocode/lresc.c:387 *);
  ("int1e_iprinviprip_cart", Sreal) (* autocode/lresc.c:391 *);
  ("int1e_iprinviprip_sph", Sreal) (* autocode/lresc.c:399 *);
  ("int1e_iprinviprip_spinor", Scplx) (* autocode/lresc.c:407 *);
  ("int1e_rinvipiprip_optimizer", Sopt) (* autocode/lresc.c:707 *);
  ("int1e_rinvipiprip_cart", Sreal) (* autocode/lresc.c:711 *);
  ("int1e_rinvipiprip_sph", Sreal) (* autocode/lresc.c:719 *);
  ("int1e_rinvipiprip_spinor", Scplx) (* autocode/lresc.c:727 *);
  ("int1e_ipiprinvrip_optimizer", Sopt) (* autocode/lresc.c:1027 *);
  ("int1e_ipiprinvrip_cart", Sreal) (* autocode/lresc.c:1031 *);
  ("int1e_ipiprinvrip_sph", Sreal) (* autocode/lresc.c:1039 *);
  ("int1e_ipiprinvrip_spinor", Scplx) (* autocode/lresc.c:1047 *);
  ("int2e_breit_r1p2_optimizer", Sopt) (* breit.c:199 *);
  ("int2e_breit_r1p2_cart", Sreal) (* breit.c:203 *);
  ("int2e_breit_r1p2_sph", Sreal) (* breit.c:211 *);
  ("int2e_breit_r1p2_spinor", Scplx) (* breit.c:219 *);
  ("int2e_breit_r2p2_optimizer", Sopt) (* breit.c:288 *);
  ("int2e_breit_r2p2_cart", Sreal) (* breit.c:292 *);
  ("int2e_breit_r2p2_sph", Sreal) (* breit.c:300 *);
  ("int2e_breit_r2p2_spinor", Scplx) (* breit.c:308 *);
  ("int1e_ovlp_sph", Sreal) (* cint1e.c:360 *);
  ("int1e_ovlp_cart", Sreal) (* cint1e.c:370 *);
  ("int1e_ovlp_spinor", Scplx) (* cint1e.c:380 *);
  ("int1e_ovlp_optimizer", Sopt) (* cint1e.c:390 *);
  ("int1e_nuc_sph", Sreal) (* cint1e.c:396 *);
  ("int1e_nuc_cart", Sreal) (* cint1e.c:406 *);
  ("int1e_nuc_spinor", Scplx) (* cint1e.c:416 *);
  ("int1e_nuc_optimizer", Sopt) (* cint1e.c:426 *);
  ("int1e_r2_origi_optimizer", Sopt) (* cint1e_a.c:43 *);
  ("int1e_r2_origi_cart", Sreal) (* cint1e_a.c:47 *);
  ("int1e_r2_origi_sph", Sreal) (* cint1e_a.c:55 *);
  ("int1e_r2_origi_spinor", Scplx) (* cint1e_a.c:63 *);
  ("int1e_r4_origi_optimizer", Sopt) (* cint1e_a.c:119 *);
  ("int1e_r4_origi_cart", Sreal) (* cint1e_a.c:123 *);
  ("int1e_r4_origi_sph", Sreal) (* cint1e_a.c:131 *);
  ("int1e_r4_origi_spinor", Scplx) (* cint1e_a.c:139 *);
  ("int1e_r2_origi_ip2_optimizer", Sopt) (* cint1e_a.c:186 *);
  ("int1e_r2_origi_ip2_cart", Sreal) (* cint1e_a.c:190 *);
  ("int1e_r2_origi_ip2_sph", Sreal) (* cint1e_a.c:198 *);
  ("int1e_r2_origi_ip2_spinor", Scplx) (* cint1e_a.c:206 *);
  ("int1e_r4_origi_ip2_optimizer", Sopt) (* cint1e_a.c:288 *);
  ("int1e_r4_origi_ip2_cart", Sreal) (* cint1e_a.c:292 *);
  ("int1e_r4_origi_ip2_sph", Sreal) (* cint1e_a.c:300 *);
  ("int1e_r4_origi_ip2_spinor", Scplx) (* cint1e_a.c:308 *);
  ("int1e_grids_sph", Sreal) (* cint1e_grids.c:331 *);
  ("int1e_grids_optimizer", Sopt) (* cint1e_grids.c:341 *);
  ("int1e_grids_cart", Sreal) (* cint1e_grids.c:348 *);
  ("int1e_grids_spinor", Scplx) (* cint1e_grids.c:358 *);
  ("int2c2e_sph", Sreal) (* cint2c2e.c:351 *);
  ("int2c2e_optimizer", Sopt) (* cint2c2e.c:360 *);
  ("int2c2e_cart", Sreal) (* cint2c2e.c:367 *);
  ("int2c2e_spinor", Scplx) (* cint2c2e.c:377 *);
  ("int2e_sph", Sreal) (* cint2e.c:1186 *);
  ("int2e_optimizer", Sopt) (* cint2e.c:1195 *);
  ("int2e_cart", Sreal) (* cint2e.c:1202 *);
  ("int2e_spinor", Scplx) (* cint2e.c:1215 *);
  ("int2e_stg_sph", Sreal) (* cint2e_f12.c:12 *);
  ("int2e_stg_optimizer", Sopt) (* cint2e_f12.c:21 *);
  ("int2e_yp_sph", Sreal) (* cint2e_f12.c:28 *);
  ("int2e_yp_optimizer", Sopt) (* cint2e_f12.c:37 *);
  ("int2e_yp_ip1_optimizer", Sopt) (* cint2e_f12.c:65 *);
  ("int2e_yp_ip1_sph", Sreal) (* cint2e_f12.c:70 *);
  ("int2e_stg_ip1_optimizer", Sopt) (* cint2e_f12.c:80 *);
  ("int2e_stg_ip1_sph", Sreal) (* cint2e_f12.c:85 *);
  ("int2e_yp_ipip1_optimizer", Sopt) (* cint2e_f12.c:101 *);
  ("int2e_yp_ipip1_sph", Sreal) (* cint2e_f12.c:106 *);
  ("int2e_stg_ipip1_optimizer", Sopt) (* cint2e_f12.c:116 *);
  ("int2e_stg_ipip1_sph", Sreal) (* cint2e_f12.c:121 *);
  ("int2e_yp_ipvip1_optimizer", Sopt) (* cint2e_f12.c:137 *);
  ("int2e_yp_ipvip1_sph", Sreal) (* cint2e_f12.c:142 *);
  ("int2e_stg_ipvip1_optimizer", Sopt) (* cint2e_f12.c:152 *);
  ("int2e_stg_ipvip1_sph", Sreal) (* cint2e_f12.c:157 *);
  ("int2e_yp_ip1ip2_optimizer", Sopt) (* cint2e_f12.c:173 *);
  ("int2e_yp_ip1ip2_sph", Sreal) (* cint2e_f12.c:178 *);
  ("int2e_stg_ip1ip2_optimizer", Sopt) (* cint2e_f12.c:188 *);
  ("int2e_stg_ip1ip2_sph", Sreal) (* cint2e_f12.c:193 *);
  ("int3c1e_sph", Sreal) (* cint3c1e.c:459 *);
  ("int3c1e_optimizer", Sopt) (* cint3c1e.c:468 *);
  ("int3c1e_cart", Sreal) (* cint3c1e.c:474 *);
  ("int3c1e_spinor", Scplx) (* cint3c1e.c:484 *);
  ("int3c1e_rinv_sph", Sreal) (* cint3c1e.c:494 *);
  ("int3c1e_rinv_optimizer", Sopt) (* cint3c1e.c:503 *);
  ("int3c1e_rinv_cart", Sreal) (* cint3c1e.c:509 *);
  ("int3c1e_rinv_spinor", Scplx) (* cint3c1e.c:519 *);
  ("int3c1e_r2_origk_optimizer", Sopt) (* cint3c1e_a.c:43 *);
  ("int3c1e_r2_origk_cart", Sreal) (* cint3c1e_a.c:47 *);
  ("int3c1e_r2_origk_sph", Sreal) (* cint3c1e_a.c:55 *);
  ("int3c1e_r2_origk_spinor", Scplx) (* cint3c1e_a.c:63 *);
  ("int3c1e_r4_origk_optimizer", Sopt) (* cint3c1e_a.c:121 *);
  ("int3c1e_r4_origk_cart", Sreal) (* cint3c1e_a.c:125 *);
  ("int3c1e_r4_origk_sph", Sreal) (* cint3c1e_a.c:133 *);
  ("int3c1e_r4_origk_spinor", Scplx) (* cint3c1e_a.c:141 *);
  ("int3c1e_r6_origk_optimizer", Sopt) (* cint3c1e_a.c:257 *);
  ("int3c1e_r6_origk_cart", Sreal) (* cint3c1e_a.c:261 *);
  ("int3c1e_r6_origk_sph", Sreal) (* cint3c1e_a.c:269 *);
  ("int3c1e_r6_origk_spinor", Scplx) (* cint3c1e_a.c:277 *);
  ("int3c1e_ip1_r2_origk_optimizer", Sopt) (* cint3c1e_a.c:329 *);
  ("int3c1e_ip1_r2_origk_cart", Sreal) (* cint3c1e_a.c:333 *);
  ("int3c1e_ip1_r2_origk_sph", Sreal) (* cint3c1e_a.c:342 *);
  ("int3c1e_ip1_r2_origk_spinor", Scplx) (* cint3c1e_a.c:350 *);
  ("int3c1e_ip1_r4_origk_optimizer", Sopt) (* cint3c1e_a.c:432 *);
  ("int3c1e_ip1_r4_origk_cart", Sreal) (* cint3c1e_a.c:436 *);
  ("int3c1e_ip1_r4_origk_sph", Sreal) (* cint3c1e_a.c:445 *);
  ("int3c1e_ip1_r4_origk_spinor", Scplx) (* cint3c1e_a.c:453 *);
  ("int3c1e_ip1_r6_origk_optimizer", Sopt) (* cint3c1e_a.c:645 *);
  ("int3c1e_ip1_r6_origk_cart", Sreal) (* cint3c1e_a.c:649 *);
  ("int3c1e_ip1_r6_origk_sph", Sreal) (* cint3c1e_a.c:658 *);
  ("int3c1e_ip1_r6_origk_spinor", Scplx) (* cint3c1e_a.c:666 *);
  ("int3c2e_sph", Sreal) (* cint3c2e.c:693 *);
  ("int3c2e_optimizer", Sopt) (* cint3c2e.c:702 *);
  ("int3c2e_cart", Sreal) (* cint3c2e.c:709 *);
  ("int3c2e_spinor", Scplx) (* cint3c2e.c:719 *);
  ("int3c2e_sph_ssc", Sreal) (* cint3c2e.c:729 *);
  ("int3c2e_spinor_ssc", Scplx) (* cint3c2e.c:738 *);
  ("int3c2e_spsp1_spinor_ssc", Scplx) (* cint3c2e.c:750 *);
  ("int3c2e_ssc_optimizer", Sopt) (* cint3c2e.c:759 *);
  ("int4c1e_sph", Sreal) (* cint4c1e.c:324 *);
  ("int4c1e_optimizer", Sopt) (* cint4c1e.c:333 *);
  ("int4c1e_cart", Sreal) (* cint4c1e.c:339 *);
  ("int4c1e_spinor", Scplx) (* cint4c1e.c:349 *);
  ("int2e_breit_ssp1ssp2_spinor", Scplx) (* breit.c:35, BREIT0 *);
  ("int2e_breit_ssp1ssp2_optimizer", Sopt) (* breit.c:30, BREIT0 *);
  ("int2e_breit_ssp1sps2_spinor", Scplx) (* breit.c:35, BREIT0 *);
  ("int2e_breit_ssp1sps2_optimizer", Sopt) (* breit.c:30, BREIT0 *);
  ("int2e_breit_sps1ssp2_spinor", Scplx) (* breit.c:35, BREIT0 *);
  ("int2e_breit_sps1ssp2_optimizer", Sopt) (* breit.c:30, BREIT0 *);
  ("int2e_breit_sps1sps2_spinor", Scplx) (* breit.c:35, BREIT0 *);
  ("int2e_breit_sps1sps2_optimizer", Sopt) (* breit.c:30, BREIT0 *)
].

(** All the wrappers of the library (build options at their defaults). *)
Definition program : list func :=
  (flat_map (fun kn => expand (fst kn) (snd kn)) instances ++ c2f_functions)%list.
