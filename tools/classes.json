[
[
"K1_451",
"descr",
"sec_451",
"rep_descr",
"inv_descr",
"C36_section",
1,
451
],
[
"K1_452",
"mult",
"sec_452",
"rep_mult",
"inv_mult",
"C37_mt452",
1,
452
],
[
"K1_455",
"decay * mult",
"sec_455",
"(fun b => rep_decay_data (fst b) /\\ rep_mult (snd b))",
"(fun b => inv_decay_data (fst b) /\\ inv_mult (snd b))",
"C37_mt455",
1,
455
],
[
"K1_456",
"mult",
"sec_456",
"rep_mult",
"inv_mult",
"C37_mt456",
1,
456
],
[
"K1_458",
"fission_q",
"sec_458",
"rep_fission_q",
"inv_fission_q",
"C45_mt458",
1,
458
],
[
"K1_460",
"photons",
"sec_460",
"rep_photons",
"inv_photons",
"C45_mt460",
1,
460
],
[
"K2_151",
"list resisotope",
"sec_2_151",
"(Forall rep_resisotope)",
"(some_of inv_resisotope)",
"C46_mf2_151",
2,
151,
"tame151 t",
"C46_mf2_151_safe"
],
[
"K2_152",
"shielding",
"sec_2_152",
"rep_152",
"inv_152",
"C46_mf2_152",
2,
152,
"tame152 (smat d) t",
"C46_mf2_152_safe"
],
[
"K3",
"tab1",
"sec_3",
"rep_tab1",
"inv_tab1",
"C38_mf3",
3,
null
],
[
"K23",
"tab1",
"sec_23",
"rep_tab1",
"inv_tab1",
"C38_mf23",
23,
null
],
[
"K27",
"tab1",
"sec_27",
"rep_tab1",
"inv_tab1",
"C38_mf27",
27,
null
],
[
"K4",
"body4",
"sec_4",
"rep_body4",
"inv_body4",
"C47_mf4",
4,
null
],
[
"K5",
"list partial5",
"sec_5",
"(Forall rep_p5)",
"(some_of inv_p5)",
"C48_mf5",
5,
null
],
[
"K6",
"body6",
"sec_6",
"rep_body6",
"inv_body6",
"C49_mf6",
6,
null,
"tame6 (smat d) (smt d) t",
"C49_mf6_safe"
],
[
"K7_2",
"elastic",
"sec_7_2",
"rep_elastic",
"inv_elastic",
"C50_mf7_2",
7,
2
],
[
"K7_4",
"thermal",
"sec_7_4",
"rep_thermal",
"inv_thermal",
"C50_mf7_4",
7,
4,
"tame74 t",
"C50_mf7_4_safe"
],
[
"K7_451",
"list listr",
"sec_7_451",
"(Forall endf_list)",
"(some_of inv_element)",
"C50_mf7_451",
7,
451,
"tame7451 (smt d) t",
"C50_mf7_451_safe"
],
[
"K8_454",
"list listr",
"sec_8_454",
"(Forall endf_list)",
"(many_of inv_yield)",
"C51_mf8_454",
8,
454,
"tame_yields 454 t",
"C51_mf8_454_safe"
],
[
"K8_457",
"decay8",
"sec_8_457",
"rep_decay8",
"inv_decay8",
"C51_mf8_457",
8,
457,
"tame457 t",
"C51_mf8_457_safe"
],
[
"K8_459",
"list listr",
"sec_8_459",
"(Forall endf_list)",
"(many_of inv_yield)",
"C51_mf8_459",
8,
459,
"tame_yields 459 t",
"C51_mf8_459_safe"
],
[
"K9",
"levels",
"sec_9",
"rep_levels",
"inv_levels",
"C52_mf9",
9,
null
],
[
"K10",
"levels",
"sec_10",
"rep_levels",
"inv_levels",
"C52_mf10",
10,
null
],
[
"K12",
"production",
"sec_12",
"rep_production",
"inv_production",
"C53_mf12",
12,
null,
"i32 (l1 (sbase d)) <> 2",
"C53_mf12_safe"
],
[
"K13",
"multiplicities",
"sec_13",
"rep_multiplicities",
"inv_multiplicities",
"C53_mf13",
13,
null
],
[
"K14",
"body14",
"sec_14",
"rep_body14",
"inv_body14",
"C53_mf14",
14,
null
],
[
"K15",
"list partial15",
"sec_15",
"(Forall rep_p15)",
"(some_of inv_p15)",
"C53_mf15",
15,
null
],
[
"K26",
"list (product law26)",
"sec_26",
"(Forall (rep_product rep_law26))",
"(many_of (inv_product LAW26 inv_law26))",
"C54_mf26",
26,
null,
"tame26 (smat d) (smt d) t",
"C54_mf26_safe"
],
[
"K28",
"list listr",
"sec_28",
"(Forall endf_list)",
"(many_of inv_subshell)",
"C54_mf28",
28,
null,
"tame28 (smt d) t",
"C54_mf28_safe"
],
[
"K31",
"list block",
"sec_31",
"(Forall rep_block)",
"(many_of inv_block)",
"C55_mf31",
31,
null,
"tame_cov_section 31 (smat d) (smt d) t",
"C55_mf31_safe"
],
[
"K32_151",
"list cisotope",
"sec_32_151",
"(Forall rep_cisotope)",
"(some_of inv_cisotope)",
"C56_mf32_151",
32,
151,
"tame32 t",
"C56_mf32_151_safe",
"C56_mf32_151_lines"
],
[
"K33",
"Z * list block",
"sec_33",
"(rep_flagged rep_block)",
"(inv_flagged inv_block)",
"C55_mf33",
33,
null,
"tame_cov_section 33 (smat d) (smt d) t",
"C55_mf33_safe"
],
[
"K34",
"Z * list block34",
"sec_34",
"(rep_flagged rep_block34)",
"(inv_flagged inv_block34)",
"C55_mf34",
34,
null,
"tame34 (smat d) (smt d) t",
"C55_mf34_safe"
],
[
"K35",
"list listr",
"sec_35",
"(Forall endf_list)",
"(many_of inv_square35)",
"C55_mf35",
35,
null,
"tame35 (smat d) (smt d) t",
"C55_mf35_safe"
],
[
"K40",
"Z * list level",
"sec_40",
"(rep_flagged rep_level)",
"(inv_flagged inv_level)",
"C55_mf40",
40,
null,
"tame40 (smat d) (smt d) t",
"C55_mf40_safe"
]
]