{
"Disco.dval": {
"claim": "no claim is broken: the default is taken for characters that are not digits, which the reader never passes",
"tightened": []
},
"Fission.at_index": {
"claim": "no claim is broken: the index is always within the list here, so the default is not reached",
"tightened": []
},
"Sec9.sec_12": {
"claim": "no claim is broken: the flag chooses between the MT of the class and that of the HEAD, which are the same number for a class without a fixed MT",
"tightened": []
},
"Sec6.sec_6": {
"claim": "no claim is broken: the flag chooses between the MT of the class and that of the HEAD, which are the same number for a class without a fixed MT",
"tightened": []
},
"Sec6.sec_26": {
"claim": "no claim is broken: the flag chooses between the MT of the class and that of the HEAD, which are the same number for a class without a fixed MT",
"tightened": []
},
"Sec4.NE4": {
"claim": "no claim is broken: a sum of two numbers, with the two swapped",
"tightened": []
},
"Sec4.NR4": {
"claim": "no claim is broken: a sum of two numbers, with the two swapped",
"tightened": []
},
"Equal.eq_text": {
"claim": "no claim is broken: equality of texts is symmetric",
"tightened": []
},
"Parts.NNFd": {
"claim": "no claim is broken: the default is for an empty list, which the class does not accept",
"tightened": []
},
"Sec28.ss_transitions": {
"claim": "no claim is broken: the default is for an empty list, which the class does not accept",
"tightened": []
},
"Py.py_u64": {
"claim": "no claim is broken: the numbers that reach it are within both ranges",
"tightened": []
},
"Py.ssize": {
"claim": "no claim is broken: lists of 2^62 objects and more do not occur",
"tightened": []
},
"Py.slice_bound": {
"claim": "no claim is broken: the same bound results",
"tightened": []
},
"Py.slice_loop": {
"claim": "no claim is broken: lists of 2^32 objects and more are not distinguished",
"tightened": []
},
"PyTree.py_section": {
"claim": "no claim is broken: the line number a text starts with is not observable",
"tightened": []
},
"PyTree.py_file": {
"claim": "no claim is broken: the line number a text starts with is not observable",
"tightened": []
},
"PyTree.py_mat": {
"claim": "no claim is broken: the line number a text starts with is not observable",
"tightened": []
},
"Typed.not_tend": {
"claim": "no claim is broken: no MAT below -1 is read by a structure division",
"tightened": []
},
"Tree.sec_clean": {
"claim": "no claim is broken: the line number a text starts with is not observable",
"tightened": []
},
"Records.h_dec": {
"claim": "no claim is broken: the line number after an exception is not observable",
"tightened": []
},
"Records.rd_tpid": {
"claim": "no claim is broken: the value of the exception is not observable: it is replaced",
"tightened": []
},
"Make.make451": {
"claim": "no claim is broken: the check of MT is made for a class with a fixed positive MT, so it cannot fail",
"tightened": []
},
"Make.make452": {
"claim": "no claim is broken: the check of MT is made for a class with a fixed positive MT, so it cannot fail",
"tightened": []
},
"Make.make455": {
"claim": "no claim is broken: the check of MT is made for a class with a fixed positive MT, so it cannot fail",
"tightened": []
},
"Make.make456": {
"claim": "no claim is broken: the check of MT is made for a class with a fixed positive MT, so it cannot fail",
"tightened": []
},
"Make.make460": {
"claim": "no claim is broken: the check of MT is made for a class with a fixed positive MT, so it cannot fail",
"tightened": []
},
"Make.make458": {
"claim": "no claim is broken: the check of MT is made for a class with a fixed positive MT, so it cannot fail",
"tightened": []
},
"Make.make151": {
"claim": "no claim is broken: the check of MT is made for a class with a fixed positive MT, so it cannot fail",
"tightened": []
},
"Make.make151_ranges": {
"claim": "no claim is broken: the check of MT is made for a class with a fixed positive MT, so it cannot fail",
"tightened": []
},
"Make.make151_special": {
"claim": "no claim is broken: the check of MT is made for a class with a fixed positive MT, so it cannot fail",
"tightened": []
},
"Make.make152": {
"claim": "no claim is broken: the check of MT is made for a class with a fixed positive MT, so it cannot fail",
"tightened": []
},
"Make.make152_infinite": {
"claim": "no claim is broken: the check of MT is made for a class with a fixed positive MT, so it cannot fail",
"tightened": []
},
"Make.make32_151": {
"claim": "no claim is broken: the check of MT is made for a class with a fixed positive MT, so it cannot fail",
"tightened": []
},
"Make.make32_151_ranges": {
"claim": "no claim is broken: the check of MT is made for a class with a fixed positive MT, so it cannot fail",
"tightened": []
},
"Make.make7_2": {
"claim": "no claim is broken: the check of MT is made for a class with a fixed positive MT, so it cannot fail",
"tightened": []
},
"Make.make7_4": {
"claim": "no claim is broken: the check of MT is made for a class with a fixed positive MT, so it cannot fail",
"tightened": []
},
"Make.make7_451": {
"claim": "no claim is broken: the check of MT is made for a class with a fixed positive MT, so it cannot fail",
"tightened": []
},
"Make.make7_451_one": {
"claim": "no claim is broken: the check of MT is made for a class with a fixed positive MT, so it cannot fail",
"tightened": []
},
"Make.make_yield_section": {
"claim": "no claim is broken: the check of MT is made for a class with a fixed positive MT, so it cannot fail",
"tightened": []
},
"Make.make_yield_one": {
"claim": "no claim is broken: the check of MT is made for a class with a fixed positive MT, so it cannot fail",
"tightened": []
},
"Make.make_yield_many": {
"claim": "no claim is broken: the check of MT is made for a class with a fixed positive MT, so it cannot fail",
"tightened": []
},
"Make.make457": {
"claim": "no claim is broken: the check of MT is made for a class with a fixed positive MT, so it cannot fail",
"tightened": []
},
"Make.make457_stable": {
"claim": "no claim is broken: the check of MT is made for a class with a fixed positive MT, so it cannot fail",
"tightened": []
},
"Sec1.sec_460": {
"claim": "no claim is broken: the class compares MAT with that of the HEAD, so both are the same number",
"tightened": []
},
"Sec451.description": {
"claim": "no claim is broken: the reverse of a single line feed is that line feed",
"tightened": []
},
"Records.subrange": {
"claim": "no claim is broken: the upper end is compared with the length for the last region, the ends of accepted tables are in order",
"tightened": []
},
"Records.intg_cap": {
"claim": "no claim is broken: the default is for NDIGIT outside 2 to 6, which is rejected before",
"tightened": []
},
"Nested.in_material": {
"claim": "no claim is broken: a material that has been read has no file for which insertion is undefined, so the branch is not reached",
"tightened": []
},
"Sec2.make_rm_lvalue": {
"claim": "C46: the LRX field of a Reich-Moore l value that is made is 0",
"tightened": [
"C46_rm_columns",
"C46_bw_columns"
]
},
"Sec7.elements_ok": {
"claim": "no claim is broken: NA is an unsigned int, so that <= 0 and = 0 are the same",
"tightened": []
},
"Sec2.check_lvalue": {
"claim": "no claim is broken: the number of words is at least 1 and equals 6 times N2, so N2 is at least 1 anyway",
"tightened": []
},
"Sec2.check_pairs_rml": {
"claim": "no claim is broken: the number of words is at least 1 and equals 12 times L1, so L1 is at least 1 anyway",
"tightened": []
},
"Sec2.group_NE": {
"claim": "no claim is broken: the groups of J values are never empty, so that case is not reached",
"tightened": []
},
"Typed.ymat_section": {
"claim": "C32 the sections of a material that was read; file 30 has none",
"tightened": [
"C32_file_30"
]
},
"Sec451.sec_parse": {
"claim": "C71 parse() of a tree section, where it is undefined",
"tightened": [
"C71_section_parse_undefined"
]
},
"Sec7.ei_NAS": {
"claim": "C50 NAS() of an element",
"tightened": [
"C50_atoms",
"C50_atoms_read"
]
},
"Records.head_make": {
"claim": "C01, C39 the HEAD that is written says what the section is",
"tightened": [
"C01_head_made"
]
},
"Sec1.make_decay": {
"claim": "C37 decay constants",
"tightened": [
"C37_decay_constants"
]
},
"Sec2.make_dependent": {
"claim": "C46 columns of a J value",
"tightened": [
"C46_dependent"
]
},
"Sec9.make_multiplicities|ies :=\n  if isize ps <=? [[0]] then Throw EStd else Val|1": {
"claim": "C65 Sections made from their parts",
"tightened": [
"maker_body"
],
"note": "survived when first tried; rejected since the named theorem (or the one that uses the named lemma) was added or tightened"
},
"Sec9.make_transitions2|else verified_LG (mklist [[energy rzero]] 0 0 (Z.of_nat (length es|rzero energy": {
"claim": "C53 MF12 to MF15 photon production round trip and consistency",
"tightened": [
"C53_transitions"
],
"note": "survived when first tried; rejected since the named theorem (or the one that uses the named lemma) was added or tightened"
},
"Sec9.sec_14|skind 14 None true false [[true]] rd_body14\n    (fun b => |false": {
"claim": "C53 MF12 to MF15 photon production round trip and consistency",
"tightened": [
"C53_mat14_refuted"
],
"note": "survived when first tried; rejected since the named theorem (or the one that uses the named lemma) was added or tightened"
},
"Sec6.base1| if 2 + lL2 l <=? 0 then [[Undef]]\n  else if (lL1 l <? 0) ||Throw EStd": {
"claim": "C49 MF6 product energy-angle distributions round trip and consistency",
"tightened": [
"C49_law1_undefined"
],
"note": "survived when first tried; rejected since the named theorem (or the one that uses the named lemma) was added or tightened"
},
"Sec6.make_leg5|l := mklist rzero energy [[2]] 0 (Z.of_nat (length cs) |3": {
"claim": "C49 MF6 product energy-angle distributions round trip and consistency",
"tightened": [
"C49_legendre5"
],
"note": "survived when first tried; rejected since the named theorem (or the one that uses the named lemma) was added or tightened"
},
"Sec33.long_op|f in64 z then Val z else [[Undef]].\n(** static_cast< int >(|Throw EStd": {
"claim": "C55 MF31, MF33, MF34, MF35 and MF40 covariances round trip and consistency",
"tightened": [
"C55_orders_undefined"
],
"note": "survived when first tried; rejected since the named theorem (or the one that uses the named lemma) was added or tightened"
},
"Sec33.make_square35|\n  let l := mklist e1 e2 [[1]] 7 (Z.of_nat (length ener|2": {
"claim": "C55 MF31, MF33, MF34, MF35 and MF40 covariances round trip and consistency",
"tightened": [
"C55_square35"
],
"note": "survived when first tried; rejected since the named theorem (or the one that uses the named lemma) was added or tightened"
},
"Make.compact_LAD| : bool := negb (co_l1 x [[=?]] 0).\n(** section/32/151/C|<=?": {
"claim": "C65 Sections made from their parts",
"tightened": [
"C65_compact"
],
"note": "survived when first tried; rejected since the named theorem (or the one that uses the named lemma) was added or tightened"
},
"TypedEdit.thrown|l (b, Some e) | Undef => [[Undef]] end.\n(** not code: toSec|Throw EStd": {
"claim": "C69 A tree edited with typed sections, files and materials",
"tightened": [
"C69_unwritten"
],
"note": "survived when first tried; rejected since the named theorem (or the one that uses the named lemma) was added or tightened"
},
"Typed.verify_fend| (is_send d || is_head d [[||]] is_mend d || is_tend d).|&&": {
"claim": "C33 Which files parsing then printing loses",
"tightened": [
"C33_mf8_skipped"
],
"note": "survived when first tried; rejected since the named theorem (or the one that uses the named lemma) was added or tightened"
},
"Typed.verify_fend|v) : bool :=\n  is_fend d [[||]] negb (is_send d || is_he|&&": {
"claim": "C33 Which files parsing then printing loses",
"tightened": [
"C33_mf8_skipped"
],
"note": "survived when first tried; rejected since the named theorem (or the one that uses the named lemma) was added or tightened"
},
"Parts.make_coefficients4| real) : listr := mklist [[rzero]] energy 0 0 0 cs.\n(** sec|(of_int 1)": {
"claim": "not decided: the proofs of PropNamed did not end within the time limit",
"tightened": []
},
"Parts.make_polynomial| : listr := mklist rzero [[rzero]] 0 0 0 cs.\n(** section/1/|(of_int 1)": {
"claim": "not decided: the proofs of PropNamed did not end within the time limit",
"tightened": []
},
"Sec1.make_decay| EStd\n  else Val (mklist [[rzero]] energy 0 0 0 (interleave|(of_int 1)": {
"claim": "C37 MF1 nubar sections (452, 455, 456) round trip",
"tightened": [
"C37_decay_constants"
],
"note": "survived when first tried; rejected since the named theorem (or the one that uses the named lemma) was added or tightened"
},
"Sec1.make_decay|l (mklist rzero energy 0 [[0]] 0 (interleave constants |1": {
"claim": "C37 MF1 nubar sections (452, 455, 456) round trip",
"tightened": [
"C37_decay_constants"
],
"note": "survived when first tried; rejected since the named theorem (or the one that uses the named lemma) was added or tightened"
},
"Sec2.make_dependent|lse let r := mklist spin [[rzero]] inter 0 (Z.of_nat (lengt|(of_int 1)": {
"claim": "C46 MF2 resonance parameters round trip and consistency",
"tightened": [
"C46_dependent"
],
"note": "survived when first tried; rejected since the named theorem (or the one that uses the named lemma) was added or tightened"
},
"Sec2.make_widths_parts|mklist spi ap (b2z lssf) [[0]] (Z.of_nat (length ls)) e|1": {
"claim": "C46 MF2 resonance parameters round trip and consistency",
"tightened": [
"C46_widths_parts"
],
"note": "survived when first tried; rejected since the named theorem (or the one that uses the named lemma) was added or tightened"
},
"Sec32.make_limited_lvalue|r := mklist awri rzero l [[0]] (Z.of_nat (length es))\n |1": {
"claim": "C56 MF32 resonance parameter covariances round trip and consistency",
"tightened": [
"C56_limited_lvalue"
],
"note": "survived when first tried; rejected since the named theorem (or the one that uses the named lemma) was added or tightened"
},
"Sec32.make_short|se let r := mklist rzero [[rzero]] mpar 0 (Z.of_nat (length|(of_int 1)": {
"claim": "C60 Named constructor arguments come back under the same names",
"tightened": [
"C60_list_heads"
],
"note": "survived when first tried; rejected since the named theorem (or the one that uses the named lemma) was added or tightened"
},
"Sec32.make_rm_uncertainties|let r := mklist awri apl [[0]] 0 (Z.of_nat (length es))|1": {
"claim": "C56 MF32 resonance parameter covariances round trip and consistency",
"tightened": [
"C56_rm_uncertainties"
],
"note": "survived when first tried; rejected since the named theorem (or the one that uses the named lemma) was added or tightened"
},
"Sec7.make_coherent1| := make_tab1 t0 rzero 0 [[0]] bnd int es s in\n  let x |1": {
"claim": "C60 Named constructor arguments come back under the same names",
"tightened": [
"C60_series_heads"
],
"note": "survived when first tried; rejected since the named theorem (or the one that uses the named lemma) was added or tightened"
},
"Sec7.make_incoherent| :=\n  make_tab1 sb rzero [[0]] 0 bnd int ts ws.\n(** sec|1": {
"claim": "C60 Named constructor arguments come back under the same names",
"tightened": [
"C60_table_exactly"
],
"note": "survived when first tried; rejected since the named theorem (or the one that uses the named lemma) was added or tightened"
},
"Make.compact_IFG| : bool := negb (co_l1 x [[=?]] 0).\n(** section/32/151/C|<=?": {
"claim": "C65 Sections made from their parts",
"tightened": [
"C65_compact"
],
"note": "survived when first tried; rejected since the named theorem (or the one that uses the named lemma) was added or tightened"
},
"Law1.th_PP|:=\n  if lN2 l <=? 0 then [[Undef]] else let! b := drop_exac|Throw EStd": {
"claim": "C64 The records of MF6 LAW = 1 by name",
"tightened": [
"C64_thermal_refuted"
],
"note": "survived when first tried; rejected since the named theorem (or the one that uses the named lemma) was added or tightened"
},
"Parts.make3|:=\n  obind (make_section [[true]] za awr mt tt) (fun b => |false": {
"claim": "C65 Sections made from their parts",
"tightened": [
"maker_body"
],
"note": "survived when first tried; rejected since the named theorem (or the one that uses the named lemma) was added or tightened"
},
"Parts.make_table27|_int (Z.quot za 1000)) 0 [[0]] bnd int x h.\n(** section|1": {
"claim": "C60 Named constructor arguments come back under the same names",
"tightened": [
"C60_table_exactly"
],
"note": "survived when first tried; rejected since the named theorem (or the one that uses the named lemma) was added or tightened"
},
"Parts.make_product9_one|:=\n  make_product9 qm qi [[izap lfs]] [Z.of_nat (length energi|lfs izap": {
"claim": "C60 Named constructor arguments come back under the same names",
"tightened": [
"C60_one_region"
],
"note": "survived when first tried; rejected since the named theorem (or the one that uses the named lemma) was added or tightened"
},
"Parts.make_product10_one|=\n  make_product10 qm qi [[izap lfs]] [Z.of_nat (length energi|lfs izap": {
"claim": "C60 Named constructor arguments come back under the same names",
"tightened": [
"C60_one_region"
],
"note": "survived when first tried; rejected since the named theorem (or the one that uses the named lemma) was added or tightened"
},
"Parts.make_total12|:= make_tab1 rzero rzero [[0]] 0.\n(** section/13/TotalC|1": {
"claim": "C60 Named constructor arguments come back under the same names",
"tightened": [
"C60_table_exactly"
],
"note": "survived when first tried; rejected since the named theorem (or the one that uses the named lemma) was added or tightened"
},
"Parts.make_total13|:= make_tab1 rzero rzero [[0]] 0.\n\n(** ** plain tables |1": {
"claim": "C60 Named constructor arguments come back under the same names",
"tightened": [
"C60_table_exactly"
],
"note": "survived when first tried; rejected since the named theorem (or the one that uses the named lemma) was added or tightened"
},
"Parts.make_transfer| make_tab1 rzero rzero 0 [[0]].\n(** section/5/Effective|1": {
"claim": "C60 Named constructor arguments come back under the same names",
"tightened": [
"C60_table_exactly"
],
"note": "survived when first tried; rejected since the named theorem (or the one that uses the named lemma) was added or tightened"
},
"Parts.make_theta5|:= make_tab1 rzero rzero [[0]] 0.\n(** section/5/Paramet|1": {
"claim": "C60 Named constructor arguments come back under the same names",
"tightened": [
"C60_table_exactly"
],
"note": "survived when first tried; rejected since the named theorem (or the one that uses the named lemma) was added or tightened"
},
"Parts.make_parameter5|:= make_tab1 rzero rzero [[0]] 0.\n(** section/5/Distrib|1": {
"claim": "C60 Named constructor arguments come back under the same names",
"tightened": [
"C60_table_exactly"
],
"note": "survived when first tried; rejected since the named theorem (or the one that uses the named lemma) was added or tightened"
},
"Parts.make_g5|:= make_tab1 rzero rzero [[0]] 0.\n(** section/1/Tabulat|1": {
"claim": "C60 Named constructor arguments come back under the same names",
"tightened": [
"C60_table_exactly"
],
"note": "survived when first tried; rejected since the named theorem (or the one that uses the named lemma) was added or tightened"
},
"Parts.make_tab_mult| make_tab1 rzero rzero 0 [[0]].\n(** section/2/151/Scatt|1": {
"claim": "C60 Named constructor arguments come back under the same names",
"tightened": [
"C60_table_exactly"
],
"note": "survived when first tried; rejected since the named theorem (or the one that uses the named lemma) was added or tightened"
},
"Parts.make_radius| make_tab1 rzero rzero 0 [[0]].\n\n(** ** tables with one|1": {
"claim": "C60 Named constructor arguments come back under the same names",
"tightened": [
"C60_table_exactly"
],
"note": "survived when first tried; rejected since the named theorem (or the one that uses the named lemma) was added or tightened"
},
"Parts.ZAPm|f in32 z then Val z else [[Undef]].\n(** section/6/Multiplic|Throw EStd": {
"claim": "C60 Named constructor arguments come back under the same names",
"tightened": [
"C60_particle"
],
"note": "survived when first tried; rejected since the named theorem (or the one that uses the named lemma) was added or tightened"
},
"Parts.make_probability5|1 :=\n  make_tab1 u rzero [[0]] lf bnd int energies ps.\n|1": {
"claim": "C60 Named constructor arguments come back under the same names",
"tightened": [
"C60_table_exactly"
],
"note": "survived when first tried; rejected since the named theorem (or the one that uses the named lemma) was added or tightened"
},
"Parts.make_outgoing5|ke_tab1 rzero incident 0 [[0]] bnd int energies ps.\n(**|1": {
"claim": "C60 Named constructor arguments come back under the same names",
"tightened": [
"C60_table_exactly"
],
"note": "survived when first tried; rejected since the named theorem (or the one that uses the named lemma) was added or tightened"
},
"Parts.make_madland|1 :=\n  make_tab1 efl efh [[0]] 0 bnd int energies temps|1": {
"claim": "C60 Named constructor arguments come back under the same names",
"tightened": [
"C60_table_exactly"
],
"note": "survived when first tried; rejected since the named theorem (or the one that uses the named lemma) was added or tightened"
},
"Parts.make_energyd|make_tab1 rzero cosine 0 [[0]] bnd int energies ps.\n(**|1": {
"claim": "C60 Named constructor arguments come back under the same names",
"tightened": [
"C60_table_exactly"
],
"note": "survived when first tried; rejected since the named theorem (or the one that uses the named lemma) was added or tightened"
},
"Parts.make_photon|ke_tab1 energy rzero lph [[0]] bnd int time ys.\n(** sec|1": {
"claim": "C60 Named constructor arguments come back under the same names",
"tightened": [
"C60_table_exactly"
],
"note": "survived when first tried; rejected since the named theorem (or the one that uses the named lemma) was added or tightened"
},
"Parts.make_polynomial|= mklist rzero rzero 0 0 [[0]] cs.\n(** section/1/Polyno|1": {
"claim": "C60 Named constructor arguments come back under the same names",
"tightened": [
"C60_list_records"
],
"note": "survived when first tried; rejected since the named theorem (or the one that uses the named lemma) was added or tightened"
},
"Parts.make_independent| := mklist rzero rzero 0 [[0]] 0 cs.\n(** section/1/455/|1": {
"claim": "C60 Named constructor arguments come back under the same names",
"tightened": [
"C60_list_records"
],
"note": "survived when first tried; rejected since the named theorem (or the one that uses the named lemma) was added or tightened"
},
"Parts.make_nbody|:= mkcont apsx rzero 0 0 [[0]] npsx.\n(** section/6/NBod|1": {
"claim": "C60 Named constructor arguments come back under the same names",
"tightened": [
"C60_phase_space"
],
"note": "survived when first tried; rejected since the named theorem (or the one that uses the named lemma) was added or tightened"
},
"Parts.make_angular|  obind (make_tab2 C1 C2 [[0]] 0 int bnd) (fun t => mak|1": {
"claim": "C60 Named constructor arguments come back under the same names",
"tightened": [
"C60_sequence_exactly"
],
"note": "survived when first tried; rejected since the named theorem (or the one that uses the named lemma) was added or tightened"
},
"Parts.make_angulard|make_tab2 rzero energy 0 [[0]] bnd int) (fun t => make_|1": {
"claim": "C60 Named constructor arguments come back under the same names",
"tightened": [
"C60_sequence_exactly"
],
"note": "survived when first tried; rejected since the named theorem (or the one that uses the named lemma) was added or tightened"
},
"Parts.make_law2|d (make_tab2 rzero rzero [[0]] 0 bnd int) (fun t => mak|1": {
"claim": "C60 Named constructor arguments come back under the same names",
"tightened": [
"C60_sequence_exactly"
],
"note": "survived when first tried; rejected since the named theorem (or the one that uses the named lemma) was added or tightened"
},
"Sec9.make_multiplicities|icities :=\n  if isize ps [[<=?]] 0 then Throw EStd else V|<?": {
"claim": "C65 Sections made from their parts",
"tightened": [
"maker_body"
],
"note": "survived when first tried; rejected since the named theorem (or the one that uses the named lemma) was added or tightened"
},
"Sec4.INT4|int (istab q)\n  | Mixed4 [[q r]] => tint (istab q) ++ tin|r q": {
"claim": "C47 MF4 angular distributions round trip and consistency",
"tightened": [
"C47_mixed_ranges"
],
"note": "survived when first tried; rejected since the named theorem (or the one that uses the named lemma) was added or tightened"
},
"Sec6.make_tab_cosines|list rzero incident lang [[0]] (Z.of_nat (length cosine|1": {
"claim": "C49 MF6 product energy-angle distributions round trip and consistency",
"tightened": [
"C49_tabulated"
],
"note": "survived when first tried; rejected since the named theorem (or the one that uses the named lemma) was added or tightened"
},
"Sec6.rd_product6|d <- rd_law6 hmt (LAW m) [[mat mf]] mt ;; ret (mkproduct m d|mf mat": {
"claim": "not decided: the proofs of Sec6Proofs did not end within the time limit",
"tightened": []
},
"Sec6.sec_6|kind body6 :=\n  mkskinda [[6]] None false true false rd|5": {
"claim": "not decided: the proofs of Sec6Safe did not end within the time limit",
"tightened": []
},
"Sec33.make_redundant|(Redundant (mklist e1 e2 [[0]] 0 (Z.of_nat (length cs))|1": {
"claim": "C55 MF31, MF33, MF34, MF35 and MF40 covariances round trip and consistency",
"tightened": [
"C55_redundant"
],
"note": "survived when first tried; rejected since the named theorem (or the one that uses the named lemma) was added or tightened"
},
"Sec8.cast_unsigned|4967296) then Val z else [[Undef]].\n(** section/8/FissionYi|Throw EStd": {
"claim": "C51 MF8 fission yields and decay data round trip and consistency",
"tightened": [
"C51_product_numbers"
],
"note": "survived when first tried; rejected since the named theorem (or the one that uses the named lemma) was added or tightened"
},
"Parts.LIDP5|l := negb (tL1 (istab q) [[=?]] 0).\n(** section/6/Contin|<=?": {
"claim": "C60 Named constructor arguments come back under the same names",
"tightened": [
"C60_charged_flag"
],
"note": "survived when first tried; rejected since the named theorem (or the one that uses the named lemma) was added or tightened"
},
"PyTree.py_to_file|hrow e)\n  | Undef => (d, [[Undef]])\n  end.\n(** python/src/t|Throw EStd": {
"claim": "C71 The tree, the strings and the files of the Python module",
"tightened": [
"C71_to_file_fails"
],
"note": "survived when first tried; rejected since the named theorem (or the one that uses the named lemma) was added or tightened"
},
"Py.slice_loop|oop v f ((i + 1) mod 2 ^ [[32]]) length (py_u64 (start +|33": {
"claim": "C68 The sequences of the Python module",
"tightened": [
"loop_endless"
],
"note": "survived when first tried; rejected since the named theorem (or the one that uses the named lemma) was added or tightened"
},
"Typed.verify_fend|end d || negb (is_send d [[||]] is_head d || is_mend d ||&&": {
"claim": "C33 Which files parsing then printing loses",
"tightened": [
"C33_mf8_skipped"
],
"note": "survived when first tried; rejected since the named theorem (or the one that uses the named lemma) was added or tightened"
},
"Typed.verify_fend|: bool :=\n  is_fend d || [[negb ]](is_send d || is_head d ||": {
"claim": "C33 Which files parsing then printing loses",
"tightened": [
"C33_mf8_skipped"
],
"note": "survived when first tried; rejected since the named theorem (or the one that uses the named lemma) was added or tightened"
},
"Typed.run|r e _ => Throw e | UB => [[Undef]] end.\n  (** tree/File/src|Throw EStd": {
"claim": "C53 MF12 to MF15 photon production round trip and consistency",
"tightened": [
"C53_parse_undefined_reachable"
],
"note": "survived when first tried; rejected since the named theorem (or the one that uses the named lemma) was added or tightened"
},
"Law1.make_tabd1|n\n       let l := mklist [[rzero]] energy nd na (Z.of_nat (|(of_int 1)": {
"claim": "C64 The records of MF6 LAW = 1 by name",
"tightened": [
"C64_tabulated"
],
"note": "survived when first tried; rejected since the named theorem (or the one that uses the named lemma) was added or tightened"
},
"Parts.make_polynomial| real) : listr := mklist [[rzero]] rzero 0 0 0 cs.\n(** sect|(of_int 1)": {
"claim": "not decided: the proofs of PropNamed did not end within the time limit",
"tightened": []
},
"Sec1.sec_nubar|:=\n  mkskind 1 (Some mt) [[false]] true false (fun h => rd_|true": {
"claim": "C39 Section head validation",
"tightened": [
"C39_records"
],
"note": "survived when first tried; rejected since the named theorem (or the one that uses the named lemma) was added or tightened"
},
"Sec1.nnf|str) : Z := i32 (npl l / [[2]]).\n(** not code: views::s|1": {
"claim": "",
"tightened": [
"nnf_families"
],
"note": "survived when first tried; rejected since the named theorem (or the one that uses the named lemma) was added or tightened"
},
"Sec451.update_directory|(m, Some e)\n  | Undef => [[Undef]]\n  end.\n(** updateDirecto|Throw EStd": {
"claim": "C26 updateDirectory makes the directory describe the material; C27 updateDirectory keeps modification numbers and is idempotent",
"tightened": [
"update_undefined"
],
"note": "survived when first tried; rejected since the named theorem (or the one that uses the named lemma) was added or tightened"
},
"Sec8.stable_decay8|ecay8 :=\n  mkdecay8 (u32 [[lis]]) (u32 liso) stable_energ|liso": {
"claim": "C51 MF8 fission yields and decay data round trip and consistency",
"tightened": [
"C51_stable"
],
"note": "survived when first tried; rejected since the named theorem (or the one that uses the named lemma) was added or tightened"
}
}