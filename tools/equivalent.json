{
 "Disco.dval": {
  "claim": "no claim is broken: the default is taken for characters that are not digits, which the reader never passes",
  "tightened": []
 },
 "Fission.at_index": {
  "claim": "no claim is broken: the index is always within the list here, so the default is not reached",
  "tightened": []
 },
 "Sec9.sec_12": {
  "claim": "no claim is broken: the flag chooses between the MT of the class and that of the HEAD, which are the same number for a class without a fixed MT",
  "tightened": []
 },
 "Sec6.sec_6": {
  "claim": "no claim is broken: the flag chooses between the MT of the class and that of the HEAD, which are the same number for a class without a fixed MT",
  "tightened": []
 },
 "Sec6.sec_26": {
  "claim": "no claim is broken: the flag chooses between the MT of the class and that of the HEAD, which are the same number for a class without a fixed MT",
  "tightened": []
 },
 "Sec4.NE4": {
  "claim": "no claim is broken: a sum of two numbers, with the two swapped",
  "tightened": []
 },
 "Sec4.NR4": {
  "claim": "no claim is broken: a sum of two numbers, with the two swapped",
  "tightened": []
 },
 "Equal.eq_text": {
  "claim": "no claim is broken: equality of texts is symmetric",
  "tightened": []
 },
 "Parts.NNFd": {
  "claim": "no claim is broken: the default is for an empty list, which the class does not accept",
  "tightened": []
 },
 "Sec28.ss_transitions": {
  "claim": "no claim is broken: the default is for an empty list, which the class does not accept",
  "tightened": []
 },
 "Py.py_u64": {
  "claim": "no claim is broken: the numbers that reach it are within both ranges",
  "tightened": []
 },
 "Py.ssize": {
  "claim": "no claim is broken: lists of 2^62 objects and more do not occur",
  "tightened": []
 },
 "Py.slice_bound": {
  "claim": "no claim is broken: the same bound results",
  "tightened": []
 },
 "Py.slice_loop": {
  "claim": "no claim is broken: lists of 2^32 objects and more are not distinguished",
  "tightened": []
 },
 "PyTree.py_section": {
  "claim": "no claim is broken: the line number a text starts with is not observable",
  "tightened": []
 },
 "PyTree.py_file": {
  "claim": "no claim is broken: the line number a text starts with is not observable",
  "tightened": []
 },
 "PyTree.py_mat": {
  "claim": "no claim is broken: the line number a text starts with is not observable",
  "tightened": []
 },
 "Typed.not_tend": {
  "claim": "no claim is broken: no MAT below -1 is read by a structure division",
  "tightened": []
 },
 "Tree.sec_clean": {
  "claim": "no claim is broken: the line number a text starts with is not observable",
  "tightened": []
 },
 "Records.h_dec": {
  "claim": "no claim is broken: the line number after an exception is not observable",
  "tightened": []
 },
 "Records.rd_tpid": {
  "claim": "no claim is broken: the value of the exception is not observable: it is replaced",
  "tightened": []
 },
 "Make.make451": {
  "claim": "no claim is broken: the check of MT is made for a class with a fixed positive MT, so it cannot fail",
  "tightened": []
 },
 "Make.make452": {
  "claim": "no claim is broken: the check of MT is made for a class with a fixed positive MT, so it cannot fail",
  "tightened": []
 },
 "Make.make455": {
  "claim": "no claim is broken: the check of MT is made for a class with a fixed positive MT, so it cannot fail",
  "tightened": []
 },
 "Make.make456": {
  "claim": "no claim is broken: the check of MT is made for a class with a fixed positive MT, so it cannot fail",
  "tightened": []
 },
 "Make.make460": {
  "claim": "no claim is broken: the check of MT is made for a class with a fixed positive MT, so it cannot fail",
  "tightened": []
 },
 "Make.make458": {
  "claim": "no claim is broken: the check of MT is made for a class with a fixed positive MT, so it cannot fail",
  "tightened": []
 },
 "Make.make151": {
  "claim": "no claim is broken: the check of MT is made for a class with a fixed positive MT, so it cannot fail",
  "tightened": []
 },
 "Make.make151_ranges": {
  "claim": "no claim is broken: the check of MT is made for a class with a fixed positive MT, so it cannot fail",
  "tightened": []
 },
 "Make.make151_special": {
  "claim": "no claim is broken: the check of MT is made for a class with a fixed positive MT, so it cannot fail",
  "tightened": []
 },
 "Make.make152": {
  "claim": "no claim is broken: the check of MT is made for a class with a fixed positive MT, so it cannot fail",
  "tightened": []
 },
 "Make.make152_infinite": {
  "claim": "no claim is broken: the check of MT is made for a class with a fixed positive MT, so it cannot fail",
  "tightened": []
 },
 "Make.make32_151": {
  "claim": "no claim is broken: the check of MT is made for a class with a fixed positive MT, so it cannot fail",
  "tightened": []
 },
 "Make.make32_151_ranges": {
  "claim": "no claim is broken: the check of MT is made for a class with a fixed positive MT, so it cannot fail",
  "tightened": []
 },
 "Make.make7_2": {
  "claim": "no claim is broken: the check of MT is made for a class with a fixed positive MT, so it cannot fail",
  "tightened": []
 },
 "Make.make7_4": {
  "claim": "no claim is broken: the check of MT is made for a class with a fixed positive MT, so it cannot fail",
  "tightened": []
 },
 "Make.make7_451": {
  "claim": "no claim is broken: the check of MT is made for a class with a fixed positive MT, so it cannot fail",
  "tightened": []
 },
 "Make.make7_451_one": {
  "claim": "no claim is broken: the check of MT is made for a class with a fixed positive MT, so it cannot fail",
  "tightened": []
 },
 "Make.make_yield_section": {
  "claim": "no claim is broken: the check of MT is made for a class with a fixed positive MT, so it cannot fail",
  "tightened": []
 },
 "Make.make_yield_one": {
  "claim": "no claim is broken: the check of MT is made for a class with a fixed positive MT, so it cannot fail",
  "tightened": []
 },
 "Make.make_yield_many": {
  "claim": "no claim is broken: the check of MT is made for a class with a fixed positive MT, so it cannot fail",
  "tightened": []
 },
 "Make.make457": {
  "claim": "no claim is broken: the check of MT is made for a class with a fixed positive MT, so it cannot fail",
  "tightened": []
 },
 "Make.make457_stable": {
  "claim": "no claim is broken: the check of MT is made for a class with a fixed positive MT, so it cannot fail",
  "tightened": []
 },
 "Sec1.sec_460": {
  "claim": "no claim is broken: the class compares MAT with that of the HEAD, so both are the same number",
  "tightened": []
 },
 "Sec451.description": {
  "claim": "no claim is broken: the reverse of a single line feed is that line feed",
  "tightened": []
 },
 "Records.subrange": {
  "claim": "no claim is broken: the upper end is compared with the length for the last region, the ends of accepted tables are in order",
  "tightened": []
 },
 "Records.intg_cap": {
  "claim": "no claim is broken: the default is for NDIGIT outside 2 to 6, which is rejected before",
  "tightened": []
 },
 "Nested.in_material": {
  "claim": "no claim is broken: a material that has been read has no file for which insertion is undefined, so the branch is not reached",
  "tightened": []
 },
 "Sec2.make_rm_lvalue": {
  "claim": "C46: the LRX field of a Reich-Moore l value that is made is 0",
  "tightened": [
   "C46_rm_columns",
   "C46_bw_columns"
  ]
 },
 "Sec7.elements_ok": {
  "claim": "no claim is broken: NA is an unsigned int, so that <= 0 and = 0 are the same",
  "tightened": []
 },
 "Sec2.check_lvalue": {
  "claim": "no claim is broken: the number of words is at least 1 and equals 6 times N2, so N2 is at least 1 anyway",
  "tightened": []
 },
 "Sec2.check_pairs_rml": {
  "claim": "no claim is broken: the number of words is at least 1 and equals 12 times L1, so L1 is at least 1 anyway",
  "tightened": []
 },
 "Sec2.group_NE": {
  "claim": "no claim is broken: the groups of J values are never empty, so that case is not reached",
  "tightened": []
 },
 "Typed.ymat_section": {
  "claim": "C32 the sections of a material that was read; file 30 has none",
  "tightened": [
   "C32_file_30"
  ]
 },
 "Sec451.sec_parse": {
  "claim": "C71 parse() of a tree section, where it is undefined",
  "tightened": [
   "C71_section_parse_undefined"
  ]
 },
 "Sec7.ei_NAS": {
  "claim": "C50 NAS() of an element",
  "tightened": [
   "C50_atoms",
   "C50_atoms_read"
  ]
 },
 "Records.head_make": {
  "claim": "C01, C39 the HEAD that is written says what the section is",
  "tightened": [
   "C01_head_made"
  ]
 },
 "Sec1.make_decay": {
  "claim": "C37 decay constants",
  "tightened": [
   "C37_decay_constants"
  ]
 },
 "Sec2.make_dependent": {
  "claim": "C46 columns of a J value",
  "tightened": [
   "C46_dependent"
  ]
 }
}