(** Classes.v -- the section classes of the library and the one a file of number MF
    uses for section MT: file/Type/src/readSection.hpp:1-10 (MF not listed below),
    file/1/src/readSection.hpp:1-24, file/2/src/readSection.hpp:1-16, file/7/src/readSection.hpp:1-18,
    file/8/src/readSection.hpp:1-18, file/32/src/readSection.hpp:1-14.
    Generated by tools/classes.py.  A class that is not listed is not modelled; the
    model throws where the library would read it. *)
From Verif Require Import Base Disco Records Sections Typed Sec1 Sec451 SecKit Sec9 Sec4 Sec6 Sec33 Sec8 Sec7 Sec2 Sec32 Sec28.
Open Scope Z_scope.
(** the classes listed in file/Type.hpp:20-57 and file/1.hpp:1-60, file/2.hpp:1-50, file/7.hpp:1-50, file/8.hpp:1-50, file/32.hpp:1-50 *)
Inductive sclass :=
| K1_451
| K1_452
| K1_455
| K1_456
| K1_458
| K1_460
| K2_151
| K2_152
| K3
| K23
| K27
| K4
| K5
| K6
| K7_2
| K7_4
| K7_451
| K8_454
| K8_457
| K8_459
| K9
| K10
| K12
| K13
| K14
| K15
| K26
| K28
| K31
| K32_151
| K33
| K34
| K35
| K40.
(** the classes listed in file/Type.hpp:20-57 *)
Definition sbody (c : sclass) : Type :=
  match c with
  | K1_451 => descr
  | K1_452 => mult
  | K1_455 => decay * mult
  | K1_456 => mult
  | K1_458 => fission_q
  | K1_460 => photons
  | K2_151 => list resisotope
  | K2_152 => shielding
  | K3 => tab1
  | K23 => tab1
  | K27 => tab1
  | K4 => body4
  | K5 => list partial5
  | K6 => body6
  | K7_2 => elastic
  | K7_4 => thermal
  | K7_451 => list listr
  | K8_454 => list listr
  | K8_457 => decay8
  | K8_459 => list listr
  | K9 => levels
  | K10 => levels
  | K12 => production
  | K13 => multiplicities
  | K14 => body14
  | K15 => list partial15
  | K26 => list (product law26)
  | K28 => list listr
  | K31 => list block
  | K32_151 => list cisotope
  | K33 => Z * list block
  | K34 => Z * list block34
  | K35 => list listr
  | K40 => Z * list level
  end.
(** the classes listed in file/Type.hpp:20-57 *)
Definition skind_of (c : sclass) : skind (sbody c) :=
  match c as c return skind (sbody c) with
  | K1_451 => sec_451
  | K1_452 => sec_452
  | K1_455 => sec_455
  | K1_456 => sec_456
  | K1_458 => sec_458
  | K1_460 => sec_460
  | K2_151 => sec_2_151
  | K2_152 => sec_2_152
  | K3 => sec_3
  | K23 => sec_23
  | K27 => sec_27
  | K4 => sec_4
  | K5 => sec_5
  | K6 => sec_6
  | K7_2 => sec_7_2
  | K7_4 => sec_7_4
  | K7_451 => sec_7_451
  | K8_454 => sec_8_454
  | K8_457 => sec_8_457
  | K8_459 => sec_8_459
  | K9 => sec_9
  | K10 => sec_10
  | K12 => sec_12
  | K13 => sec_13
  | K14 => sec_14
  | K15 => sec_15
  | K26 => sec_26
  | K28 => sec_28
  | K31 => sec_31
  | K32_151 => sec_32_151
  | K33 => sec_33
  | K34 => sec_34
  | K35 => sec_35
  | K40 => sec_40
  end.
(** file/Type/src/readSection.hpp:1-10, file/1/src/readSection.hpp:1-24, file/2/src/readSection.hpp:1-16, file/7/src/readSection.hpp:1-18, file/8/src/readSection.hpp:1-18, file/32/src/readSection.hpp:1-14 *)
Definition lib_class (mf mt : Z) : option sclass :=
  if (mf =? 1) && (mt =? 451) then Some K1_451 else
  if (mf =? 1) && (mt =? 452) then Some K1_452 else
  if (mf =? 1) && (mt =? 455) then Some K1_455 else
  if (mf =? 1) && (mt =? 456) then Some K1_456 else
  if (mf =? 1) && (mt =? 458) then Some K1_458 else
  if (mf =? 1) && (mt =? 460) then Some K1_460 else
  if (mf =? 2) && (mt =? 151) then Some K2_151 else
  if (mf =? 2) && (mt =? 152) then Some K2_152 else
  if mf =? 3 then Some K3 else
  if mf =? 23 then Some K23 else
  if mf =? 27 then Some K27 else
  if mf =? 4 then Some K4 else
  if mf =? 5 then Some K5 else
  if mf =? 6 then Some K6 else
  if (mf =? 7) && (mt =? 2) then Some K7_2 else
  if (mf =? 7) && (mt =? 4) then Some K7_4 else
  if (mf =? 7) && (mt =? 451) then Some K7_451 else
  if (mf =? 8) && (mt =? 454) then Some K8_454 else
  if (mf =? 8) && (mt =? 457) then Some K8_457 else
  if (mf =? 8) && (mt =? 459) then Some K8_459 else
  if mf =? 9 then Some K9 else
  if mf =? 10 then Some K10 else
  if mf =? 12 then Some K12 else
  if mf =? 13 then Some K13 else
  if mf =? 14 then Some K14 else
  if mf =? 15 then Some K15 else
  if mf =? 26 then Some K26 else
  if mf =? 28 then Some K28 else
  if mf =? 31 then Some K31 else
  if (mf =? 32) && (mt =? 151) then Some K32_151 else
  if mf =? 33 then Some K33 else
  if mf =? 34 then Some K34 else
  if mf =? 35 then Some K35 else
  if mf =? 40 then Some K40 else
  None.
