(** Make.v -- model of the constructors of the sections from their parts, and of the small
    blocks they are made of. *)
From Verif Require Import Base Disco Records Sections Sec1 Sec451 SecKit Sec9 Sec4 Sec6 Sec33 Sec8 Sec7 Sec2 Sec28 Sec32 Fission.
Open Scope Z_scope.

(** the base class first, then the fields and their checks *)
(** section/Base/src/ctor.hpp:1-38, section/BaseWithoutMT/src/ctor.hpp:1-45 *)
Definition section_of {B} (wmt : bool) (za : Z) (awr : real) (mt : Z) (o : out B) : out (sect B) :=
  let! x := make_section wmt za awr mt tt in let! b := o in Val (mksect (s_za x) (s_awr x) (s_mt x) b).

(** ** File 1 *)
(** section/1/451/src/ctor.hpp:50-65 *)
Definition make451 (za : Z) (awr : real) (lrp lfi nlib nmod : Z) (elis sta : real) (lis liso nfor : Z)
    (awi emax : real) (lrel nsub nver : Z) (temp : real) (ldrv : Z) (description : text) (index : list dir) (rtol : real) : out (sect descr) :=
  section_of false za awr 451 (Val (make_descr lrp lfi nlib nmod elis sta lis liso nfor awi emax lrel nsub nver temp rtol ldrv description index)).
(** section/1/452/src/ctor.hpp:16-17 *)
Definition make452 (za : Z) (awr : real) (m : mult) : out (sect mult) := section_of false za awr 452 (Val m).
(** section/1/455/src/ctor.hpp:17-20 *)
Definition make455 (za : Z) (awr : real) (d : decay) (m : mult) : out (sect (decay * mult)) := section_of false za awr 455 (Val (d, m)).
(** section/1/456/src/ctor.hpp:16-17 *)
Definition make456 (za : Z) (awr : real) (m : mult) : out (sect mult) := section_of false za awr 456 (Val m).
(** section/1/460/src/ctor.hpp:16-17 *)
Definition make460 (za : Z) (awr : real) (p : photons) : out (sect photons) := section_of false za awr 460 (Val p).
(** section/1/460/DiscretePhotons/src/ctor.hpp:1-52, section/1/460/DiscretePhotons/src/verifySize.hpp:1-11 *)
Definition make_discrete_photons (l : list tab1) : out photons := if isize l <=? 0 then Throw EStd else Val (DiscretePhotons l).

(** ** Files 2 and 32 *)
(** section/2/151/src/ctor.hpp:16-20 *)
Definition make151 (za : Z) (awr : real) (l : list resisotope) : out (sect (list resisotope)) := section_of false za awr 151 (make_isotopes l).
(** section/2/151/src/ctor.hpp:30-34 *)
Definition make151_ranges (za : Z) (awr : real) (lfw : bool) (rs : list range) : out (sect (list resisotope)) := section_of false za awr 151 (make_151_ranges za lfw rs).
(** section/2/151/src/ctor.hpp:46-49 *)
Definition make151_special (za : Z) (awr el eh spin ap : real) : out (sect (list resisotope)) := section_of false za awr 151 (make_151_special za el eh spin ap).
(** section/2/152/src/ctor.hpp:45-60 *)
Definition make152 (za : Z) (awr : real) (lssf : bool) (inter : Z) (temp : real) (dil es : list real) (tot el fi ca cw : list (list real)) : out (sect shielding) :=
  section_of false za awr 152 (make_152 lssf inter temp dil es tot el fi ca cw).
(** section/2/152/src/ctor.hpp:83-94: one dilution *)
Definition make152_infinite (za : Z) (awr : real) (lssf : bool) (inter : Z) (temp : real) (es tot el fi ca cw : list real) : out (sect shielding) :=
  section_of false za awr 152 (make_152_infinite lssf inter temp es tot el fi ca cw).
(** section/32/151/src/ctor.hpp:16-20 *)
Definition make32_151 (za : Z) (awr : real) (l : list cisotope) : out (sect (list cisotope)) := section_of false za awr 151 (make_cisotopes l).
(** section/32/151/src/ctor.hpp:30-34 *)
Definition make32_151_ranges (za : Z) (awr : real) (lfw : bool) (rs : list crange) : out (sect (list cisotope)) := section_of false za awr 151 (make_32_ranges za lfw rs).

(** ** Files 4 to 8 *)
(** section/4/src/ctor.hpp:18-21: lct becomes an int *)
Definition make4 (mt za : Z) (awr : real) (lct : Z) (d : dist4) : out (sect body4) := section_of true za awr mt (Val (mkbody4 (i32 lct) d)).
(** section/5/src/ctor.hpp:17-22, section/5/src/verifyNK.hpp:1-10 *)
Definition some_partials {C} (l : list C) : out (list C) := if isize l =? 0 then Throw EStd else Val l.
(** section/5/src/ctor.hpp:17-22 *)
Definition make5 (mt za : Z) (awr : real) (l : list partial5) : out (sect (list partial5)) := section_of true za awr mt (some_partials l).
(** section/6/src/ctor.hpp:19-22: jp and lct become ints *)
Definition make6 (mt za : Z) (awr : real) (jp lct : Z) (l : list (product law6)) : out (sect body6) := section_of true za awr mt (Val (mkbody6 (i32 jp) (i32 lct) l)).
(** section/7/2/src/ctor.hpp:16-17 *)
Definition make7_2 (za : Z) (awr : real) (e : elastic) : out (sect elastic) := section_of false za awr 2 (Val e).
(** section/7/4/src/ctor.hpp:24-39 *)
Definition make7_4 (za : Z) (awr : real) (lat lasym : Z) (l : listr) (w : inelastic) (p : tab1) (os : list (option tab1)) : out (sect thermal) :=
  section_of false za awr 4 (make_thermal lat lasym l w p os).
(** section/7/451/src/ctor.hpp:8-12 *)
Definition make7_451 (za : Z) (awr : real) (l : list listr) : out (sect (list listr)) := section_of false za awr 451 (make_elements l).
(** section/7/451/src/ctor.hpp:21-22 *)
Definition make7_451_one (za : Z) (awr : real) (e : listr) : out (sect (list listr)) := make7_451 za awr [e].
(** section/8/454/src/ctor.hpp:16-18, section/8/459/src/ctor.hpp:16-18 *)
Definition make_yield_section (mt za : Z) (awr : real) (l : list listr) : out (sect (list listr)) := section_of false za awr mt (Val l).
(** section/8/454/src/ctor.hpp:30-37, section/8/459/src/ctor.hpp:30-37; section/8/FissionYieldData/src/ctor.hpp:25-38: energy 0, interpolation 0 *)
Definition make_yield_one (mt za : Z) (awr : real) (ids states : list Z) (ys : list (real * real)) : out (sect (list listr)) :=
  section_of false za awr mt (let! l := make_yield ids states ys rzero 0 in Val [l]).
(** section/8/454/src/ctor.hpp:57-68, section/8/459/src/ctor.hpp:57-68 *)
Definition make_yield_many (mt za : Z) (awr : real) (ids states : list Z) (es : list real) (ints : list Z) (ys : list (list (real * real))) : out (sect (list listr)) :=
  section_of false za awr mt (make_yields ids states es ints ys).
(** section/8/457/src/ctor.hpp:19-22 *)
Definition make457_stable (za : Z) (awr : real) (lis liso : Z) (spin parity : real) : out (sect decay8) := section_of false za awr 457 (Val (stable_decay8 lis liso spin parity)).
(** section/8/457/src/ctor.hpp:35-43 *)
Definition make457 (za : Z) (awr : real) (lis liso : Z) (e m : listr) (ss : list spectrum8) : out (sect decay8) := section_of false za awr 457 (Val (make_decay8 lis liso e m ss)).

(** ** Files 9, 10, 12, 13, 14, 15 *)
(** section/9/src/ctor.hpp:18-20, section/10/src/ctor.hpp:18-20: lis becomes an int *)
Definition make9 (mt za : Z) (awr : real) (lis : Z) (l : list tab1) : out (sect levels) := section_of true za awr mt (Val (mklevels (i32 lis) l)).
(** section/10/src/ctor.hpp:18-20 *)
Definition make10 (mt za : Z) (awr : real) (lis : Z) (l : list tab1) : out (sect levels) := section_of true za awr mt (Val (mklevels (i32 lis) l)).
(** section/12/src/ctor.hpp:17-18 *)
Definition make12 (mt za : Z) (awr : real) (p : production) : out (sect production) := section_of true za awr mt (Val p).
(** section/13/src/ctor.hpp:6-14, section/13/src/verifyNK.hpp:1-12 *)
Definition make13 (mt za : Z) (awr : real) (t : option tab1) (l : list tab1) : out (sect multiplicities) := section_of true za awr mt (make_multiplicities t l).
(** section/13/src/ctor.hpp:31-37 *)
Definition make13_one (mt za : Z) (awr : real) (p : tab1) : out (sect multiplicities) := make13 mt za awr None [p].
(** section/13/src/ctor.hpp:45-50 *)
Definition make13_total (mt za : Z) (awr : real) (t : tab1) (l : list tab1) : out (sect multiplicities) := make13 mt za awr (Some t) l.
(** section/14/src/ctor.hpp:17-19: nk is an unsigned int, NK() an int *)
Definition make14_isotropic (mt za : Z) (awr : real) (nk : Z) : out (sect body14) := section_of true za awr mt (Val (AllIsotropic (i32 nk))).
(** section/14/src/ctor.hpp:29-32 *)
Definition make14 (mt za : Z) (awr : real) (l : list photon14) : out (sect body14) := section_of true za awr mt (Val (body14_of 0 l)).
(** section/14/src/makePhotonDistributions.hpp:1-22 *)
Definition photon_list (iso : list (real * real)) (ani : list photon14) : list photon14 := map (fun p => Isotropic14 (fst p) (snd p)) iso ++ ani.
(** section/14/src/ctor.hpp:43-48 *)
Definition make14_parts (mt za : Z) (awr : real) (iso : list (real * real)) (ani : list photon14) : out (sect body14) := make14 mt za awr (photon_list iso ani).
(** section/14/src/ctor.hpp:59-65, section/14/src/makeArrays.hpp:1-24: the size is an unsigned int *)
Definition make14_columns (mt za : Z) (awr : real) (energies levels : list real) (ani : list photon14) : out (sect body14) :=
  if negb (u32 (Z.of_nat (length energies)) =? Z.of_nat (length levels)) then Throw EStd else make14_parts mt za awr (combine energies levels) ani.
(** section/15/src/ctor.hpp:17-22, section/5/src/verifyNK.hpp:1-10 *)
Definition make15 (mt za : Z) (awr : real) (l : list partial15) : out (sect (list partial15)) := section_of true za awr mt (some_partials l).

(** ** Files 26 to 40 *)
(** section/26/src/ctor.hpp:17-20 *)
Definition make26 (mt za : Z) (awr : real) (l : list (product law26)) : out (sect (list (product law26))) := section_of true za awr mt (Val l).
(** section/28/src/ctor.hpp:17-19 *)
Definition make28 (mt za : Z) (awr : real) (l : list listr) : out (sect (list listr)) := section_of true za awr mt (Val l).
(** section/31/src/ctor.hpp:9-12 *)
Definition make31 (mt za : Z) (awr : real) (l : list block) : out (sect (list block)) := section_of true za awr mt (Val l).
(** section/33/src/ctor.hpp:9-12: mtl_ is 0 *)
Definition make33 (mt za : Z) (awr : real) (l : list block) : out (sect (Z * list block)) := section_of true za awr mt (Val (0, l)).
(** section/33/src/ctor.hpp:22-23: no reactions *)
Definition make33_lumped (mt za : Z) (awr : real) (mtl : Z) : out (sect (Z * list block)) := section_of true za awr mt (Val (mtl, [])).
(** section/34/src/ctor.hpp:10-13 *)
Definition make34 (mt za : Z) (awr : real) (ltt : Z) (l : list block34) : out (sect (Z * list block34)) := section_of true za awr mt (Val (ltt, l)).
(** section/35/src/ctor.hpp:9-12 *)
Definition make35 (mt za : Z) (awr : real) (l : list listr) : out (sect (list listr)) := section_of true za awr mt (Val l).
(** section/40/src/ctor.hpp:10-13 *)
Definition make40 (mt za : Z) (awr : real) (lis : Z) (l : list level) : out (sect (Z * list level)) := section_of true za awr mt (Val (lis, l)).

(** ** MF32: the composites *)
(** section/32/151/CompactSingleLevelBreitWigner/src/ctor.hpp:1-74, section/32/151/CompactMultiLevelBreitWigner/src/ctor.hpp:1-75,
    section/32/151/CompactCovarianceBase/src/ctor.hpp:1-60: L1 and N1 are 0 *)
Definition make_compact_bw (spi ap : real) (dap : option real) (u : listr) (m : corr) : compact real listr := mkcompact spi ap 0 0 dap u m.
(** section/32/151/CompactReichMoore/src/ctor.hpp:1-82: lad becomes L1 *)
Definition make_compact_rm (spi ap : real) (lad : bool) (dap : option listr) (u : listr) (m : corr) : compact listr listr := mkcompact spi ap (b2z lad) 0 dap u m.
(** section/32/151/CompactReichMoore.hpp:61-64: a long as a bool *)
Definition compact_LAD {D U} (x : compact D U) : bool := negb (co_l1 x =? 0).
(** section/32/151/CompactRMatrixLimitedUncertainties.hpp:37 *)
Definition r32_NJSX (u : rml32) : Z := u32 (Z.of_nat (length (r32_groups u))).
(** section/32/151/CompactRMatrixLimited/src/ctor.hpp:17-55: NJSX of the parameters becomes N1 *)
Definition make_compact_rml (ifg : bool) (dap : option listr) (u : rml32) (m : corr) : compact listr rml32 := mkcompact rzero rzero (b2z ifg) (r32_NJSX u) dap u m.
(** section/32/151/CompactRMatrixLimited.hpp:44-52: a long as a bool *)
Definition compact_IFG {D U} (x : compact D U) : bool := negb (co_l1 x =? 0).
(** section/32/151/CompactRMatrixLimited.hpp:55: a long as an unsigned int *)
Definition compact_NJS {D U} (x : compact D U) : Z := u32 (co_n1 x).

(** ** blocks of Files 31, 33, 34 and 40 *)
(** section/ReactionBlock/src/ctor.hpp:12-19 *)
Definition make_block (xmf1 xlfs1 mat1 mt1 : Z) (nc : list derived) (ni : list explicit) : block := mkblock xmf1 xlfs1 mat1 mt1 nc ni.
(** section/ReactionBlock/src/ctor.hpp:31-36: derived covariances only *)
Definition make_block_nc (xmf1 xlfs1 mat1 mt1 : Z) (nc : list derived) : block := make_block xmf1 xlfs1 mat1 mt1 nc [].
(** section/ReactionBlock/src/ctor.hpp:48-53: explicit covariances only *)
Definition make_block_ni (xmf1 xlfs1 mat1 mt1 : Z) (ni : list explicit) : block := make_block xmf1 xlfs1 mat1 mt1 [] ni.
(** section/ReactionBlock.hpp:1-137: NK() *)
Definition block_NK (b : block) : Z := isize (b_nc b).
(** section/ReactionBlock.hpp:1-137: NI() *)
Definition block_NI (b : block) : Z := isize (b_ni b).
(** section/34/LegendreBlock/src/ctor.hpp:1-15 *)
Definition make_legblock (l l1 lct : Z) (data : list explicit) : legblock := mklegblock l l1 lct data.
(** section/34/LegendreBlock.hpp:1-78: NI() *)
Definition leg_NI (b : legblock) : Z := isize (lg_data b).
(** section/34/ReactionBlock.hpp:1-89: NSS() *)
Definition b34_NSS (b : block34) : Z := isize (b34_blocks b).
(** section/40/LevelBlock/src/ctor.hpp:1-20 *)
Definition make_level (qm qi : real) (izap lfs : Z) (rs : list block) : level := mklevel qm qi izap lfs rs.
(** section/40/LevelBlock.hpp:1-88: NL() *)
Definition level_NL (x : level) : Z := isize (lv_reactions x).
