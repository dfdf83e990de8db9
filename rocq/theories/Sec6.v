(** Sec6.v -- Files 6 and 26.  Paths relative to /repo/src/ENDFtk/section. *)
From Verif Require Import Base Disco Records Sections SecKit Sec9.
Open Scope Z_scope.

(** a TAB2 record, then NZ() records read in  while ( n-- )  with n a long, then the
    InterpolationSequenceRecord constructor; the way a record is read may depend on the TAB2:
    section/6/ContinuumEnergyAngle/src/ctor.hpp:53-93, section/6/DiscreteTwoBodyScattering/src/ctor.hpp:44-85,
    section/6/ChargedParticleElasticScattering/src/ctor.hpp:47-88.  reserve( n ) is not modelled:
    NZ() is not negative, and running out of memory is left out. *)
Definition rd_iseqw {C} (rd : tab2 -> Z -> Z -> Z -> M C) (mat mf mt : Z) : M (iseq C) :=
  t <- rd_tab2 mat mf mt ;; l <- rd_while (rd t) (tn2 t) mat mf mt ;; lift (make_iseq no_more t l).

(** arithmetic on int: undefined when the result does not fit *)
(** not code: int arithmetic (overflow is undefined) and a check that throws *)
Definition in32 (z : Z) : bool := (-2147483648 <=? z) && (z <? 2147483648).
(** not code: int arithmetic (overflow is undefined) and a check that throws *)
Definition int_op (z : Z) : out Z := if in32 z then Val z else Undef.
Notation "'let!' x := a 'in' b" := (obind a (fun x => b)) (at level 200, x name, a at level 100, b at level 200).
(** not code: int arithmetic (overflow is undefined) and a check that throws *)
Definition ensure (b : bool) : out unit := if b then Val tt else Throw EStd.

(** ** LAW = 1 *)
(** the elements at 0, k, 2k, ...: ranges::views::stride( k ) *)
(** not code: range-v3 stride, as in section/6/ContinuumEnergyAngle/Base.hpp:97-111 *)
Definition stride (k : nat) (l : list real) : list real := map (fun c => nth 0 c rzero) (chunks (length l) k l).
(** section/6/ContinuumEnergyAngle/Base.hpp:28-71: ND(), NA(), NW(), NEP() are longs; EP() is a stride
    of 2 + NA() *)
Definition EP (l : listr) : list real := stride (Z.to_nat (2 + lL2 l)) (lB l).
(** section/6/ContinuumEnergyAngle/Base/src/verifySize.hpp:1-14: the arguments become int *)
Definition size1 (l : listr) : out unit :=
  let! a := int_op (i32 (lL2 l) + 2) in
  let! p := int_op (i32 (lN2 l) * a) in
  ensure (i32 (npl l) =? p).
(** section/6/ContinuumEnergyAngle/Base/src/ctor.hpp:9-15: the energies are computed and dropped before
    the sizes are verified: a stride that is not positive, and drop_exactly( ND ) of fewer than
    ND (or a negative number of) elements is undefined.  section/6/src/verifySorted.hpp:1-16 *)
Definition base1 (l : listr) : out unit :=
  if 2 + lL2 l <=? 0 then Undef
  else if (lL1 l <? 0) || (Z.of_nat (length (EP l)) <? lL1 l) then Undef
  else if is_sorted rlt (skipn (Z.to_nat (lL1 l)) (EP l)) then size1 l else Throw EStd.
(** section/6/ContinuumEnergyAngle/KalbachMann/src/ctor.hpp:11-15, section/6/ContinuumEnergyAngle/KalbachMann/src/verifyNA.hpp:1-11 *)
Definition kalbach1 (l : listr) : out unit :=
  let! u := base1 l in ensure ((i32 (lL2 l) =? 1) || (i32 (lL2 l) =? 2)).
(** section/6/ContinuumEnergyAngle/src/readSequence.hpp:15-42 (LANG is a long, the switch is inside the
    loop); section/6/ContinuumEnergyAngle/LegendreCoefficients/src/ctor.hpp:43-52, section/6/ContinuumEnergyAngle/TabulatedDistribution/src/ctor.hpp:13-17,64-74
    (checkLANG always holds here), section/6/ContinuumEnergyAngle/ThermalScatteringData/src/ctor.hpp:51-60 (no check).
    verifyLANG (section/6/ContinuumEnergyAngle/src/ctor.hpp:17) holds for what was read. *)
Definition lang_base (lang : Z) : bool := (lang =? 1) || ((11 <=? lang) && (lang <=? 15)).
(** section/6/ContinuumEnergyAngle/src/readSequence.hpp:15-42 *)
Definition check1 (lang : Z) (l : listr) : out unit :=
  if lang_base lang then base1 l else if lang =? 2 then kalbach1 l else Val tt.
(** section/6/ContinuumEnergyAngle/src/readSequence.hpp:15-42 *)
Definition rd_law1_rec (lang mat mf mt : Z) : M listr :=
  require (lang_base lang || (lang =? 2) || (lang =? 3)) ;;;
  l <- rd_list mat mf mt ;; lift (check1 lang l) ;;; ret l.
(** section/6/ContinuumEnergyAngle/src/ctor.hpp:1-93 *)
Definition rd_law1 : Z -> Z -> Z -> M (iseq listr) := rd_iseqw (fun t => rd_law1_rec (tL1 t)).
(** the constructors from parts.  section/6/ContinuumEnergyAngle/LegendreCoefficients/src/generateList.hpp:1-33:
    1 + na is computed on unsigned int *)
Fixpoint rows1 (es : list real) (cs : list (list real)) : list real :=
  match es, cs with e :: es', c :: cs' => (e :: c) ++ rows1 es' cs' | _, _ => [] end.
(** section/6/ContinuumEnergyAngle/LegendreCoefficients/src/ctor.hpp:1-52 *)
Definition make_leg1 (energy : real) (nd na : Z) (es : list real) (cs : list (list real)) : out listr :=
  if negb (length es =? length cs)%nat then Throw EStd
  else if negb (forallb (fun c => Z.of_nat (length c) =? u32 (1 + u32 na)) cs) then Throw EStd
  else let l := mklist rzero energy nd na (Z.of_nat (length es)) (rows1 es cs) in
       let! u := base1 l in Val l.
(** section/6/ContinuumEnergyAngle/KalbachMann/src/ctor.hpp:26-53: rows of na + 2 numbers *)
Definition make_kalbach1 (energy : real) (nd na : Z) (rows : list (list real)) : out listr :=
  let l := mklist rzero energy nd na (Z.of_nat (length rows)) (concat rows) in
  let! u := kalbach1 l in Val l.
(** section/6/ContinuumEnergyAngle/Base.hpp:73-111: F0() is drop_exactly( 1 ) | stride( 2 + NA ), undefined for
    an empty list; data(): the chunks without their first number *)
Definition F0 (l : listr) : out (list real) :=
  match lB l with [] => Undef | _ :: b => Val (stride (Z.to_nat (2 + lL2 l)) b) end.
(** section/6/ContinuumEnergyAngle/Base.hpp:106-111 *)
Definition data1 (l : listr) : list (list real) :=
  map (@tl real) (chunks (length (lB l)) (Z.to_nat (2 + lL2 l)) (lB l)).

(** ** LAW = 2 *)
(** section/6/DiscreteTwoBodyScattering/LegendreCoefficients/src/verifySize.hpp:1-12 and
    section/6/DiscreteTwoBodyScattering/TabulatedDistribution/src/verifySize.hpp:1-12, section/6/DiscreteTwoBodyScattering/TabulatedDistribution/src/verifyLANG.hpp:1-11 (as int; implied by the switch
    on the long); section/6/DiscreteTwoBodyScattering/src/readSequence.hpp:14-35 *)
Definition size_tab (l : listr) : out unit :=
  let! p := int_op (2 * i32 (lN2 l)) in ensure (i32 (npl l) =? p).
(** section/6/DiscreteTwoBodyScattering/src/readSequence.hpp:1-38, section/6/DiscreteTwoBodyScattering/LegendreCoefficients/src/verifySize.hpp:1-12, section/6/DiscreteTwoBodyScattering/TabulatedDistribution/src/verifySize.hpp:1-12 *)
Definition check2 (l : listr) : out unit :=
  if lL1 l =? 0 then ensure (i32 (npl l) =? i32 (lN2 l))
  else if (lL1 l =? 12) || (lL1 l =? 14) then size_tab l
  else Throw EStd.
(** not code: a LIST record and the check of the class made from it, section/6/DiscreteTwoBodyScattering/src/readSequence.hpp:1-30 *)
Definition rd_checked (chk : listr -> out unit) (mat mf mt : Z) : M listr :=
  l <- rd_list mat mf mt ;; lift (chk l) ;;; ret l.
(** section/6/DiscreteTwoBodyScattering/src/ctor.hpp:1-85 *)
Definition rd_law2 : Z -> Z -> Z -> M (iseq listr) := rd_iseqw (fun _ => rd_checked check2).
(** section/6/DiscreteTwoBodyScattering/TabulatedDistribution/src/ctor.hpp:27-39,
    section/6/DiscreteTwoBodyScattering/TabulatedDistribution/src/generateList.hpp:1-21 (lang is an int); the same
    code for LAW = 5, section/6/ChargedParticleElasticScattering/NuclearPlusInterference/src/ctor.hpp:46-58, with LTP *)
Definition make_tab_cosines (ok : Z -> bool) (incident : real) (lang : Z) (cosines probs : list real) : out listr :=
  if negb (length cosines =? length probs)%nat then Throw EStd
  else let l := mklist rzero incident lang 0 (Z.of_nat (length cosines)) (interleave2 cosines probs) in
       if ok (i32 lang) then let! u := size_tab l in Val l else Throw EStd.
(** section/6/DiscreteTwoBodyScattering/TabulatedDistribution/src/verifyLANG.hpp:1-11 *)
Definition lang2 (z : Z) : bool := (z =? 12) || (z =? 14).
(** section/6/ChargedParticleElasticScattering/NuclearPlusInterference/src/verifyLTP.hpp:1-12 *)
Definition ltp5 (z : Z) : bool := (z =? 12) || (z =? 14) || (z =? 15).
(** ** LAW = 5 *)
(** section/6/ChargedParticleElasticScattering/NuclearAmplitudeExpansion/src/verifySize.hpp:1-12,
    section/6/ChargedParticleElasticScattering/LegendreCoefficients/src/verifySize.hpp:1-12, section/6/ChargedParticleElasticScattering/NuclearPlusInterference/src/verifySize.hpp:1-12,
    section/6/ChargedParticleElasticScattering/src/readSequence.hpp:14-39 *)
Definition size_amp (l : listr) : out unit :=
  let! a := int_op (3 * i32 (lN2 l)) in let! a := int_op (a + 3) in
  if i32 (npl l) =? a then Val tt
  else let! b := int_op (4 * i32 (lN2 l)) in let! b := int_op (b + 3) in ensure (i32 (npl l) =? b).
(** section/6/ChargedParticleElasticScattering/LegendreCoefficients/src/verifySize.hpp:1-12 *)
Definition size_leg (l : listr) : out unit :=
  let! a := int_op (i32 (lN2 l) + 1) in ensure (i32 (npl l) =? a).
(** section/6/ChargedParticleElasticScattering/src/readSequence.hpp:1-42 *)
Definition check5 (l : listr) : out unit :=
  if lL1 l =? 1 then size_amp l
  else if lL1 l =? 2 then size_leg l
  else if ltp5 (lL1 l) then size_tab l
  else Throw EStd.
(** section/6/ChargedParticleElasticScattering/src/ctor.hpp:1-88 *)
Definition rd_law5 : Z -> Z -> Z -> M (iseq listr) := rd_iseqw (fun _ => rd_checked check5).
(** section/6/ChargedParticleElasticScattering/NuclearAmplitudeExpansion.hpp:55-89: B(), AR(), AI(); take of a negative count gives nothing,
    drop_exactly of more than there is, or of a negative number, is undefined *)
Definition amp_split (l : listr) : Z := npl l - 2 * lN2 l - 2.
(** section/6/ChargedParticleElasticScattering/NuclearAmplitudeExpansion.hpp:55-59 *)
Definition amp_B (l : listr) : list real := firstn (Z.to_nat (amp_split l)) (lB l).
(** section/6/ChargedParticleElasticScattering/NuclearAmplitudeExpansion.hpp:55-90 *)
Definition drop_then_stride2 (n : Z) (l : list real) : out (list real) :=
  if (n <? 0) || (Z.of_nat (length l) <? n) then Undef else Val (stride 2 (skipn (Z.to_nat n) l)).
(** section/6/ChargedParticleElasticScattering/NuclearAmplitudeExpansion.hpp:70-75 *)
Definition amp_AR (l : listr) : out (list real) := drop_then_stride2 (amp_split l) (lB l).
(** section/6/ChargedParticleElasticScattering/NuclearAmplitudeExpansion.hpp:85-90 *)
Definition amp_AI (l : listr) : out (list real) := drop_then_stride2 (amp_split l + 1) (lB l).
(** section/6/ChargedParticleElasticScattering/NuclearAmplitudeExpansion/src/generateList.hpp:1-37, section/6/ChargedParticleElasticScattering/NuclearAmplitudeExpansion/src/ctor.hpp:47-61: NL + 1 and 2 * NL + 1 are
    computed on unsigned int *)
Definition make_amplitudes (energy : real) (nl : Z) (b ar ai : list real) : out listr :=
  if negb (Z.of_nat (length ar) =? u32 (u32 nl + 1)) then Throw EStd
  else if negb (Z.of_nat (length ai) =? u32 (u32 nl + 1)) then Throw EStd
  else if negb ((Z.of_nat (length b) =? u32 (u32 nl + 1)) || (Z.of_nat (length b) =? u32 (2 * u32 nl + 1))) then Throw EStd
  else let l := mklist rzero energy 1 0 nl (b ++ interleave2 ar ai) in
       let! u := size_amp l in Val l.
(** section/6/ChargedParticleElasticScattering/LegendreCoefficients/src/ctor.hpp:25-29: coefficients.size() - 1 as a long *)
Definition make_leg5 (energy : real) (cs : list real) : out listr :=
  let l := mklist rzero energy 2 0 (Z.of_nat (length cs) - 1) cs in
  let! u := size_leg l in Val l.

(** section/6/DiscreteTwoBodyScattering/TabulatedDistribution.hpp:63-83,
    section/6/ChargedParticleElasticScattering/NuclearPlusInterference.hpp:55-75: MU() and F() / PNI() *)
Definition tab_cosines (l : listr) : list real := stride 2 (lB l).
(** section/6/DiscreteTwoBodyScattering/TabulatedDistribution.hpp:63-83 *)
Definition tab_probs (l : listr) : out (list real) := drop_then_stride2 1 (lB l).

(** ** LAW = 7: section/6/LaboratoryAngleEnergy/src/ctor.hpp:43-59, AngularDistribution and
    EnergyDistribution: a TAB2 of TAB2 of TAB1 records *)
Definition rd_law7 : Z -> Z -> Z -> M (iseq (iseq tab1)) := rd_iseq no_more (rd_iseq no_more rd_tab1).

(** ** products *)
(** section/6.hpp:68-76: the variant.  NBodyPhaseSpace is a CONT record; Unknown, IsotropicDiscreteEmission
    and DiscreteTwoBodyRecoils have no data (section/6/NoLawDataGiven.hpp:1-32) *)
Inductive law6 :=
  Elsewhere (law : Z) | UnknownLaw | Continuum (q : iseq listr) | TwoBody (q : iseq listr)
| DiscreteIso | Recoil | ChargedElastic (q : iseq listr) | NBody (c : cont) | LabAngle (q : iseq (iseq tab1)).
(** section/6/ReactionProduct.hpp:61, and LAW() of the classes of section/6 *)
Definition LAW6 (d : law6) : Z :=
  match d with
  | Elsewhere n => n | UnknownLaw => 0 | Continuum _ => 1 | TwoBody _ => 2 | DiscreteIso => 3
  | Recoil => 4 | ChargedElastic _ => 5 | NBody _ => 6 | LabAngle _ => 7
  end.
(** section/6/ReactionProduct/src/readDistribution.hpp:11-44.  [hmt] is the section number of the HEAD, with
    which the records are read. *)
Definition elsewhere (law : Z) : bool := (law =? -4) || (law =? -5) || (law =? -14) || (law =? -15).
(** section/6/ReactionProduct/src/readDistribution.hpp:1-45 *)
Definition rd_law6 (hmt law mat mf mt : Z) : M law6 :=
  if elsewhere law then require (hmt =? 18) ;;; ret (Elsewhere law)
  else if law =? 0 then ret UnknownLaw
  else if law =? 1 then q <- rd_law1 mat mf mt ;; ret (Continuum q)
  else if law =? 2 then q <- rd_law2 mat mf mt ;; ret (TwoBody q)
  else if law =? 3 then ret DiscreteIso
  else if law =? 4 then ret Recoil
  else if law =? 5 then q <- rd_law5 mat mf mt ;; ret (ChargedElastic q)
  else if law =? 6 then c <- rd_cont mat mf mt ;; ret (NBody c)
  else if law =? 7 then q <- rd_law7 mat mf mt ;; ret (LabAngle q)
  else throw EStd.
(** section/6/ReactionProduct/src/print.hpp:1-17 *)
Definition pr_law6 (d : law6) (mat mf mt : Z) : text :=
  match d with
  | Elsewhere _ | UnknownLaw | DiscreteIso | Recoil => []
  | Continuum q | TwoBody q | ChargedElastic q => pr_iseq pr_list q mat mf mt
  | NBody c => pr_cont c mat mf mt
  | LabAngle q => pr_iseq (pr_iseq pr_tab1) q mat mf mt
  end.
(** section/6/ReactionProduct.hpp:76-79 *)
Definition nc_law6 (d : law6) : Z :=
  match d with
  | Elsewhere _ | UnknownLaw | DiscreteIso | Recoil => 0
  | Continuum q | TwoBody q | ChargedElastic q => nc_iseq nc_list q
  | NBody c => nc_cont c
  | LabAngle q => nc_iseq (nc_iseq nc_tab1) q
  end.
(** section/6/ReactionProduct.hpp:14-80, section/6/ReactionProduct/src/ctor.hpp:7-51 (verifyLAW holds for what was read), section/6/ReactionProduct/src/print.hpp:11-17;
    section/6/Multiplicity.hpp:1-84: a TAB1 record, ZAP() its C1 rounded, LAW() its L2 as int *)
Record product (L : Type) := mkproduct { p_mult : tab1; p_law : L }.
Arguments mkproduct {L}. Arguments p_mult {L}. Arguments p_law {L}.
(** section/6/ReactionProduct.hpp:61 *)
Definition LAW (m : tab1) : Z := i32 (tL2 (tbase m)).
(** section/6/ReactionProduct/src/ctor.hpp:1-51 *)
Definition rd_product6 (hmt mat mf mt : Z) : M (product law6) :=
  m <- rd_tab1 mat mf mt ;; d <- rd_law6 hmt (LAW m) mat mf mt ;; ret (mkproduct m d).
(** section/6/ReactionProduct/src/ctor.hpp:1-51 *)
Definition make_product6 (m : tab1) (d : law6) : out (product law6) :=
  if LAW m =? LAW6 d then Val (mkproduct m d) else Throw EStd.
(** section/6/ReactionProduct/src/print.hpp:1-17 *)
Definition pr_product {L} (pr : L -> Z -> Z -> Z -> text) (p : product L) (mat mf mt : Z) : text :=
  pr_tab1 (p_mult p) mat mf mt ++ pr (p_law p) mat mf mt.
(** section/6/ReactionProduct.hpp:76-79 *)
Definition nc_product {L} (nc : L -> Z) (p : product L) : Z := nc_tab1 (p_mult p) + nc (p_law p).
(** section/6.hpp:82-121, section/6/src/ctor.hpp:35-52: jp_ and lct_ are ints; section/6/src/print.hpp:10-18, section/6/src/NC.hpp:4-9 *)
Record body6 := mkbody6 { jp6 : Z; lct6 : Z; products6 : list (product law6) }.
(** section/6/src/ctor.hpp:1-52 *)
Definition rd_body6 (h : sdiv) (mat mf mt : Z) : M body6 :=
  ps <- rd_all (rd_product6 (smt h)) (n1 (sbase h)) mat mf mt ;;
  ret (mkbody6 (i32 (l1 (sbase h))) (i32 (l2 (sbase h))) ps).
(** a negative LAW is accepted in section 18 only: section/6/ReactionProduct/src/readDistribution.hpp:12-24 *)
Definition fission_only (mt : Z) (b : body6) : Prop :=
  Forall (fun p => LAW6 (p_law p) < 0 -> mt = 18) (products6 b).
(** section/6.hpp:1-183 *)
Definition sec_6 : skind body6 :=
  mkskinda 6 None false true false rd_body6 (fun b => (jp6 b, lct6 b, isize (products6 b), 0))
    (fun _ b => pr_all (pr_product pr_law6) (products6 b)) (fun b => nc_all (nc_product nc_law6) (products6 b))
    (Some fission_only).
(** section/6/Multiplicity.hpp:19-24, section/26/Multiplicity.hpp:22-27: static_cast< int >( std::round( C1 ) ), undefined outside the range of int *)
Definition ZAP (m : tab1) : out Z :=
  let z := round_int (tC1 (tbase m)) in if (-2147483648 <=? z) && (z <? 2147483648) then Val z else Undef.
(** section/6.hpp:131-137, section/26.hpp:87-93: std::find_if on productIdentifier() *)
Fixpoint find_product {L} (zap : Z) (ps : list (product L)) : out (option (product L)) :=
  match ps with [] => Val None | p :: ps' => let! z := ZAP (p_mult p) in if z =? zap then Val (Some p) else find_product zap ps' end.
(** section/6.hpp:131-137, section/26.hpp:87-93 *)
Definition has_product {L} (zap : Z) (ps : list (product L)) : out bool :=
  let! o := find_product zap ps in Val match o with Some _ => true | None => false end.
(** section/6.hpp:144-158, section/26.hpp:100-114 *)
Definition get_product {L} (zap : Z) (ps : list (product L)) : out (product L) :=
  let! o := find_product zap ps in match o with Some p => Val p | None => Throw EStd end.

(** ** File 26 *)
(** section/26/ContinuumEnergyAngle/src/readSequence.hpp:12-30 (LANG is checked before the first record),
    section/26/DiscreteTwoBodyScattering/src/ctor.hpp:44-55 (readSequence: the count is an int),
    section/6/DiscreteTwoBodyScattering/TabulatedDistribution/src/ctor.hpp:12-17 (LANG as an int) *)
Definition rd_law1_26 (mat mf mt : Z) : M (iseq listr) :=
  t <- rd_tab2 mat mf mt ;; require (tL1 t =? 1) ;;;
  l <- rd_while (rd_checked base1) (tn2 t) mat mf mt ;; lift (make_iseq no_more t l).
(** section/6/DiscreteTwoBodyScattering/TabulatedDistribution/src/verifyLANG.hpp:1-11, section/6/DiscreteTwoBodyScattering/TabulatedDistribution/src/verifySize.hpp:1-12 *)
Definition check_tab26 (l : listr) : out unit := if lang2 (i32 (lL1 l)) then size_tab l else Throw EStd.
(** section/26/DiscreteTwoBodyScattering/src/ctor.hpp:1-85 *)
Definition rd_law2_26 : Z -> Z -> Z -> M (iseq listr) := rd_iseq no_more (rd_checked check_tab26).
(** section/26/ReactionProduct.hpp:1-72 *)
Inductive law26 := Continuum26 (q : iseq listr) | TwoBody26 (q : iseq listr) | Transfer26 (t : tab1).
(** section/26/ReactionProduct.hpp:1-72 *)
Definition LAW26 (d : law26) : Z := match d with Continuum26 _ => 1 | TwoBody26 _ => 2 | Transfer26 _ => 8 end.
(** section/26/ReactionProduct/src/readDistribution.hpp:11-25, section/26/EnergyTransfer/src/ctor.hpp:37-45 *)
Definition rd_law26 (law mat mf mt : Z) : M law26 :=
  if law =? 1 then q <- rd_law1_26 mat mf mt ;; ret (Continuum26 q)
  else if law =? 2 then q <- rd_law2_26 mat mf mt ;; ret (TwoBody26 q)
  else if law =? 8 then t <- rd_tab1 mat mf mt ;; ret (Transfer26 t)
  else throw EStd.
(** section/26/ReactionProduct.hpp:1-72 *)
Definition pr_law26 (d : law26) (mat mf mt : Z) : text :=
  match d with Continuum26 q | TwoBody26 q => pr_iseq pr_list q mat mf mt | Transfer26 t => pr_tab1 t mat mf mt end.
(** section/26/ReactionProduct.hpp:66-69 *)
Definition nc_law26 (d : law26) : Z :=
  match d with Continuum26 q | TwoBody26 q => nc_iseq nc_list q | Transfer26 t => nc_tab1 t end.
(** section/26/ReactionProduct.hpp:1-72 *)
Definition rd_product26 (mat mf mt : Z) : M (product law26) :=
  m <- rd_tab1 mat mf mt ;; d <- rd_law26 (LAW m) mat mf mt ;; ret (mkproduct m d).
(** section/26/ReactionProduct.hpp:1-72 *)
Definition make_product26 (m : tab1) (d : law26) : out (product law26) :=
  if LAW m =? LAW26 d then Val (mkproduct m d) else Throw EStd.
(** section/26/src/ctor.hpp:33-50, section/26/src/print.hpp:10-18, section/26/src/NC.hpp:4-9 *)
Definition sec_26 : skind (list (product law26)) :=
  mkskind 26 None false true false (fun h => rd_all rd_product26 (n1 (sbase h)))
    (fun l => (0, 0, isize l, 0)) (pr_all (pr_product pr_law26)) (nc_all (nc_product nc_law26)).
