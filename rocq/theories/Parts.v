(** Parts.v -- the constructors with named arguments and the named accessors of the
    classes that consist of one record, or of a sequence of records behind a TAB2.
    The readers and printers of these classes are those of the records. *)
From Verif Require Import Base Disco Records Sections SecKit Sec1 Sec9 Sec4 Sec6.
Open Scope Z_scope.

(** TabulationRecord.hpp:1-157: NBT(), boundaries() *)
Definition boundaries (t : tab1) : list Z := tbnd (tbase t).
(** TabulationRecord.hpp:1-157: INT(), interpolants() *)
Definition interpolants (t : tab1) : list Z := tint (tbase t).
(** TabulationRecord.hpp:1-157: NR() *)
Definition NRt (t : tab1) : Z := tnr (tbase t).
(** TabulationRecord.hpp:1-157: NP() *)
Definition NPt (t : tab1) : Z := tnp t.

(** ** File 3 *)
(** section/3/src/ctor.hpp:1-78, section/3.hpp:1-149 the table of the section *)
Definition make_table3 (qm qi : real) (lr : Z) (bnd int : list Z) (energies xs : list real) : out tab1 :=
  make_tab1 qm qi 0 lr bnd int energies xs.
(** section/3/src/ctor.hpp:1-78, section/3.hpp:1-149 *)
Definition make3 (mt za : Z) (awr qm qi : real) (lr : Z) (bnd int : list Z) (energies xs : list real) : out (sect tab1) :=
  obind (make_section true za awr mt tt) (fun b => obind (make_table3 qm qi lr bnd int energies xs) (fun t => Val (mksect (s_za b) (s_awr b) (s_mt b) t))).
(** section/3/src/ctor.hpp:1-78, section/3.hpp:1-149 one interpolation region; the defaults are interpolant = 2 and lr = 0 *)
Definition make3_one (mt za : Z) (awr qm qi : real) (energies xs : list real) (interpolant lr : Z) : out (sect tab1) :=
  make3 mt za awr qm qi lr [Z.of_nat (length energies)] [interpolant] energies xs.
(** section/3.hpp:1-149 *)
Definition QM3 (x : sect tab1) : real := tC1 (tbase (s_body x)).
(** section/3.hpp:1-149 *)
Definition QI3 (x : sect tab1) : real := tC2 (tbase (s_body x)).
(** section/3.hpp:1-149 *)
Definition LR3 (x : sect tab1) : Z := i32 (tL2 (tbase (s_body x))).
(** section/3.hpp:1-149 *)
Definition energies3 (x : sect tab1) : list real := tx (s_body x).
(** section/3.hpp:1-149 *)
Definition crossSections3 (x : sect tab1) : list real := ty (s_body x).

(** ** File 23 *)
(** section/23/src/ctor.hpp:1-49, section/23.hpp:1-136 the table of the section *)
Definition make_table23 (epe efl : real) (bnd int : list Z) (energies xs : list real) : out tab1 :=
  make_tab1 epe efl 0 0 bnd int energies xs.
(** section/23/src/ctor.hpp:1-49, section/23.hpp:1-136 *)
Definition make23 (mt za : Z) (awr epe efl : real) (bnd int : list Z) (energies xs : list real) : out (sect tab1) :=
  obind (make_section true za awr mt tt) (fun b => obind (make_table23 epe efl bnd int energies xs) (fun t => Val (mksect (s_za b) (s_awr b) (s_mt b) t))).
(** section/23.hpp:1-136 *)
Definition EPE23 (x : sect tab1) : real := tC1 (tbase (s_body x)).
(** section/23.hpp:1-136 *)
Definition EFL23 (x : sect tab1) : real := tC2 (tbase (s_body x)).
(** section/23.hpp:1-136 *)
Definition energies23 (x : sect tab1) : list real := tx (s_body x).
(** section/23.hpp:1-136 *)
Definition crossSections23 (x : sect tab1) : list real := ty (s_body x).

(** ** File 27 *)
(** section/27/src/ctor.hpp:1-47, section/27.hpp:1-126 the table of the section; int division rounds towards zero *)
Definition make_table27 (za : Z) (bnd int : list Z) (x h : list real) : out tab1 :=
  make_tab1 rzero (of_int (Z.quot za 1000)) 0 0 bnd int x h.
(** section/27/src/ctor.hpp:1-47, section/27.hpp:1-126 *)
Definition make27 (mt za : Z) (awr : real) (bnd int : list Z) (x h : list real) : out (sect tab1) :=
  obind (make_section true za awr mt tt) (fun b => obind (make_table27 za bnd int x h) (fun t => Val (mksect (s_za b) (s_awr b) (s_mt b) t))).
(** section/27.hpp:1-126: the conversion of a double to unsigned int is undefined outside its range *)
Definition Z27 (x : sect tab1) : out Z :=
  let z := trunc (tC2 (tbase (s_body x))) in if (0 <=? z) && (z <? 2 ^ 32) then Val z else Undef.
(** section/27.hpp:1-126 *)
Definition X27 (x : sect tab1) : list real := tx (s_body x).
(** section/27.hpp:1-126 *)
Definition H27 (x : sect tab1) : list real := ty (s_body x).

(** ** Files 9 and 10 *)
(** section/9/ReactionProduct/src/ctor.hpp:1-70, section/9/ReactionProduct.hpp:1-91 *)
Definition make_product9 (qm qi : real) (izap lfs : Z) (bnd int : list Z) (energies ys : list real) : out tab1 :=
  make_tab1 qm qi izap lfs bnd int energies ys.
(** section/9/ReactionProduct/src/ctor.hpp:1-70, section/9/ReactionProduct.hpp:1-91 one region; the default is interpolant = 2 *)
Definition make_product9_one (qm qi : real) (izap lfs : Z) (energies ys : list real) (interpolant : Z) : out tab1 :=
  make_product9 qm qi izap lfs [Z.of_nat (length energies)] [interpolant] energies ys.
(** section/10/ReactionProduct/src/ctor.hpp:1-70, section/10/ReactionProduct.hpp:1-91 *)
Definition make_product10 (qm qi : real) (izap lfs : Z) (bnd int : list Z) (energies xs : list real) : out tab1 :=
  make_tab1 qm qi izap lfs bnd int energies xs.
(** section/10/ReactionProduct/src/ctor.hpp:1-70, section/10/ReactionProduct.hpp:1-91 one region; the default is interpolant = 2 *)
Definition make_product10_one (qm qi : real) (izap lfs : Z) (energies xs : list real) (interpolant : Z) : out tab1 :=
  make_product10 qm qi izap lfs [Z.of_nat (length energies)] [interpolant] energies xs.
(** section/9/ReactionProduct.hpp:1-91, section/10/ReactionProduct.hpp:1-91 *)
Definition QMp (t : tab1) : real := tC1 (tbase t).
(** section/9/ReactionProduct.hpp:1-91, section/10/ReactionProduct.hpp:1-91 *)
Definition QIp (t : tab1) : real := tC2 (tbase t).
(** section/9/ReactionProduct.hpp:1-91, section/10/ReactionProduct.hpp:1-91 *)
Definition IZAPp (t : tab1) : Z := i32 (tL1 (tbase t)).
(** section/9/ReactionProduct.hpp:1-91, section/10/ReactionProduct.hpp:1-91 *)
Definition LFSp (t : tab1) : Z := i32 (tL2 (tbase t)).

(** ** Files 12 and 13: the arguments lp and law are int *)
(** section/12/PartialMultiplicity/src/ctor.hpp:1-61, section/12/PartialMultiplicity.hpp:1-91 *)
Definition make_partial12 (energy level : real) (lp law : Z) (bnd int : list Z) (energies ys : list real) : out tab1 :=
  make_tab1 energy level lp law bnd int energies ys.
(** section/13/PartialCrossSection/src/ctor.hpp:1-55, section/13/PartialCrossSection.hpp:1-90 *)
Definition make_partial13 (energy level : real) (lp law : Z) (bnd int : list Z) (energies xs : list real) : out tab1 :=
  make_tab1 energy level lp law bnd int energies xs.
(** section/12/PartialMultiplicity.hpp:1-91, section/13/PartialCrossSection.hpp:1-90 *)
Definition EGp (t : tab1) : real := tC1 (tbase t).
(** section/12/PartialMultiplicity.hpp:1-91, section/13/PartialCrossSection.hpp:1-90 *)
Definition ESp (t : tab1) : real := tC2 (tbase t).
(** section/12/PartialMultiplicity.hpp:1-91, section/13/PartialCrossSection.hpp:1-90 *)
Definition LPp (t : tab1) : Z := i32 (tL1 (tbase t)).
(** section/12/PartialMultiplicity.hpp:1-91, section/13/PartialCrossSection.hpp:1-90 *)
Definition LFp (t : tab1) : Z := i32 (tL2 (tbase t)).
(** section/12/TotalMultiplicity/src/ctor.hpp:1-54, section/12/TotalMultiplicity.hpp:1-50 *)
Definition make_total12 : list Z -> list Z -> list real -> list real -> out tab1 := make_tab1 rzero rzero 0 0.
(** section/13/TotalCrossSection/src/ctor.hpp:1-46, section/13/TotalCrossSection.hpp:1-50 *)
Definition make_total13 : list Z -> list Z -> list real -> list real -> out tab1 := make_tab1 rzero rzero 0 0.

(** ** plain tables *)
(** section/26/EnergyTransfer/src/ctor.hpp:1-45, section/26/EnergyTransfer.hpp:1-54 *)
Definition make_transfer : list Z -> list Z -> list real -> list real -> out tab1 := make_tab1 rzero rzero 0 0.
(** section/5/EffectiveTemperature/src/ctor.hpp:1-54, section/5/EffectiveTemperature.hpp:1-44 *)
Definition make_theta5 : list Z -> list Z -> list real -> list real -> out tab1 := make_tab1 rzero rzero 0 0.
(** section/5/Parameter/src/ctor.hpp:1-52, section/5/Parameter.hpp:1-42 *)
Definition make_parameter5 : list Z -> list Z -> list real -> list real -> out tab1 := make_tab1 rzero rzero 0 0.
(** section/5/DistributionFunction/src/ctor.hpp:1-52, section/5/DistributionFunction.hpp:1-37 *)
Definition make_g5 : list Z -> list Z -> list real -> list real -> out tab1 := make_tab1 rzero rzero 0 0.
(** section/1/TabulatedMultiplicity/src/ctor.hpp:1-54, section/1/TabulatedMultiplicity.hpp:1-78 *)
Definition make_tab_mult : list Z -> list Z -> list real -> list real -> out tab1 := make_tab1 rzero rzero 0 0.
(** section/2/151/ScatteringRadius/src/ctor.hpp:1-46, section/2/151/ScatteringRadius.hpp:1-49 *)
Definition make_radius : list Z -> list Z -> list real -> list real -> out tab1 := make_tab1 rzero rzero 0 0.

(** ** tables with one or two values *)
(** section/6/Multiplicity/src/ctor.hpp:1-51, section/6/Multiplicity.hpp:1-84 the argument zap is an int *)
Definition make_mult6 (zap : Z) (awp : real) (lip law : Z) (bnd int : list Z) (energies ys : list real) : out tab1 :=
  make_tab1 (of_int zap) awp lip law bnd int energies ys.
(** section/6/Multiplicity.hpp:1-84, section/26/Multiplicity.hpp:1-77: out of the range of int the conversion is undefined *)
Definition ZAPm (t : tab1) : out Z := let z := round_int (tC1 (tbase t)) in if in32 z then Val z else Undef.
(** section/6/Multiplicity.hpp:1-84; AWI() of section/26/Multiplicity.hpp:1-77 *)
Definition AWPm (t : tab1) : real := tC2 (tbase t).
(** section/6/Multiplicity.hpp:1-84 *)
Definition LIPm (t : tab1) : Z := i32 (tL1 (tbase t)).
(** section/6/Multiplicity.hpp:1-84, section/26/Multiplicity.hpp:1-77 *)
Definition LAWm (t : tab1) : Z := i32 (tL2 (tbase t)).
(** section/26/Multiplicity/src/ctor.hpp:1-49, section/26/Multiplicity.hpp:1-77 *)
Definition make_mult26 (zap : Z) (awi : real) (law : Z) (bnd int : list Z) (energies ys : list real) : out tab1 :=
  make_tab1 (of_int zap) awi 0 law bnd int energies ys.
(** section/5/Probability/src/ctor.hpp:1-48, section/5/Probability.hpp:1-71 the default is u = 0.0 *)
Definition make_probability5 (lf : Z) (u : real) (bnd int : list Z) (energies ps : list real) : out tab1 :=
  make_tab1 u rzero 0 lf bnd int energies ps.
(** section/5/Probability.hpp:1-71 *)
Definition U5 (t : tab1) : real := tC1 (tbase t).
(** section/5/Probability.hpp:1-71 *)
Definition LFprob5 (t : tab1) : Z := i32 (tL2 (tbase t)).
(** section/5/TabulatedSpectrum/OutgoingEnergyDistribution/src/ctor.hpp:1-48, section/5/TabulatedSpectrum/OutgoingEnergyDistribution.hpp:1-60 *)
Definition make_outgoing5 (incident : real) (bnd int : list Z) (energies ps : list real) : out tab1 :=
  make_tab1 rzero incident 0 0 bnd int energies ps.
(** section/5/TabulatedSpectrum/OutgoingEnergyDistribution.hpp:1-60 *)
Definition Eout5 (t : tab1) : real := tC2 (tbase t).
(** section/5/MadlandNixSpectrum/src/ctor.hpp:1-55, section/5/MadlandNixSpectrum.hpp:1-80 *)
Definition make_madland (efl efh : real) (bnd int : list Z) (energies temps : list real) : out tab1 :=
  make_tab1 efl efh 0 0 bnd int energies temps.
(** section/5/MadlandNixSpectrum.hpp:1-80 *)
Definition EFL5 (t : tab1) : real := tC1 (tbase t).
(** section/5/MadlandNixSpectrum.hpp:1-80 *)
Definition EFH5 (t : tab1) : real := tC2 (tbase t).
(** section/4/TabulatedDistribution/src/ctor.hpp:1-48, section/4/TabulatedDistribution.hpp:1-64 *)
Definition make_tabd4 (energy : real) (bnd int : list Z) (cosines ps : list real) : out tab1 :=
  make_tab1 rzero energy 0 0 bnd int cosines ps.
(** section/6/LaboratoryAngleEnergy/EnergyDistribution/src/ctor.hpp:1-60, section/6/LaboratoryAngleEnergy/EnergyDistribution.hpp:1-71 *)
Definition make_energyd (cosine : real) (bnd int : list Z) (energies ps : list real) : out tab1 :=
  make_tab1 rzero cosine 0 0 bnd int energies ps.
(** section/6/LaboratoryAngleEnergy/EnergyDistribution.hpp:1-71 *)
Definition MU7 (t : tab1) : real := tC2 (tbase t).
(** section/8/457/ContinuousSpectrum/src/ctor.hpp:1-46, section/8/457/ContinuousSpectrum.hpp:1-60 *)
Definition make_continuous (chain : real) (bnd int : list Z) (energies sp : list real) : out tab1 :=
  make_tab1 chain rzero 0 0 bnd int energies sp.
(** section/8/457/ContinuousSpectrum.hpp:1-60 *)
Definition RTYPc (t : tab1) : real := tC1 (tbase t).
(** section/1/460/DiscretePhotonMultiplicity/src/ctor.hpp:1-49, section/1/460/DiscretePhotonMultiplicity.hpp:1-59 lph is an int *)
Definition make_photon (energy : real) (lph : Z) (bnd int : list Z) (time ys : list real) : out tab1 :=
  make_tab1 energy rzero lph 0 bnd int time ys.
(** section/1/460/DiscretePhotonMultiplicity.hpp:1-59 *)
Definition E460 (t : tab1) : real := tC1 (tbase t).
(** section/1/460/DiscretePhotonMultiplicity.hpp:1-59 *)
Definition LPH (t : tab1) : Z := i32 (tL1 (tbase t)).
(** section/1/458/EnergyReleaseComponent/src/ctor.hpp:1-65, section/1/458/EnergyReleaseComponent.hpp:1-69, section/1/458/EnergyReleaseComponent/src/verify.hpp:1-17 *)
Definition make_component (ldrv : bool) (ifc : Z) (bnd int : list Z) (energies qs : list real) : out tab1 :=
  obind (make_tab1 rzero rzero (if ldrv then 2 else 1) ifc bnd int energies qs) (fun t => if component_ok t then Val t else Throw EStd).
(** section/1/458/EnergyReleaseComponent.hpp:1-69 *)
Definition LDRV (t : tab1) : bool := negb (tL1 (tbase t) =? 1).
(** section/1/458/EnergyReleaseComponent.hpp:1-69 *)
Definition IFC (t : tab1) : Z := i32 (tL2 (tbase t)).

(** ** lists *)
(** section/4/LegendreCoefficients/src/ctor.hpp:1-44, section/4/LegendreCoefficients.hpp:1-60 *)
Definition make_coefficients4 (energy : real) (cs : list real) : listr := mklist rzero energy 0 0 0 cs.
(** section/4/LegendreCoefficients.hpp:1-60 *)
Definition NL4 (l : listr) : Z := i32 (npl l).
(** section/1/PolynomialMultiplicity/src/ctor.hpp:1-44, section/1/PolynomialMultiplicity.hpp:1-70 *)
Definition make_polynomial (cs : list real) : listr := mklist rzero rzero 0 0 0 cs.
(** section/1/PolynomialMultiplicity.hpp:1-70 *)
Definition NCO (l : listr) : Z := i32 (npl l).
(** section/1/455/EnergyIndependentConstants/src/ctor.hpp:1-45, section/1/455/EnergyIndependentConstants.hpp:1-49 *)
Definition make_independent (cs : list real) : listr := mklist rzero rzero 0 0 0 cs.
(** section/1/455/EnergyIndependentConstants.hpp:1-49 *)
Definition NNFi (l : listr) : Z := i32 (npl l).
(** section/1/460/ContinuousPhotons/src/ctor.hpp:1-51, section/1/460/ContinuousPhotons.hpp:1-61, section/1/460/ContinuousPhotons/src/verifySize.hpp:1-11 *)
Definition make_continuous_photons (cs : list real) : out listr :=
  let l := mklist rzero rzero 0 0 0 cs in if i32 (npl l) =? 0 then Throw EStd else Val l.
(** section/6/NBodyPhaseSpace/src/ctor.hpp:1-45, section/6/NBodyPhaseSpace.hpp:1-42 *)
Definition make_nbody (apsx : real) (npsx : Z) : cont := mkcont apsx rzero 0 0 0 npsx.
(** section/6/NBodyPhaseSpace.hpp:1-42 *)
Definition APSX (c : cont) : real := c1 c.
(** section/6/NBodyPhaseSpace.hpp:1-42 *)
Definition NPSX (c : cont) : Z := i32 (n2 c).

(** ** sequences *)
(** section/4/AngularDistributions/src/ctor.hpp:1-48, section/4/AngularDistributions.hpp:1-111.  The vectors are swapped in the call of InterpolationRecord *)
Definition make_angular {C} (bnd int : list Z) (ds : list C) (C1 C2 : real) : out (iseq C) :=
  obind (make_tab2 C1 C2 0 0 int bnd) (fun t => make_iseq no_more t ds).
(** section/4/LegendreDistributions/src/ctor.hpp:1-33, section/4/LegendreDistributions.hpp:1-55, section/4/TabulatedDistributions/src/ctor.hpp:1-33, section/4/TabulatedDistributions.hpp:1-55.  ... and swapped again in the call of AngularDistributions *)
Definition make_dists4 {C} (bnd int : list Z) (ds : list C) : out (iseq C) := make_angular int bnd ds rzero rzero.
(** section/14/LegendreDistributions/src/ctor.hpp:1-45, section/14/LegendreDistributions.hpp:1-80, section/14/TabulatedDistributions/src/ctor.hpp:1-45, section/14/TabulatedDistributions.hpp:1-80 *)
Definition make_dists14 {C} (energy level : real) (bnd int : list Z) (ds : list C) : out (iseq C) := make_angular int bnd ds energy level.
(** section/5/TabulatedSpectrum/src/ctor.hpp:1-71, section/5/TabulatedSpectrum.hpp:1-114 *)
Definition make_spectrum5 (bnd int : list Z) (ds : list tab1) : out (iseq tab1) :=
  obind (make_tab2 rzero rzero 0 0 bnd int) (fun t => make_iseq no_more t ds).
(** section/5/TabulatedSpectrum.hpp:1-114 *)
Definition incidentEnergies5 (q : iseq tab1) : list real := map Eout5 (isrec q).
(** section/6/LaboratoryAngleEnergy/AngularDistribution/src/ctor.hpp:1-49, section/6/LaboratoryAngleEnergy/AngularDistribution.hpp:1-104 *)
Definition make_angulard (energy : real) (bnd int : list Z) (ds : list tab1) : out (iseq tab1) :=
  obind (make_tab2 rzero energy 0 0 bnd int) (fun t => make_iseq no_more t ds).
(** section/6/LaboratoryAngleEnergy/AngularDistribution.hpp:1-104 *)
Definition Eang7 (q : iseq tab1) : real := tC2 (istab q).
(** section/6/LaboratoryAngleEnergy/AngularDistribution.hpp:1-104 *)
Definition MUs7 (q : iseq tab1) : list real := map MU7 (isrec q).
(** section/6/LaboratoryAngleEnergy/src/ctor.hpp:1-59, section/6/LaboratoryAngleEnergy.hpp:1-108 *)
Definition make_law7 (bnd int : list Z) (ds : list (iseq tab1)) : out (iseq (iseq tab1)) :=
  obind (make_tab2 rzero rzero 0 0 bnd int) (fun t => make_iseq no_more t ds).
(** section/6/LaboratoryAngleEnergy.hpp:1-108 *)
Definition Es7 (q : iseq (iseq tab1)) : list real := map Eang7 (isrec q).
(** section/6/DiscreteTwoBodyScattering/src/ctor.hpp:1-85, section/6/DiscreteTwoBodyScattering.hpp:1-113 *)
Definition make_law2 (bnd int : list Z) (ds : list listr) : out (iseq listr) :=
  obind (make_tab2 rzero rzero 0 0 bnd int) (fun t => make_iseq no_more t ds).
(** section/6/ChargedParticleElasticScattering/src/ctor.hpp:1-88, section/6/ChargedParticleElasticScattering.hpp:1-139 *)
Definition make_law5 (spin : real) (lidp : Z) (bnd int : list Z) (ds : list listr) : out (iseq listr) :=
  obind (make_tab2 spin rzero lidp 0 bnd int) (fun t => make_iseq no_more t ds).
(** section/6/ChargedParticleElasticScattering.hpp:1-139 *)
Definition SPI5 (q : iseq listr) : real := tC1 (istab q).
(** section/6/ChargedParticleElasticScattering.hpp:1-139: a long converted to bool *)
Definition LIDP5 (q : iseq listr) : bool := negb (tL1 (istab q) =? 0).
(** section/6/ContinuumEnergyAngle.hpp:1-137, section/6/DiscreteTwoBodyScattering.hpp:1-113, section/6/ChargedParticleElasticScattering.hpp:1-139: E(), the C2 of every record *)
Definition Es6 (q : iseq listr) : list real := map lC2 (isrec q).
(** section/6/ContinuumEnergyAngle/src/ctor.hpp:1-93, section/6/ContinuumEnergyAngle.hpp:1-137, section/6/ContinuumEnergyAngle/src/verifyLANG.hpp:1-20.  A distribution is given with the LANG of
    its class; front() of an empty vector is undefined *)
Definition make_law1 (lep : Z) (bnd int : list Z) (ds : list (Z * listr)) : out (iseq listr) :=
  match ds with
  | [] => Undef
  | (lang, _) :: _ => obind (make_tab2 rzero rzero lang lep bnd int) (fun t => obind (make_iseq no_more t (map snd ds)) (fun q =>
      if forallb (fun d => fst d =? i32 lang) ds then Val q else Throw EStd))
  end.
(** section/26/ContinuumEnergyAngle/src/ctor.hpp:1-91, section/26/ContinuumEnergyAngle.hpp:1-130, section/26/ContinuumEnergyAngle/src/verifyLANG.hpp:1-18: Legendre coefficients (LANG = 1) only *)
Definition make_law1_26 (lep : Z) (bnd int : list Z) (ds : list listr) : out (iseq listr) := make_law1 lep bnd int (map (pair 1) ds).
(** section/6/ContinuumEnergyAngle.hpp:1-137, section/26/ContinuumEnergyAngle.hpp:1-130 *)
Definition LANGq (q : iseq listr) : Z := i32 (tL1 (istab q)).
(** section/6/ContinuumEnergyAngle.hpp:1-137, section/26/ContinuumEnergyAngle.hpp:1-130 *)
Definition LEPq (q : iseq listr) : Z := i32 (tL2 (istab q)).
(** section/1/455/EnergyDependentConstants/src/ctor.hpp:1-60, section/1/455/EnergyDependentConstants.hpp:1-116, section/1/455/EnergyDependentConstants/src/verify.hpp:1-15 *)
Definition make_dependent (bnd int : list Z) (ds : list listr) : out (iseq listr) :=
  obind (make_tab2 rzero rzero 0 0 bnd int) (fun t => obind (make_iseq no_more t ds) (fun q => if same_nnf ds then Val q else Throw EStd)).
(** section/1/455/EnergyDependentConstants.hpp:1-116: the count of the first record *)
Definition NNFd (q : iseq listr) : out Z := match isrec q with l :: _ => Val (nnf l) | [] => Undef end.

