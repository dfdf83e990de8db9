(** Sec4.v -- Files 4 and 5.  Paths relative to /repo/src/ENDFtk/section. *)
From Verif Require Import Base Disco Records Sections SecKit Sec9.
Open Scope Z_scope.

(** ** File 4 *)
(** section/4.hpp:54-60: the variant; section/4/LegendreDistributions.hpp:1-55 and section/4/TabulatedDistributions.hpp:1-55 are
    TAB2 records (section/4/AngularDistributions.hpp:1-111) with LIST (section/4/LegendreCoefficients.hpp:1-60) or
    TAB1 records (section/4/TabulatedDistribution.hpp:1-64) *)
Inductive dist4 :=
  Isotropic4 | Legendre4 (q : iseq listr) | Tabulated4 (q : iseq tab1)
| Mixed4 (q : iseq listr) (r : iseq tab1).
(** section/4.hpp:85: LTT() is the index in the variant; section/4.hpp:95: LI() *)
Definition LTT4 (d : dist4) : Z :=
  match d with Isotropic4 => 0 | Legendre4 _ => 1 | Tabulated4 _ => 2 | Mixed4 _ _ => 3 end.
(** section/4.hpp:114 *)
Definition LI4 (d : dist4) : Z := if LTT4 d =? 0 then 1 else 0.
(** section/4/LegendreCoefficients.hpp:24, section/4/TabulatedDistribution.hpp:22 *)
Definition E_leg (l : listr) : real := lC2 l.
(** section/4/TabulatedDistribution.hpp:22 *)
Definition E_tab (t : tab1) : real := tC2 (tbase t).
(** section/4/MixedDistributions/src/ctor.hpp:5-18, section/4/MixedDistributions/src/verifyBoundary.hpp:1-10 *)
Definition mixed_ok (q : iseq listr) (r : iseq tab1) : bool :=
  match rev (isrec q), isrec r with
  | l :: _, t :: _ => req (E_leg l) (E_tab t)
  | _, _ => false
  end.
(** the same, for the constructor from its parts; the sequences of a sequence record are
    not empty, so that back() and front() are defined *)
(** section/4/MixedDistributions/src/ctor.hpp:1-62 *)
Definition make_mixed4 (q : iseq listr) (r : iseq tab1) : out dist4 :=
  if mixed_ok q r then Val (Mixed4 q r) else Throw EStd.
(** section/4/MixedDistributions/src/ctor.hpp:20-60 *)
Definition rd_mixed4 (mat mf mt : Z) : M (iseq listr * iseq tab1) :=
  p <- (q <- rd_iseq no_more rd_list mat mf mt ;; r <- rd_iseq no_more rd_tab1 mat mf mt ;; ret (q, r)) ;;
  require (mixed_ok (fst p) (snd p)) ;;; ret p.
(** section/4/src/readDistributions.hpp:1-25; LTT is a long *)
Definition rd_dist4 (ltt mat mf mt : Z) : M dist4 :=
  if ltt =? 0 then ret Isotropic4
  else if ltt =? 1 then q <- rd_iseq no_more rd_list mat mf mt ;; ret (Legendre4 q)
  else if ltt =? 2 then q <- rd_iseq no_more rd_tab1 mat mf mt ;; ret (Tabulated4 q)
  else if ltt =? 3 then p <- rd_mixed4 mat mf mt ;; ret (Mixed4 (fst p) (snd p))
  else throw EStd.
(** section/4/src/print.hpp:1-21 *)
Definition pr_dist4 (d : dist4) (mat mf mt : Z) : text :=
  match d with
  | Isotropic4 => []
  | Legendre4 q => pr_iseq pr_list q mat mf mt
  | Tabulated4 q => pr_iseq pr_tab1 q mat mf mt
  | Mixed4 q r => pr_iseq pr_list q mat mf mt ++ pr_iseq pr_tab1 r mat mf mt
  end.
(** section/4/src/NC.hpp:1-8 *)
Definition nc_dist4 (d : dist4) : Z :=
  match d with
  | Isotropic4 => 0
  | Legendre4 q => nc_iseq nc_list q
  | Tabulated4 q => nc_iseq nc_tab1 q
  | Mixed4 q r => nc_iseq nc_list q + nc_iseq nc_tab1 r
  end.
(** section/4.hpp:1-239 *)
Record body4 := mkbody4 { lct4 : Z; dist_of4 : dist4 }.
(** section/4/src/ctor.hpp:26-66: the second CONT (read before the HEAD is checked; the model
    reports the HEAD when both fail), lct_ is an int *)
Definition rd_body4 (h : sdiv) (mat mf mt : Z) : M body4 :=
  c <- rd_cont mat mf mt ;; d <- rd_dist4 (l2 (sbase h)) mat mf mt ;; ret (mkbody4 (i32 (l2 c)) d).
(** section/4/src/print.hpp:7-21, section/4/src/NC.hpp:4-8 *)
Definition pr_body4 (awr : real) (b : body4) (mat mf mt : Z) : text :=
  pr_cont (mkcont (of_int 0) awr (LI4 (dist_of4 b)) (lct4 b) 0 0) mat mf mt ++ pr_dist4 (dist_of4 b) mat mf mt.
(** section/4.hpp:1-239 *)
Definition sec_4 : skind body4 :=
  mkskinda 4 None true true true rd_body4 (fun b => (0, LTT4 (dist_of4 b), 0, 0)) pr_body4
    (fun b => 1 + nc_dist4 (dist_of4 b)) None.
(** section/4.hpp:100-165, section/4/AngularDistributions.hpp:30-62, section/4/MixedDistributions.hpp:33-72:
    NR(), NE() (both through an int), NBT(), INT(), incidentEnergies() *)
Definition NE4 (d : dist4) : Z :=
  match d with
  | Isotropic4 => 0
  | Legendre4 q => i32 (tn2 (istab q)) | Tabulated4 q => i32 (tn2 (istab q))
  | Mixed4 q r => i32 (tn2 (istab q) + tn2 (istab r))
  end.
(** section/4.hpp:129-138 *)
Definition NR4 (d : dist4) : Z :=
  match d with
  | Isotropic4 => 0
  | Legendre4 q => i32 (tnr (istab q)) | Tabulated4 q => i32 (tnr (istab q))
  | Mixed4 q r => i32 (tnr (istab q) + tnr (istab r))
  end.
(** section/4.hpp:189-198 *)
Definition NBT4 (d : dist4) : list Z :=
  match d with
  | Isotropic4 => []
  | Legendre4 q => tbnd (istab q) | Tabulated4 q => tbnd (istab q)
  | Mixed4 q r => tbnd (istab q) ++ map (fun i => i + tn2 (istab q)) (tbnd (istab r))
  end.
(** section/4.hpp:167-176 *)
Definition INT4 (d : dist4) : list Z :=
  match d with
  | Isotropic4 => []
  | Legendre4 q => tint (istab q) | Tabulated4 q => tint (istab q)
  | Mixed4 q r => tint (istab q) ++ tint (istab r)
  end.
(** section/4.hpp:211-220 *)
Definition energies4 (d : dist4) : list real :=
  match d with
  | Isotropic4 => []
  | Legendre4 q => map E_leg (isrec q) | Tabulated4 q => map E_tab (isrec q)
  | Mixed4 q r => map E_leg (isrec q) ++ map E_tab (isrec r)
  end.

(** ** File 5 *)
(** section/5.hpp:46-51: the variant; all parts are TAB1 records
    (section/5/EffectiveTemperature/src/ctor.hpp:1-54, section/5/DistributionFunction/src/ctor.hpp:1-52, section/5/Parameter/src/ctor.hpp:1-52,
    section/5/MaxwellianFissionSpectrum/src/ctor.hpp:1-77, section/5/EvaporationSpectrum/src/ctor.hpp:1-74, section/5/MadlandNixSpectrum/src/ctor.hpp:1-55) *)
Inductive dist5 :=
  TabulatedSpectrum (q : iseq tab1)
| GeneralEvaporation (theta g : tab1)
| MaxwellianFission (theta : tab1)
| Evaporation (theta : tab1)
| Watt (a b : tab1)
| MadlandNix (tm : tab1).
(** LF() of each alternative *)
(** section/5/PartialDistribution.hpp:1-45, and LF() of the distributions of section/5 *)
Definition LF5 (d : dist5) : Z :=
  match d with
  | TabulatedSpectrum _ => 1 | GeneralEvaporation _ _ => 5 | MaxwellianFission _ => 7
  | Evaporation _ => 9 | Watt _ _ => 11 | MadlandNix _ => 12
  end.
(** section/5/PartialDistribution/src/readPartialDistribution.hpp:12-44; probability.LF() is an int.
    section/5/GeneralEvaporationSpectrum/src/ctor.hpp:8-40, section/5/WattSpectrum/src/readParameters.hpp:1-27 *)
Definition rd_two (mat mf mt : Z) : M (tab1 * tab1) :=
  a <- rd_tab1 mat mf mt ;; b <- rd_tab1 mat mf mt ;; ret (a, b).
(** section/5/PartialDistribution/src/readPartialDistribution.hpp:1-44 *)
Definition rd_dist5 (lf mat mf mt : Z) : M dist5 :=
  if lf =? 1 then q <- rd_spectrum mat mf mt ;; ret (TabulatedSpectrum q)
  else if lf =? 5 then p <- rd_two mat mf mt ;; ret (GeneralEvaporation (fst p) (snd p))
  else if lf =? 7 then t <- rd_tab1 mat mf mt ;; ret (MaxwellianFission t)
  else if lf =? 9 then t <- rd_tab1 mat mf mt ;; ret (Evaporation t)
  else if lf =? 11 then p <- rd_two mat mf mt ;; ret (Watt (fst p) (snd p))
  else if lf =? 12 then t <- rd_tab1 mat mf mt ;; ret (MadlandNix t)
  else throw EStd.
(** section/5/PartialDistribution/src/print.hpp:1-18 *)
Definition pr_dist5 (d : dist5) (mat mf mt : Z) : text :=
  match d with
  | TabulatedSpectrum q => pr_iseq pr_tab1 q mat mf mt
  | GeneralEvaporation a b | Watt a b => pr_tab1 a mat mf mt ++ pr_tab1 b mat mf mt
  | MaxwellianFission t | Evaporation t | MadlandNix t => pr_tab1 t mat mf mt
  end.
(** section/5/PartialDistribution/src/NC.hpp:1-9 *)
Definition nc_dist5 (d : dist5) : Z :=
  match d with
  | TabulatedSpectrum q => nc_iseq nc_tab1 q
  | GeneralEvaporation a b | Watt a b => nc_tab1 a + nc_tab1 b
  | MaxwellianFission t | Evaporation t | MadlandNix t => nc_tab1 t
  end.
(** section/5/PartialDistribution.hpp:14-45, section/5/PartialDistribution/src/ctor.hpp:5-30, section/5/PartialDistribution/src/print.hpp:1-19, section/5/PartialDistribution/src/NC.hpp:1-9; section/5/Probability.hpp:33 *)
Record partial5 := mkp5 { p5_prob : tab1; p5_dist : dist5 }.
(** section/5/Probability.hpp:33 *)
Definition LF_prob (p : tab1) : Z := i32 (tL2 (tbase p)).
(** section/5/PartialDistribution/src/ctor.hpp:1-38 *)
Definition rd_p5 (mat mf mt : Z) : M partial5 :=
  p <- rd_tab1 mat mf mt ;; d <- rd_dist5 (LF_prob p) mat mf mt ;; ret (mkp5 p d).
(** the constructor from its parts: section/5/PartialDistribution/src/verifyLF.hpp:1-12 *)
Definition make_p5 (p : tab1) (d : dist5) : out partial5 :=
  if LF_prob p =? LF5 d then Val (mkp5 p d) else Throw EStd.
(** section/5/PartialDistribution/src/print.hpp:1-18 *)
Definition pr_p5 (p : partial5) (mat mf mt : Z) : text :=
  pr_tab1 (p5_prob p) mat mf mt ++ pr_dist5 (p5_dist p) mat mf mt.
(** section/5/PartialDistribution/src/NC.hpp:1-9 *)
Definition nc_p5 (p : partial5) : Z := nc_tab1 (p5_prob p) + nc_dist5 (p5_dist p).
(** section/5/src/ctor.hpp:9-52, section/5/src/verifyNK.hpp:1-10, section/5/src/print.hpp:1-18, section/5/src/NC.hpp:1-9 *)
Definition sec_5 : skind (list partial5) :=
  mkskind 5 None true true false (fun h => rd_nonempty rd_p5 (n1 (sbase h)))
    (fun l => (0, 0, isize l, 0)) (pr_all pr_p5) (nc_all nc_p5).
