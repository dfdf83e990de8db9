(** Sec9.v -- Files 9, 10, 12, 13, 14, 15 and 28.
    Paths relative to /repo/src/ENDFtk/section.

    Simplification: for the classes whose constructor delegates to the one taking
    ZA and AWR (9, 10, 13, 14, 28) the fields are read before the HEAD is checked;
    when both fail the model reports the HEAD.  All failures are std::exception. *)
From Verif Require Import Base Disco Records Sections SecKit.
Open Scope Z_scope.

(** ** Files 9 and 10: section/9.hpp:28-117, section/10.hpp:1-121 the same *)
Record levels := mklevels { lv_lis : Z; lv_products : list tab1 }.
(** section/9/src/ctor.hpp:33-51: readSequence< ReactionProduct >( ..., head.N1() );
    section/9/ReactionProduct/src/ctor.hpp:1-70: a TAB1 record.  lis_ is an int. *)
Definition rd_levels (lis ns mat mf mt : Z) : M levels :=
  ps <- rd_all rd_tab1 ns mat mf mt ;; ret (mklevels (i32 lis) ps).
(** section/9/src/print.hpp:7-22 (products_.size() is passed as a long), section/9/src/NC.hpp:4-12 *)
Definition sec_levels (mf : Z) : skind levels :=
  mkskind mf None true false false (fun h => rd_levels (l1 (sbase h)) (n1 (sbase h)))
    (fun b => (lv_lis b, 0, Z.of_nat (length (lv_products b)), 0))
    (fun b => pr_all pr_tab1 (lv_products b)) (fun b => nc_all nc_tab1 (lv_products b)).
(** section/9.hpp:1-121 *)
Definition sec_9 : skind levels := sec_levels 9.
(** section/10.hpp:1-121 *)
Definition sec_10 : skind levels := sec_levels 10.
(** section/9.hpp:66-99: hasExcitedState, reactionProduct (find_if on LFS(), an int) *)
Definition has_excited_state (b : levels) (state : Z) : bool :=
  existsb (fun p => i32 (tL2 (tbase p)) =? state) (lv_products b).
(** section/9.hpp:81-96 *)
Definition reaction_product (b : levels) (state : Z) : out tab1 :=
  match find (fun p => i32 (tL2 (tbase p)) =? state) (lv_products b) with Some p => Val p | None => Throw EStd end.

(** ** File 12 *)
(** section/12/Multiplicities.hpp:14-75: optional total, partials *)
Record multiplicities := mkmults { mu_total : option tab1; mu_partials : list tab1 }.
(** section/12/Multiplicities/src/readTotalMultiplicity.hpp:1-18 *)
Definition rd_total (nk mat mf mt : Z) : M (option tab1) :=
  if i32 nk =? 1 then ret None else t <- rd_tab1 mat mf mt ;; ret (Some t).
(** section/12/Multiplicities/src/ctor.hpp:15-81, section/12/Multiplicities/src/verifyNK.hpp:1-11 *)
Definition rd_multiplicities (nk mat mf mt : Z) : M multiplicities :=
  t <- rd_total nk mat mf mt ;;
  ps <- rd_all rd_tab1 nk mat mf mt ;;
  require (negb (isize ps <=? 0)) ;;; ret (mkmults t ps).
(** the constructor from its parts: section/12/Multiplicities/src/ctor.hpp:15-19 *)
Definition make_multiplicities (t : option tab1) (ps : list tab1) : out multiplicities :=
  if isize ps <=? 0 then Throw EStd else Val (mkmults t ps).
(** section/12/Multiplicities/src/print.hpp:1-19 *)
Definition pr_multiplicities (m : multiplicities) (mat mf mt : Z) : text :=
  pr_opt pr_tab1 (mu_total m) mat mf mt ++ pr_all pr_tab1 (mu_partials m) mat mf mt.
(** section/12/Multiplicities/src/NC.hpp:1-12 *)
Definition nc_multiplicities (m : multiplicities) : Z :=
  nc_opt nc_tab1 (mu_total m) + nc_all nc_tab1 (mu_partials m).

(** section/12/TransitionProbabilities.hpp:14-120: a LIST record.
    LG(): NPL() / NT() - 1 in long arithmetic (Z.quot; undefined for NT = 0), then int.
    section/12/TransitionProbabilities/src/verifyLG.hpp:1-11, section/12/TransitionProbabilities/src/ctor.hpp:5-9 *)
Definition LG (l : listr) : Z := i32 (Z.quot (npl l) (lN2 l) - 1).
(** section/12/TransitionProbabilities/src/verifyLG.hpp:1-11 *)
Definition check_LG (l : listr) : M unit :=
  if lN2 l =? 0 then undef else require ((LG l =? 1) || (LG l =? 2)).
(** section/12/TransitionProbabilities/src/ctor.hpp:1-88 *)
Definition rd_transitions (mat mf mt : Z) : M listr :=
  l <- rd_list mat mf mt ;; check_LG l ;;; ret l.
(** section/12/TransitionProbabilities/src/generateList.hpp:1-20, :22-49 *)
Fixpoint interleave2 (a b : list real) : list real :=
  match a, b with x :: a', y :: b' => x :: y :: interleave2 a' b' | _, _ => [] end.
(** section/12/TransitionProbabilities/src/generateList.hpp:22-49 *)
Fixpoint interleave3 (a b c : list real) : list real :=
  match a, b, c with x :: a', y :: b', z :: c' => x :: y :: z :: interleave3 a' b' c' | _, _, _ => [] end.
(** section/12/TransitionProbabilities/src/ctor.hpp:24-71 *)
Definition verified_LG (l : listr) : out listr :=
  if lN2 l =? 0 then Undef else if (LG l =? 1) || (LG l =? 2) then Val l else Throw EStd.
(** section/12/TransitionProbabilities/src/ctor.hpp:1-88 *)
Definition make_transitions2 (energy : real) (es tp : list real) : out listr :=
  if negb (length es =? length tp)%nat then Throw EStd
  else verified_LG (mklist energy rzero 0 0 (Z.of_nat (length es)) (interleave2 es tp)).
(** section/12/TransitionProbabilities/src/ctor.hpp:1-88 *)
Definition make_transitions3 (energy : real) (es tp gp : list real) : out listr :=
  if negb (length es =? length tp)%nat || negb (length es =? length gp)%nat then Throw EStd
  else verified_LG (mklist energy rzero 0 0 (Z.of_nat (length es)) (interleave3 es tp gp)).
(** E(), TP(), GP(): the chunks of LG() + 1 values, the last of which may be shorter: section/12/TransitionProbabilities.hpp:76-123,
    section/12/TransitionProbabilities/Transition.hpp:25-45; GP is 1 when the chunk has not three values *)
Fixpoint chunks (fuel : nat) (n : nat) (l : list real) : list (list real) :=
  match fuel with
  | O => []
  | S f => match l with [] => [] | _ => firstn n l :: chunks f n (skipn n l) end
  end.
(** section/12/TransitionProbabilities.hpp:76-123 *)
Definition chunked (l : listr) : list (list real) := chunks (length (lB l)) (Z.to_nat (LG l + 1)) (lB l).
(** section/12/TransitionProbabilities/Transition.hpp:25-45 *)
Definition TR_E (c : list real) : out real := element c 0.
(** section/12/TransitionProbabilities/Transition.hpp:25-45 *)
Definition TR_TP (c : list real) : out real := element c 1.
(** section/12/TransitionProbabilities/Transition.hpp:25-45 *)
Definition TR_GP (c : list real) : out real := if (length c =? 3)%nat then element c 2 else Val (of_int 1).
(** section/12/TransitionProbabilities.hpp:88-93 *)
Definition tr_E (l : listr) : out (list real) := all_val (map TR_E (chunked l)).
(** section/12/TransitionProbabilities.hpp:103-108 *)
Definition tr_TP (l : listr) : out (list real) := all_val (map TR_TP (chunked l)).
(** section/12/TransitionProbabilities.hpp:118-123 *)
Definition tr_GP (l : listr) : out (list real) := all_val (map TR_GP (chunked l)).

(** section/12.hpp:1-98 *)
Inductive production := Multiplicities (m : multiplicities) | TransitionProbabilities (l : listr).
(** section/12.hpp:1-98: LO() is the index in the variant plus one *)
Definition LO12 (p : production) : Z := match p with Multiplicities _ => 1 | TransitionProbabilities _ => 2 end.
(** section/12/src/readPhotonProduction.hpp:1-23 *)
Definition rd_production (lo n mat mf mt : Z) : M production :=
  if i32 lo =? 1 then m <- rd_multiplicities n mat mf mt ;; ret (Multiplicities m)
  else if i32 lo =? 2 then l <- rd_transitions mat mf mt ;; ret (TransitionProbabilities l)
  else throw EStd.
(** section/12/src/print.hpp:1-40 *)
Definition pr_production (p : production) (mat mf mt : Z) : text :=
  match p with Multiplicities m => pr_multiplicities m mat mf mt | TransitionProbabilities l => pr_list l mat mf mt end.
(** section/12/src/NC.hpp:1-9 *)
Definition nc_production (p : production) : Z :=
  match p with Multiplicities m => nc_multiplicities m | TransitionProbabilities l => nc_list l end.
(** section/12/src/print.hpp:7-40: L2 and N1 of the HEAD *)
Definition L2_12 (p : production) : Z := match p with Multiplicities _ => 0 | TransitionProbabilities l => LG l end.
(** section/12/src/print.hpp:1-40 *)
Definition N1_12 (p : production) : Z :=
  match p with Multiplicities m => isize (mu_partials m) | TransitionProbabilities l => i32 (lN2 l + 2) end.
(** section/12/src/ctor.hpp:23-46: Base( head.ZA(), head.AWR(), head.MT() ) *)
Definition sec_12 : skind production :=
  mkskind 12 None true false false (fun h => rd_production (l1 (sbase h)) (n1 (sbase h)))
    (fun p => (LO12 p, L2_12 p, N1_12 p, 0)) pr_production nc_production.

(** ** File 13: section/13/src/ctor.hpp:9-95, section/13/src/readTotalCrossSection.hpp:1-18, section/13/src/verifyNK.hpp:1-11,
    section/13/src/print.hpp:7-22, section/13/src/NC.hpp:4-10 *)
Definition sec_13 : skind multiplicities :=
  mkskind 13 None true false false (fun h => rd_multiplicities (n1 (sbase h)))
    (fun m => (0, 0, isize (mu_partials m), 0)) pr_multiplicities nc_multiplicities.

(** ** File 15 *)
(** section/15/PartialDistribution.hpp:14-33; section/5/Probability.hpp:1-71 (TAB1, LF() = L2, an int),
    section/5/TabulatedSpectrum.hpp:1-114 (TAB2 with TAB1 records) *)
Record partial15 := mkp15 { p15_prob : tab1; p15_spec : iseq tab1 }.
(** section/5/TabulatedSpectrum/src/ctor.hpp:37-56 *)
Definition rd_spectrum : Z -> Z -> Z -> M (iseq tab1) := rd_iseq no_more rd_tab1.
(** section/15/PartialDistribution/src/readPartialDistribution.hpp:1-24, section/15/PartialDistribution/src/ctor.hpp:12-36, section/15/PartialDistribution/src/verifyLF.hpp:1-16 *)
Definition rd_p15 (mat mf mt : Z) : M partial15 :=
  p <- rd_tab1 mat mf mt ;;
  require (i32 (tL2 (tbase p)) =? 1) ;;;
  d <- rd_spectrum mat mf mt ;; ret (mkp15 p d).
(** section/15/PartialDistribution/src/ctor.hpp:1-36 *)
Definition make_p15 (p : tab1) (d : iseq tab1) : out partial15 :=
  if i32 (tL2 (tbase p)) =? 1 then Val (mkp15 p d) else Throw EStd.
(** section/15/PartialDistribution/src/print.hpp:1-16 *)
Definition pr_p15 (p : partial15) (mat mf mt : Z) : text :=
  pr_tab1 (p15_prob p) mat mf mt ++ pr_iseq pr_tab1 (p15_spec p) mat mf mt.
(** section/15/PartialDistribution/src/NC.hpp:1-4 *)
Definition nc_p15 (p : partial15) : Z := nc_tab1 (p15_prob p) + nc_iseq nc_tab1 (p15_spec p).
(** section/15/src/ctor.hpp:9-52 and section/5/src/ctor.hpp:9-52: readSequence and verifyNK
    (section/5/src/verifyNK.hpp:1-10); section/5/src/print.hpp:1-18, section/5/src/NC.hpp:1-9 *)
Definition rd_nonempty {C} (rd : Z -> Z -> Z -> M C) (nk mat mf mt : Z) : M (list C) :=
  ps <- rd_all rd nk mat mf mt ;; require (negb (isize ps =? 0)) ;;; ret ps.
(** section/15.hpp:1-86 *)
Definition sec_15 : skind (list partial15) :=
  mkskind 15 None true true false (fun h => rd_nonempty rd_p15 (n1 (sbase h)))
    (fun l => (0, 0, isize l, 0)) (pr_all pr_p15) (nc_all nc_p15).

(** ** File 14 *)
(** section/14.hpp:44-47: the variant; LegendreDistributions and TabulatedDistributions are
    TAB2 records with LIST / TAB1 records (section/4/AngularDistributions.hpp:1-111, section/4/LegendreCoefficients.hpp:1-60,
    section/4/TabulatedDistribution.hpp:1-64); IsotropicDiscretePhoton keeps EG and ES. *)
Inductive photon14 :=
  Isotropic14 (eg es : real) | Legendre14 (q : iseq listr) | Tabulated14 (q : iseq tab1).
(** section/14/IsotropicDiscretePhoton/src/ctor.hpp:9-42, section/14/IsotropicDiscretePhoton/src/print.hpp:8-12 *)
Definition rd_iso (mat mf mt : Z) : M photon14 :=
  c <- rd_cont mat mf mt ;; ret (Isotropic14 (c1 c) (c2 c)).
(** section/14/LegendreDistributions.hpp:1-80 *)
Definition rd_leg (mat mf mt : Z) : M photon14 :=
  q <- rd_iseq no_more rd_list mat mf mt ;; ret (Legendre14 q).
(** section/14/TabulatedDistributions.hpp:1-80 *)
Definition rd_tabd (mat mf mt : Z) : M photon14 :=
  q <- rd_iseq no_more rd_tab1 mat mf mt ;; ret (Tabulated14 q).
(** section/14/src/print.hpp:1-23 *)
Definition pr_photon14 (p : photon14) (mat mf mt : Z) : text :=
  match p with
  | Isotropic14 eg es => pr_cont (mkcont eg es 0 0 0 0) mat mf mt
  | Legendre14 q => pr_iseq pr_list q mat mf mt
  | Tabulated14 q => pr_iseq pr_tab1 q mat mf mt
  end.
(** section/14/src/NC.hpp:1-12 *)
Definition nc_photon14 (p : photon14) : Z :=
  match p with Isotropic14 _ _ => 1 | Legendre14 q => nc_iseq nc_list q | Tabulated14 q => nc_iseq nc_tab1 q end.
(** section/14/IsotropicDiscretePhoton.hpp:1-68, section/14/LegendreDistributions.hpp:1-80, section/14/TabulatedDistributions.hpp:1-80 *)
Definition LTT_photon (p : photon14) : Z := match p with Isotropic14 _ _ => 0 | Legendre14 _ => 1 | Tabulated14 _ => 2 end.
(** nk_ is observable only when there are no photons (section/14.hpp:1-156: NK()); the model keeps
    it in that case only. *)
Inductive body14 := AllIsotropic (nk : Z) | Photons (p : photon14) (ps : list photon14).
(** section/14.hpp:1-156 *)
Definition photons_of (b : body14) : list photon14 := match b with AllIsotropic _ => [] | Photons p ps => p :: ps end.
(** section/14.hpp:1-156 *)
Definition body14_of (nk : Z) (l : list photon14) : body14 := match l with [] => AllIsotropic nk | p :: ps => Photons p ps end.
(** while ( n-- ): a negative count does not reach zero before a read fails on the
    text that runs out (nor before memory does); modelled as the failure *)
(** section/14/src/ctor.hpp:1-107 *)
Definition rd_while {C} (rd : Z -> Z -> Z -> M C) (n mat mf mt : Z) : M (list C) :=
  if n <? 0 then throw EStd else rd_n (rd mat mf mt) (Z.to_nat n).
(** section/14/src/readPhotons.hpp:1-57; sequence.reserve( NK ) throws std::length_error for
    a negative NK.  LI, NI, NK, LTT are longs. *)
Definition rd_photons14 (li ni nk ltt mat mf mt : Z) : M (list photon14) :=
  if li =? 1 then ret []
  else
    require (negb (nk <? 0)) ;;;
    iso <- rd_while rd_iso ni mat mf mt ;;
    ani <- (if nk - ni =? 0 then ret []
            else if ltt =? 1 then rd_while rd_leg (nk - ni) mat mf mt
            else if ltt =? 2 then rd_while rd_tabd (nk - ni) mat mf mt
            else throw EStd) ;;
    ret (iso ++ ani).
(** section/14/src/ctor.hpp:67-107; nk_ is an unsigned int, NK() an int *)
Definition rd_body14 (h : sdiv) (mat mf mt : Z) : M body14 :=
  ps <- rd_photons14 (l1 (sbase h)) (n2 (sbase h)) (n1 (sbase h)) (l2 (sbase h)) mat mf mt ;;
  ret (body14_of (i32 (n1 (sbase h))) ps).
(** section/14.hpp:71-99: NI, NK, LI, LTT *)
Definition is_iso (p : photon14) : bool := match p with Isotropic14 _ _ => true | _ => false end.
(** section/14.hpp:82-87 *)
Definition NI14 (b : body14) : Z := isize (filter is_iso (photons_of b)).
(** section/14.hpp:99-102 *)
Definition NK14 (b : body14) : Z := match b with AllIsotropic nk => nk | Photons _ _ => isize (photons_of b) end.
(** section/14.hpp:113 *)
Definition LI14 (b : body14) : Z := match b with AllIsotropic _ => 1 | Photons _ _ => 0 end.
(** section/14.hpp:123-129 *)
Definition LTT14 (b : body14) : Z :=
  match b with AllIsotropic _ => 0 | Photons p ps => LTT_photon (last ps p) end.
(** section/14/src/print.hpp:7-23, section/14/src/NC.hpp:4-12 *)
Definition sec_14 : skind body14 :=
  mkskind 14 None true false true rd_body14
    (fun b => (LI14 b, LTT14 b, NK14 b, NI14 b))
    (fun b => pr_all pr_photon14 (photons_of b)) (fun b => nc_all nc_photon14 (photons_of b)).
(** ES() and EG() of the two distributions: AngularDistributions::C1() returns a long
    (section/4/AngularDistributions.hpp:22-29), so the fraction is lost (truncation) *)
Definition trunc (r : real) : Z :=
  if 0 <=? rexp r then rsig r * 2 ^ rexp r else Z.quot (rsig r) (2 ^ (- rexp r)).
(** section/14/LegendreDistributions.hpp:1-80, section/14/TabulatedDistributions.hpp:1-80, section/14/IsotropicDiscretePhoton.hpp:1-68 *)
Definition EG14 (p : photon14) : real :=
  match p with Isotropic14 eg _ => eg | Legendre14 q => of_int (trunc (tC1 (istab q))) | Tabulated14 q => of_int (trunc (tC1 (istab q))) end.
(** section/14/LegendreDistributions.hpp:1-80, section/14/TabulatedDistributions.hpp:1-80, section/14/IsotropicDiscretePhoton.hpp:1-68 *)
Definition ES14 (p : photon14) : real :=
  match p with Isotropic14 _ es => es | Legendre14 q => of_int (trunc (tC2 (istab q))) | Tabulated14 q => of_int (trunc (tC2 (istab q))) end.
