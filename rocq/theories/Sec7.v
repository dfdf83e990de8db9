(** Sec7.v -- File 7: thermal scattering data (2, 4, 451).
    Paths relative to /repo/src/ENDFtk/section/7.

    Simplification: in 2 and 4 the fields are read before ZA and AWR are checked; when both fail
    the model reports the HEAD.  All failures are std::exception. *)
From Verif Require Import Base Disco Records Sections SecKit Sec9 Sec6 Sec33 Sec8.
Open Scope Z_scope.

(** ** a TAB1 record for the first temperature and a LIST record for every other one:
    section/7/2/CoherentElastic.hpp:17-19, section/7/4/TabulatedFunctions/ScatteringFunction.hpp:12-14 *)
Record series := mkseries { se_first : tab1; se_more : list listr }.
(** section/7/2/CoherentElastic/src/ctor.hpp:99-109 and section/7/4/TabulatedFunctions/ScatteringFunction/src/ctor.hpp:100-110 (before the
    checks): readSequence< ListRecord > with L1() of the TAB1 record *)
Definition rd_series (mat mf mt : Z) : M series :=
  t <- rd_tab1 mat mf mt ;; ls <- rd_all rd_list (tL1 (tbase t)) mat mf mt ;; ret (mkseries t ls).
(** section/7/2/CoherentElastic/src/print.hpp:11-16, section/7/2/CoherentElastic/src/NC.hpp:4-9; the same for ScatteringFunction *)
Definition pr_series (x : series) (mat mf mt : Z) : text :=
  pr_tab1 (se_first x) mat mf mt ++ pr_all pr_list (se_more x) mat mf mt.
(** section/7/2/CoherentElastic/src/NC.hpp:1-8 *)
Definition nc_series (x : series) : Z := nc_tab1 (se_first x) + nc_all nc_list (se_more x).
(** LT(), NT(), T(), LI(), S() of both classes: section/7/2/CoherentElastic.hpp:35-172 *)
Definition se_LT (x : series) : Z := i32 (tL1 (tbase (se_first x))).
(** section/7/2/CoherentElastic.hpp:56 *)
Definition se_NT (x : series) : Z := i32 (Z.of_nat (length (se_more x)) + 1).
(** section/7/2/CoherentElastic.hpp:116-123 *)
Definition se_T (x : series) : list real := tC1 (tbase (se_first x)) :: map lC1 (se_more x).
(** section/7/2/CoherentElastic.hpp:145-150 *)
Definition se_LI (x : series) : list Z := map lL1 (se_more x).
(** section/7/2/CoherentElastic.hpp:162-169 *)
Definition se_S (x : series) : list (list real) := ty (se_first x) :: map lB (se_more x).
(** E() and A(): the first column of the TAB1 record *)
(** section/7/2/CoherentElastic.hpp:104-170 *)
Definition se_X (x : series) : list real := tx (se_first x).
(** section/7/2/CoherentElastic/src/generateTemperatures.hpp:15-24: while( i++ < size ), with the elements of
    three vectors; li[i-1] is undefined beyond its end.  temperatures and s have size + 1 elements *)
Fixpoint more_temps (c2 : real) (ts : list real) (li : list Z) (ss : list (list real)) : out (list listr) :=
  match ts, ss with
  | t :: ts', s :: ss' =>
      match li with
      | i :: li' => let! r := more_temps c2 ts' li' ss' in Val (mklist t c2 i 0 0 s :: r)
      | [] => Undef
      end
  | _, _ => Val []
  end.

(** ** coherent elastic scattering *)
(** section/7/2/CoherentElastic/src/verifyTemperatures.hpp:1-18: NP becomes an int, NPL() is a long *)
Definition coherent_ok (x : series) : bool :=
  forallb (fun l => npl l =? i32 (Z.of_nat (length (tx (se_first x))))) (se_more x).
(** section/7/2/CoherentElastic/src/ctor.hpp:18-23, 111-133 *)
Definition rd_coherent (mat mf mt : Z) : M series :=
  x <- rd_series mat mf mt ;; require (coherent_ok x) ;;; ret x.
(** section/7/2/CoherentElastic/src/ctor.hpp:38-58: temperatures[0] and s[0] are read first (undefined when
    missing), the TAB1 record and generateTemperatures are evaluated in either order, both throw
    std::exception only.  size is an unsigned int, as is size + 1 *)
Definition make_coherent (bnd int : list Z) (ts : list real) (li : list Z) (es : list real) (ss : list (list real)) : out series :=
  match ts, ss with
  | t0 :: ts', s0 :: ss' =>
      let! t := make_tab1 t0 rzero (Z.of_nat (length ts')) 0 bnd int es s0 in
      let size := u32 (Z.of_nat (length ts')) in
      if negb (u32 (size + 1) =? Z.of_nat (length ss)) then Throw EStd
      else let! ls := more_temps rzero (firstn (Z.to_nat size) ts') li ss' in
           let x := mkseries t ls in if coherent_ok x then Val x else Throw EStd
  | _, _ => Undef
  end.
(** section/7/2/CoherentElastic/src/ctor.hpp:71-86 *)
Definition make_coherent1 (t0 : real) (bnd int : list Z) (es s : list real) : out series :=
  let! t := make_tab1 t0 rzero 0 0 bnd int es s in
  let x := mkseries t [] in if coherent_ok x then Val x else Throw EStd.
(** ** incoherent and mixed elastic scattering: section/7/2/IncoherentElastic.hpp:1-78, section/7/2/IncoherentElastic/src/ctor.hpp:20-58 (a TAB1 record);
    section/7/2/MixedElastic/src/ctor.hpp:25-55, section/7/2/MixedElastic/src/print.hpp:11-16, section/7/2/MixedElastic/src/NC.hpp:4-7 *)
Inductive elastic := Coherent (x : series) | Incoherent (t : tab1) | Mixed (x : series) (t : tab1).
(** section/7/2/IncoherentElastic/src/ctor.hpp:1-58 *)
Definition make_incoherent (sb : real) (bnd int : list Z) (ts ws : list real) : out tab1 :=
  make_tab1 sb rzero 0 0 bnd int ts ws.
(** section/7/2/IncoherentElastic.hpp:30 *)
Definition ie_SB (t : tab1) : real := tC1 (tbase t).
(** section/7/2/IncoherentElastic.hpp:40 *)
Definition ie_T (t : tab1) : list real := tx t.
(** section/7/2/IncoherentElastic.hpp:50 *)
Definition ie_W (t : tab1) : list real := ty t.
(** LTHR(): section/7/2/CoherentElastic.hpp:29, section/7/2/IncoherentElastic.hpp:15, section/7/2/MixedElastic.hpp:20 *)
Definition LTHR (e : elastic) : Z := match e with Coherent _ => 1 | Incoherent _ => 2 | Mixed _ _ => 3 end.
(** section/7/2/src/readScatteringLaw.hpp:1-23: LTHR becomes an int *)
Definition rd_elastic (lthr mat mf mt : Z) : M elastic :=
  if i32 lthr =? 1 then x <- rd_coherent mat mf mt ;; ret (Coherent x)
  else if i32 lthr =? 2 then t <- rd_tab1 mat mf mt ;; ret (Incoherent t)
  else if i32 lthr =? 3 then x <- rd_coherent mat mf mt ;; t <- rd_tab1 mat mf mt ;; ret (Mixed x t)
  else throw EStd.
(** section/7/2/src/print.hpp:1-19 *)
Definition pr_elastic (e : elastic) : Z -> Z -> Z -> text :=
  match e with Coherent x => pr_series x | Incoherent t => pr_tab1 t
  | Mixed x t => fun mat mf mt => pr_series x mat mf mt ++ pr_tab1 t mat mf mt end.
(** section/7/2/src/NC.hpp:1-8 *)
Definition nc_elastic (e : elastic) : Z :=
  match e with Coherent x => nc_series x | Incoherent t => nc_tab1 t | Mixed x t => nc_series x + nc_tab1 t end.
(** section/7/2/src/ctor.hpp:30-44, section/7/2/src/print.hpp:10-19, section/7/2/src/NC.hpp:4-9 *)
Definition sec_7_2 : skind elastic :=
  mkskind 7 (Some 2) true false false (fun h => rd_elastic (l1 (sbase h)))
    (fun e => (LTHR e, 0, 0, 0)) pr_elastic nc_elastic.

(** ** inelastic scattering *)
(** section/7/4/ScatteringLawConstants/src/verifySize.hpp:1-20 and section/7/4/ScatteringLawConstants/src/checkLLN.hpp:1-12, on int; section/7/4/ScatteringLawConstants/src/ctor.hpp:12-17 *)
Definition check_constants (l : listr) : out unit :=
  if 3 <? i32 (lN2 l) then Throw EStd
  else let! p := int_op (6 * (i32 (lN2 l) + 1)) in
       let! u := ensure (i32 (npl l) =? p) in ensure ((i32 (lL1 l) =? 0) || (i32 (lL1 l) =? 1)).
(** section/7/4/ScatteringLawConstants.hpp:68-107: MSIGMA() selects the indices by 1 + NS(), a long; for any
    other number the compiler is told that the place cannot be reached *)
Definition msigma_indices (ns : Z) : out (list nat) :=
  if ns =? 0 then Val [0%nat] else if ns =? 1 then Val [0; 7]%nat
  else if ns =? 2 then Val [0; 7; 13]%nat else if ns =? 3 then Val [0; 7; 13; 19]%nat else Undef.
(** section/7/4/ScatteringLawConstants.hpp:78-106 *)
Definition MSIGMA (l : listr) : out (list real) := let! is := msigma_indices (lN2 l) in all_val (map (element (lB l)) is).
(** the other accessors: section/7/4/ScatteringLawConstants.hpp:33-62, 113-160 *)
Definition sc_LLN (l : listr) : Z := i32 (lL1 l).
(** section/7/4/ScatteringLawConstants.hpp:40 *)
Definition sc_NI (l : listr) : Z := npl l.
(** section/7/4/ScatteringLawConstants.hpp:50 *)
Definition sc_NS (l : listr) : Z := lN2 l.
(** section/7/4/ScatteringLawConstants.hpp:60 *)
Definition sc_epsilon (l : listr) : out real := element (lB l) 1.
(** section/7/4/ScatteringLawConstants.hpp:66 *)
Definition sc_EMAX (l : listr) : out real := element (lB l) 3.
(** section/7/4/ScatteringLawConstants.hpp:113-160 *)
Definition column6 (i : Z) (l : listr) : out (list real) := let! b := drop_exactly i (lB l) in Val (stride 6 b).
(** section/7/4/ScatteringLawConstants.hpp:118-122 *)
Definition sc_AWR : listr -> out (list real) := column6 2.
(** section/7/4/ScatteringLawConstants.hpp:137-141 *)
Definition sc_M : listr -> out (list real) := column6 5.
(** section/7/4/ScatteringLawConstants.hpp:113-160 *)
Definition sc_types : listr -> out (list real) := column6 6.
(** section/7/4/ScatteringLawConstants/src/ctor.hpp:30-92 and section/7/4/ScatteringLawConstants/src/generateList.hpp:1-55: ns becomes an unsigned int,
    ns + 1 is one; xs[0] and the others exist unless ns + 1 is 0 *)
Fixpoint rows6 (types : list Z) (xs awr : list real) (natoms : list Z) : list real :=
  match types, xs, awr, natoms with
  | t :: types', x :: xs', a :: awr', n :: natoms' => [of_int t; x; a; rzero; rzero; of_int n] ++ rows6 types' xs' awr' natoms'
  | _, _, _, _ => []
  end.
(** section/7/4/ScatteringLawConstants/src/generateList.hpp:38 *)
Definition constants_list (ns : Z) (eps emax : real) (xs awr : list real) (natoms types : list Z) : out (list real) :=
  let n1 := u32 (u32 ns + 1) in
  if negb (Z.of_nat (length xs) =? n1) || negb (Z.of_nat (length awr) =? n1)
     || negb (Z.of_nat (length natoms) =? n1) || negb (Z.of_nat (length types) =? u32 ns) then Throw EStd
  else match xs, awr, natoms with
       | x :: xs', a :: awr', n :: natoms' => Val ([x; eps; a; emax; rzero; of_int n] ++ rows6 types xs' awr' natoms')
       | _, _, _ => Undef
       end.
(** section/7/4/ScatteringLawConstants/src/ctor.hpp:1-128 *)
Definition make_constants_list (lln ns : Z) (values : list real) : out listr :=
  let l := mklist rzero rzero lln 0 ns values in let! u := check_constants l in Val l.
(** section/7/4/ScatteringLawConstants/src/ctor.hpp:1-128 *)
Definition make_constants (lln ns : Z) (eps emax : real) (xs awr : list real) (natoms types : list Z) : out listr :=
  let! b := constants_list ns eps emax xs awr natoms types in make_constants_list lln ns b.
(** section/7/4/ScatteringLawConstants/src/ctor.hpp:1-128 *)
Definition make_constants1 (lln : Z) (eps emax xs awr : real) (natoms : Z) : out listr :=
  make_constants_list lln 0 [xs; eps; awr; emax; rzero; of_int natoms].

(** section/7/4/TabulatedFunctions/ScatteringFunction/src/ctor.hpp:18-30, section/7/4/TabulatedFunctions/ScatteringFunction/src/verifyBetaValues.hpp:1-17; NT() is an int *)
Definition betas_ok (x : series) : bool :=
  if se_NT x =? 1 then true else forallb (fun l => req (lC2 l) (tC2 (tbase (se_first x)))) (se_more x).
(** section/7/4/TabulatedFunctions/ScatteringFunction/src/ctor.hpp:1-134 *)
Definition rd_function (mat mf mt : Z) : M series :=
  x <- rd_series mat mf mt ;; require (betas_ok x) ;;; ret x.
(** section/7/4/TabulatedFunctions/ScatteringFunction/src/ctor.hpp:46-70 (as make_coherent, but li must have size elements) and :84-97 *)
Definition make_function (beta : real) (bnd int : list Z) (ts : list real) (li : list Z) (als : list real) (ss : list (list real)) : out series :=
  match ts, ss with
  | t0 :: ts', s0 :: ss' =>
      let! t := make_tab1 t0 beta (Z.of_nat (length ts')) 0 bnd int als s0 in
      let size := u32 (Z.of_nat (length ts')) in
      if negb (size =? Z.of_nat (length li)) || negb (u32 (size + 1) =? Z.of_nat (length ss)) then Throw EStd
      else let! ls := more_temps beta (firstn (Z.to_nat size) ts') li ss' in
           let x := mkseries t ls in if betas_ok x then Val x else Throw EStd
  | _, _ => Undef
  end.
(** section/7/4/TabulatedFunctions/ScatteringFunction/src/ctor.hpp:1-134 *)
Definition make_function1 (t0 beta : real) (bnd int : list Z) (als s : list real) : out series :=
  let! t := make_tab1 t0 beta 0 0 bnd int als s in
  let x := mkseries t [] in if betas_ok x then Val x else Throw EStd.
(** section/7/4/TabulatedFunctions/ScatteringFunction.hpp:35 *)
Definition sf_B (x : series) : real := tC2 (tbase (se_first x)).
(** section/7/4/TabulatedFunctions/src/ctor.hpp:12-64, section/7/4/TabulatedFunctions/src/print.hpp:11-15; section/7/4/AnalyticalFunctions.hpp:15-28 (no lines) *)
Definition make_functions (bnd int : list Z) (fs : list series) : out (iseq series) :=
  let! t := make_tab2 rzero rzero 0 0 bnd int in make_iseq no_more t fs.
(** section/7/4/TabulatedFunctions.hpp:57-62 *)
Definition tf_B (q : iseq series) : list real := map sf_B (isrec q).
(** section/7/4.hpp:1-151, ScatteringLaw *)
Inductive inelastic := Analytical | Tabulated (q : iseq series).
(** section/7/4/src/print.hpp:1-24, section/7/4/src/NC.hpp:1-13 *)
Definition pr_inelastic (w : inelastic) : Z -> Z -> Z -> text :=
  match w with Analytical => fun _ _ _ => [] | Tabulated q => pr_iseq pr_series q end.
(** section/7/4/src/print.hpp:1-24, section/7/4/src/NC.hpp:1-13 *)
Definition nc_inelastic (w : inelastic) : Z := match w with Analytical => 0 | Tabulated q => nc_iseq nc_series q end.
(** section/7/4/src/readScatteringLaw.hpp:1-19, called with totalFreeCrossSections()[0] (section/7/4/src/ctor.hpp:86-102) *)
Definition rd_inelastic (l : listr) (mat mf mt : Z) : M inelastic :=
  xs <- lift (MSIGMA l) ;; b1 <- lift (element xs 0) ;;
  if req b1 rzero then ret Analytical
  else q <- rd_iseq no_more rd_function mat mf mt ;; ret (Tabulated q).
(** section/7/4/src/readSecondaryTemperatures.hpp:1-25: size is an unsigned int; 4/EffectiveTemperature: a TAB1 record *)
Fixpoint rd_secondary (types : list real) (mat mf mt : Z) : M (list (option tab1)) :=
  match types with
  | [] => ret []
  | y :: types' =>
      o <- (if req y rzero then t <- rd_tab1 mat mf mt ;; ret (Some t) else ret None) ;;
      os <- rd_secondary types' mat mf mt ;; ret (o :: os)
  end.
(** section/7/4/src/ctor.hpp:1-125 *)
Definition rd_secondaries (l : listr) (mat mf mt : Z) : M (list (option tab1)) :=
  types <- lift (sc_types l) ;; rd_secondary (firstn (Z.to_nat (u32 (Z.of_nat (length types)))) types) mat mf mt.
(** section/7/4/src/verifySecondaryTemperatures.hpp:1-44 *)
Fixpoint agree (types : list real) (os : list (option tab1)) : bool :=
  match types, os with
  | y :: types', o :: os' => Bool.eqb (req y rzero) (match o with Some _ => true | None => false end) && agree types' os'
  | _, _ => true
  end.
(** section/7/4/src/verifySecondaryTemperatures.hpp:1-44 *)
Definition check_secondary (l : listr) (os : list (option tab1)) : out unit :=
  let! types := sc_types l in ensure ((length types =? length os)%nat && agree types os).
(** section/7/4.hpp:29-35 *)
Record thermal := mkthermal
  { th_lat : Z; th_lasym : Z; th_constants : listr; th_law : inelastic; th_principal : tab1; th_secondary : list (option tab1) }.
(** section/7/4/src/checkValue.hpp:1-12 *)
Definition lat_ok (lat : Z) : bool := (lat =? 0) || (lat =? 1).
(** section/7/4/src/ctor.hpp:17-31: the law is not compared with the constants *)
Definition make_thermal (lat lasym : Z) (l : listr) (w : inelastic) (p : tab1) (os : list (option tab1)) : out thermal :=
  let! u := check_secondary l os in let! v := ensure (lat_ok lat) in Val (mkthermal lat lasym l w p os).
(** section/7/4/src/ctor.hpp:33-125: lat and lasym pass through int *)
Definition rd_thermal (lat lasym mat mf mt : Z) : M thermal :=
  l <- rd_checked check_constants mat mf mt ;;
  w <- rd_inelastic l mat mf mt ;;
  p <- rd_tab1 mat mf mt ;;
  os <- rd_secondaries l mat mf mt ;;
  lift (make_thermal (i32 lat) (i32 lasym) l w p os).
(** section/7/4/src/print.hpp:11-25, section/7/4/src/NC.hpp:4-14 *)
Definition pr_thermal (x : thermal) (mat mf mt : Z) : text :=
  pr_list (th_constants x) mat mf mt ++ pr_inelastic (th_law x) mat mf mt ++ pr_tab1 (th_principal x) mat mf mt
  ++ pr_all (pr_opt pr_tab1) (th_secondary x) mat mf mt.
(** section/7/4/src/NC.hpp:1-13 *)
Definition nc_thermal (x : thermal) : Z :=
  nc_list (th_constants x) + nc_inelastic (th_law x) + nc_tab1 (th_principal x) + nc_all (nc_opt nc_tab1) (th_secondary x).
(** section/7/4.hpp:1-151 *)
Definition sec_7_4 : skind thermal :=
  mkskind 7 (Some 4) true false false (fun h => rd_thermal (l2 (sbase h)) (n1 (sbase h)))
    (fun x => (0, th_lat x, th_lasym x, 0)) pr_thermal nc_thermal.
(** section/7/4/EffectiveTemperature/src/ctor.hpp:19-32 *)
Definition make_temperature (bnd int : list Z) (tmod teff : list real) : out tab1 :=
  make_tab1 rzero rzero 0 0 bnd int tmod teff.

(** ** generalised information *)
(** section/7/451/ElementInformation/src/verifySize.hpp:1-12, on int; section/7/451/ElementInformation/src/ctor.hpp:9-13 *)
Definition check_element (l : listr) : out unit :=
  let! p := int_op (i32 (lN2 l) * 6) in ensure (i32 (npl l) =? p).
(** section/7/451/ElementInformation.hpp:19-22, 36-94 *)
Definition ei_NAS (l : listr) : Z := i32 (lL1 l).
(** section/7/451/ElementInformation.hpp:41 *)
Definition ei_NI (l : listr) : Z := i32 (lN2 l).
(** section/7/451/ElementInformation.hpp:51 *)
Definition ei_ZAI := column6 0.
(** section/7/451/ElementInformation.hpp:61 *)
Definition ei_LISI := column6 1.
(** section/7/451/ElementInformation.hpp:71 *)
Definition ei_AFI := column6 2.
(** section/7/451/ElementInformation.hpp:81 *)
Definition ei_AWRI := column6 3.
(** section/7/451/ElementInformation.hpp:91 *)
Definition ei_SFI := column6 4.
(** section/7/451/ElementInformation/src/generateList.hpp:1-34 (ni is an unsigned int), section/7/451/ElementInformation/src/ctor.hpp:28-46 *)
Record isotope := mkisotope { is_za : Z; is_state : Z; is_af : real; is_awr : real; is_xs : real }.
(** section/7/451/ElementInformation/src/generateList.hpp:1-34 *)
Definition isotope_row (i : isotope) : list real := [of_int (is_za i); of_int (is_state i); is_af i; is_awr i; is_xs i; rzero].
(** section/7/451/ElementInformation/src/generateList.hpp:1-34 *)
Fixpoint isotopes (ids states : list Z) (afs ws xs : list real) : list isotope :=
  match ids, states, afs, ws, xs with
  | i :: ids', s :: states', a :: afs', w :: ws', x :: xs' => mkisotope i s a w x :: isotopes ids' states' afs' ws' xs'
  | _, _, _, _, _ => []
  end.
(** section/7/451/ElementInformation/src/ctor.hpp:1-65 *)
Definition make_element (atoms : Z) (ids states : list Z) (afs ws xs : list real) : out listr :=
  let ni := u32 (Z.of_nat (length ids)) in
  if negb (Z.of_nat (length states) =? ni) || negb (Z.of_nat (length afs) =? ni)
     || negb (Z.of_nat (length ws) =? ni) || negb (Z.of_nat (length xs) =? ni) then Throw EStd
  else let l := mklist rzero rzero atoms 0 (Z.of_nat (length ids)) (flat_map isotope_row (isotopes ids states afs ws xs)) in
       let! u := check_element l in Val l.
(** section/7/451/src/verifySize.hpp:1-11 and section/7/451/src/ctor.hpp:17-20: NA() is an unsigned int *)
Definition NA (l : list listr) : Z := u32 (Z.of_nat (length l)).
(** section/7/451/src/verifySize.hpp:1-11 *)
Definition elements_ok (l : list listr) : bool := negb (NA l =? 0).
(** section/7/451/src/ctor.hpp:1-53 *)
Definition make_elements (l : list listr) : out (list listr) := if elements_ok l then Val l else Throw EStd.
(** section/7/451/src/ctor.hpp:33-53 (records are read with head.MT()), section/7/451/src/print.hpp:11-22, section/7/451/src/NC.hpp:4-12 *)
Definition rd_elements (n mat mf mt : Z) : M (list listr) :=
  x <- rd_all (rd_checked check_element) n mat mf mt ;; require (elements_ok x) ;;; ret x.
(** section/7/451.hpp:1-82 *)
Definition sec_7_451 : skind (list listr) :=
  mkskind 7 (Some 451) false false false (fun h => rd_elements (l1 (sbase h)))
    (fun l => (NA l, 0, 0, 0)) (pr_all pr_list) (nc_all nc_list).
