(** Sec32.v -- File 32: covariances of resonance parameters (151).  Paths relative to
    /repo/src/ENDFtk/section/32/151.

    Simplifications.  section/32/151/Isotope/src/readParameters.hpp:13-15 reads the next CONT record twice, and the first time
    increments the line counter; the reader below leaves the counter alone there, and [rd_covrange_as_is] at the
    end of this file does not (the counter is only used in messages; the difference is a theorem in PropSec32.v).
    Where several conditions are checked in one place only the fact that one fails is modelled.  A vector too
    large for the memory is not modelled. *)
From Verif Require Import Base Disco Records Sections SecKit Sec9 Sec6 Sec33 Sec8 Sec7 Sec2.
Open Scope Z_scope.

(** a part that is read when the long N2 of the CONT record is not zero *)
(** not code: an optional record, as in section/32/151/LimitedCovarianceBase/src/ctor.hpp:60-100 *)
Definition rd_when {A} (rd : Z -> Z -> Z -> M A) (b : bool) (mat mf mt : Z) : M (option A) :=
  if b then x <- rd mat mf mt ;; ret (Some x) else ret None.
(** not code: an optional record, as in section/32/151/LimitedCovarianceBase/src/ctor.hpp:60-100 *)
Definition isr {A} (o : option A) : Z := match o with Some _ => 1 | None => 0 end.
(** verifySize of a LIST record with m numbers for each of N2 >= 1 resonances, on int *)
(** section/32/151/LimitedBreitWignerLValue/src/verifySize.hpp:1-29 *)
Definition check_rows (m : Z) (l : listr) : out unit :=
  let! u := ensure (negb (i32 (npl l) <? 1)) in
  let! v := ensure (negb (i32 (lN2 l) <? 1)) in
  let! p := int_op (m * i32 (lN2 l)) in
  ensure (i32 (npl l) =? p).
(** N ( N + 1 ) / 2 on int *)
(** section/32/151/ShortRangeRMatrixLimitedBlock/CovarianceMatrix/src/verifySize.hpp:1-29 *)
Definition triangle (n : Z) : out Z :=
  let! m := int_op (n + 1) in let! p := int_op (n * m) in Val (Z.quot p 2).
(** section/32/151/ShortRangeRMatrixLimitedBlock/CovarianceMatrix/src/verifySize.hpp:1-29,
    section/32/151/UnresolvedRelativeCovariances/CovarianceMatrix/src/verifySize.hpp:1-29, on int *)
Definition check_triangle (l : listr) : out unit :=
  let! u := ensure (negb (i32 (npl l) <? 1)) in
  let! v := ensure (negb (i32 (lN2 l) <? 1)) in
  let! p := triangle (i32 (lN2 l)) in
  ensure (i32 (npl l) =? p).
(** section/32/151/ShortRangeRMatrixLimitedBlock/CovarianceMatrix/src/ctor.hpp:27-35, section/32/151/UnresolvedRelativeCovariances/CovarianceMatrix/src/ctor.hpp:28-36:
    ( -1 + std::sqrt( 1 + 8 * n ) ) / 2 truncated, n unsigned int; for numbers below 2^32 the double is on the same
    side of every integer as the square root *)
Definition triangle_order (n : Z) : Z := Z.quot (Z.sqrt (u32 (1 + 8 * u32 n)) - 1) 2.
(** section/32/151/ShortRangeRMatrixLimitedBlock/CovarianceMatrix/src/ctor.hpp:1-54 *)
Definition make_triangle (l1 : Z) (values : list real) : out listr :=
  let l := mklist rzero rzero l1 0 (triangle_order (Z.of_nat (length values))) values in
  let! u := check_triangle l in Val l.

(** ** limited covariances, LCOMP = 0 *)
(** section/32/151/LimitedBreitWignerLValue/src/verifySize.hpp:1-29, section/32/151/LimitedBreitWignerLValue/src/ctor.hpp:12-17 *)
Definition check_limited : listr -> out unit := check_rows 18.
(** section/32/151/LimitedBreitWignerLValue/src/generateList.hpp:1-76: the length of djdf is not checked, that of djdn twice;
    reading past its end is undefined.  section/32/151/LimitedBreitWignerLValue/src/ctor.hpp:41-72 *)
Definition make_limited_lvalue (awri : real) (l : Z)
    (es spins gt gn gg gf de2 dn2 dndg dg2 dndf dgdf df2 djdn djdg djdf dj2 : list real) : out listr :=
  if negb (all_sized (u32 (Z.of_nat (length es))) [spins; gt; gn; gg; gf; de2; dn2; dndg; dg2; dndf; dgdf; df2; djdn; djdg; dj2]) then Throw EStd
  else if (length djdf <? length es)%nat then Undef
  else let r := mklist awri rzero l 0 (Z.of_nat (length es))
                  (rows_of [es; spins; gt; gn; gg; gf; de2; dn2; dndg; dg2; dndf; dgdf; df2; djdn; djdg; djdf; dj2; []] (length es)) in
       let! u := check_limited r in Val r.
(** section/32/151/LimitedBreitWignerLValue.hpp:14-18,61-229: column k of 18 *)
Definition ll_ER := col_of 18 0.
(** section/32/151/LimitedBreitWignerLValue.hpp:74 *)
Definition ll_AJ := col_of 18 1.
(** section/32/151/LimitedBreitWignerLValue.hpp:84 *)
Definition ll_GT := col_of 18 2.
(** section/32/151/LimitedBreitWignerLValue.hpp:94 *)
Definition ll_GN := col_of 18 3.
(** section/32/151/LimitedBreitWignerLValue.hpp:104 *)
Definition ll_GG := col_of 18 4.
(** section/32/151/LimitedBreitWignerLValue.hpp:114 *)
Definition ll_GF := col_of 18 5.
(** section/32/151/LimitedBreitWignerLValue.hpp:124 *)
Definition ll_DE2 := col_of 18 6.
(** section/32/151/LimitedBreitWignerLValue.hpp:134 *)
Definition ll_DN2 := col_of 18 7.
(** section/32/151/LimitedBreitWignerLValue.hpp:144 *)
Definition ll_DNDG := col_of 18 8.
(** section/32/151/LimitedBreitWignerLValue.hpp:154 *)
Definition ll_DG2 := col_of 18 9.
(** section/32/151/LimitedBreitWignerLValue.hpp:164 *)
Definition ll_DNDF := col_of 18 10.
(** section/32/151/LimitedBreitWignerLValue.hpp:174 *)
Definition ll_DGDF := col_of 18 11.
(** section/32/151/LimitedBreitWignerLValue.hpp:184 *)
Definition ll_DF2 := col_of 18 12.
(** section/32/151/LimitedBreitWignerLValue.hpp:194 *)
Definition ll_DJDN := col_of 18 13.
(** section/32/151/LimitedBreitWignerLValue.hpp:204 *)
Definition ll_DJDG := col_of 18 14.
(** section/32/151/LimitedBreitWignerLValue.hpp:214 *)
Definition ll_DJDF := col_of 18 15.
(** section/32/151/LimitedBreitWignerLValue.hpp:224 *)
Definition ll_DJ2 := col_of 18 16.
(** section/32/151/LimitedBreitWignerLValue.hpp:234-241, section/32/151/LimitedBreitWignerLValue/Resonance.hpp:22-182: the chunks of 18, and the number in place k of one *)
Definition ll_resonances (l : listr) : list (list real) := chunks (length (lB l)) 18 (lB l).
(** section/32/151/LimitedCovarianceBase.hpp:18-22; section/32/151/LimitedCovarianceBase/src/ctor.hpp:12-48, section/32/151/LimitedCovarianceBase/src/verifySize.hpp:1-11, on int; the classes
    LimitedSingleLevelBreitWigner and LimitedMultiLevelBreitWigner add nothing *)
Record limited := mklimited { lm_spi : real; lm_ap : real; lm_dap : option real; lm_lvalues : list listr }.
(** section/32/151/LimitedCovarianceBase/src/ctor.hpp:1-100 *)
Definition make_limited (spi ap : real) (dap : option real) (ls : list listr) : out limited :=
  let! u := at_least_one ls in Val (mklimited spi ap dap ls).
(** the uncertainty of the radius is C2 of a CONT record: section/32/151/LimitedCovarianceBase/src/ctor.hpp:76-80,
    section/32/151/GeneralSingleLevelBreitWigner/src/read.hpp:1-6, section/32/151/CompactSingleLevelBreitWigner/src/read.hpp:1-6, section/32/151/CompactSingleLevelBreitWigner/src/print.hpp:1-5, section/32/151/CompactSingleLevelBreitWigner/src/NC.hpp:1-1 *)
Definition rd_dap (mat mf mt : Z) : M real := c <- rd_cont mat mf mt ;; ret (c2 c).
(** section/32/151/LimitedCovarianceBase/src/print.hpp:1-25 *)
Definition pr_dap (x : real) : Z -> Z -> Z -> text := pr_cont (mkcont rzero x 0 0 0 0).
(** section/32/151/LimitedCovarianceBase/src/NC.hpp:1-9 *)
Definition nc_dap (x : real) : Z := 1.
(** section/32/151/LimitedCovarianceBase/src/ctor.hpp:50-100 *)
Definition rd_limited (mat mf mt : Z) : M limited :=
  c <- rd_cont mat mf mt ;;
  d <- rd_when rd_dap (z2b (n2 c)) mat mf mt ;;
  ls <- rd_all (rd_checked check_limited) (n1 c) mat mf mt ;;
  lift (make_limited (c1 c) (c2 c) d ls).
(** section/32/151/LimitedCovarianceBase/src/print.hpp:9-25, section/32/151/LimitedCovarianceBase/src/NC.hpp:1-9 *)
Definition limited_head (x : limited) : cont := mkcont (lm_spi x) (lm_ap x) 0 0 (isize (lm_lvalues x)) (isr (lm_dap x)).
(** section/32/151/LimitedCovarianceBase/src/print.hpp:1-25 *)
Definition pr_limited (x : limited) (mat mf mt : Z) : text :=
  pr_cont (limited_head x) mat mf mt ++ pr_opt pr_dap (lm_dap x) mat mf mt ++ pr_all pr_list (lm_lvalues x) mat mf mt.
(** section/32/151/LimitedCovarianceBase/src/NC.hpp:1-9 *)
Definition nc_limited (x : limited) : Z := 1 + nc_opt nc_dap (lm_dap x) + nc_all nc_list (lm_lvalues x).

(** ** general covariances, LCOMP = 1 *)
(** section/32/151/ShortRangeBreitWignerReichMooreBlockBase/src/verifySize.hpp:1-38, section/32/151/ShortRangeBreitWignerReichMooreBlockBase/src/ctor.hpp:9-14, on int *)
Definition check_short (l : listr) : out unit :=
  let! u := ensure (negb (i32 (npl l) <? 1)) in
  let! v := ensure (negb ((i32 (lL1 l) <? 1) || (5 <? i32 (lL1 l)))) in
  let! w := ensure (negb (i32 (lN2 l) <? 1)) in
  let! a := int_op (6 * i32 (lN2 l)) in
  let! b := int_op (i32 (lL1 l) * i32 (lN2 l)) in
  let! m := int_op (b + 1) in
  let! p := int_op (b * m) in
  let! s := int_op (a + Z.quot p 2) in
  ensure (i32 (npl l) =? s).
(** section/32/151/ShortRangeBreitWignerReichMooreBlockBase/src/generateList.hpp:1-39, section/32/151/ShortRangeBreitWignerReichMooreBlockBase/src/ctor.hpp:28-48; section/32/151/ShortRangeBreitWignerBlock/src/ctor.hpp:20-40 and
    section/32/151/ShortRangeReichMooreBlock/src/ctor.hpp:20-40 pass their arguments in the same order *)
Definition make_short (mpar : Z) (es spins a b c d values : list real) : out listr :=
  if negb (all_sized (u32 (Z.of_nat (length es))) [spins; a; b; c; d]) then Throw EStd
  else let r := mklist rzero rzero mpar 0 (Z.of_nat (length es)) (rows_of [es; spins; a; b; c; d] (length es) ++ values) in
       let! u := check_short r in Val r.
(** section/32/151/ShortRangeBreitWignerReichMooreBlockBase.hpp:18-33,62-128: 6 * NRB() on int *)
Definition sh_column (k : Z) (l : listr) : out (list real) :=
  let! n := int_op (6 * i32 (lN2 l)) in
  let! b := take_exactly n (lB l) in
  let! d := drop_exactly k b in Val (stride 6 d).
(** section/32/151/ShortRangeBreitWignerReichMooreBlockBase.hpp:124-138 *)
Definition sh_matrix (l : listr) : out (list real) := let! n := int_op (6 * i32 (lN2 l)) in drop_exactly n (lB l).
(** section/32/151/ShortRangeBreitWignerReichMooreBlockBase.hpp:28-45,85,95 *)
Definition sh_ER := sh_column 0.
(** section/32/151/ShortRangeBreitWignerReichMooreBlockBase.hpp:95 *)
Definition sh_AJ := sh_column 1.
(** section/32/151/ShortRangeBreitWignerBlock.hpp:31,41,51,61 *)
Definition sb_GT := sh_column 2.
(** section/32/151/ShortRangeBreitWignerBlock.hpp:41 *)
Definition sb_GN := sh_column 3.
(** section/32/151/ShortRangeBreitWignerBlock.hpp:51 *)
Definition sb_GG := sh_column 4.
(** section/32/151/ShortRangeBreitWignerBlock.hpp:61 *)
Definition sb_GF := sh_column 5.
(** section/32/151/ShortRangeReichMooreBlock.hpp:31,41,51,61 *)
Definition sr_GN := sh_column 2.
(** section/32/151/ShortRangeReichMooreBlock.hpp:41 *)
Definition sr_GG := sh_column 3.
(** section/32/151/ShortRangeReichMooreBlock.hpp:51 *)
Definition sr_GFA := sh_column 4.
(** section/32/151/ShortRangeReichMooreBlock.hpp:61 *)
Definition sr_GFB := sh_column 5.
(** section/32/151/ShortRangeBreitWignerReichMooreBlockBase.hpp:105,115-119: on int *)
Definition sh_NPARB (l : listr) : out Z := int_op (i32 (lL1 l) * i32 (lN2 l)).
(** section/32/151/ShortRangeBreitWignerReichMooreBlockBase.hpp:115-119 *)
Definition sh_NVS (l : listr) : out Z := let! n := sh_NPARB l in triangle n.
(** section/32/151/ReichMooreScatteringRadiusUncertainties/src/ctor.hpp:10-24, section/32/151/ReichMooreScatteringRadiusUncertainties/src/generateList.hpp:1-8 *)
Definition make_radii (dap : real) (l : list real) : listr := mklist rzero rzero 0 0 0 (dap :: l).
(** section/32/151/ReichMooreScatteringRadiusUncertainties.hpp:28-41 *)
Definition DAP (l : listr) : out real := element (lB l) 0.
(** section/32/151/ReichMooreScatteringRadiusUncertainties.hpp:34-35 *)
Definition DAPL (l : listr) : out (list real) := drop_exactly 1 (lB l).
(** section/32/151/GeneralRMatrixLimited/src/read.hpp:1-12, section/32/151/CompactRMatrixLimited/src/read.hpp:1-12 *)
Definition rd_no_dap (mat mf mt : Z) : M listr := throw EStd.
(** section/32/151/ShortRangeRMatrixLimitedBlock/ResonanceParameters/src/generateList.hpp:1-45, section/32/151/ShortRangeRMatrixLimitedBlock/ResonanceParameters/src/ctor.hpp:10-25: L1 is the number of channels *)
Definition make_short_parameters (es : list real) (ps : list (list real)) : out listr :=
  let nrs := u32 (Z.of_nat (length es)) in
  if negb (Z.of_nat (length ps) =? nrs) then Throw EStd
  else if nrs =? 0 then Throw EStd
  else let nch := u32 (Z.of_nat (length (nth 0 ps []))) in
       let pad := padding nch in
       if negb (all_sized nch ps) then Throw EStd
       else let nx := Z.quot (u32 (nrs * u32 (u32 (1 + nch) + pad))) 6 in
            let r := mklist rzero rzero nch nrs nx (parameter_rows (Z.to_nat pad) es ps) in
            if check_parameters r then Val r else Throw EStd.
(** section/32/151/ShortRangeRMatrixLimitedBlock/ResonanceParameters.hpp:55-88: ER() as in File 2, GAM() takes NCH numbers after the first *)
Definition sp_GAM (l : listr) : out (list (list real)) :=
  let! n := pa_stride l in
  all_val (map (fun c => let! t := drop_exactly 1 c in take_exactly (lL1 l) t) (chunks (length (lB l)) n (lB l))).
(** section/32/151/ShortRangeRMatrixLimitedBlock.hpp:20-26; section/32/151/ShortRangeRMatrixLimitedBlock/src/ctor.hpp:13-75, section/32/151/ShortRangeRMatrixLimitedBlock/src/print.hpp:9-20, section/32/151/ShortRangeRMatrixLimitedBlock/src/NC.hpp:1-10 *)
Record short_rml := mkshort_rml { sr_groups : list listr; sr_matrix : listr }.
(** section/32/151/ShortRangeRMatrixLimitedBlock/src/ctor.hpp:1-75 *)
Definition rd_list_if (chk : listr -> bool) (mat mf mt : Z) : M listr := l <- rd_list mat mf mt ;; require (chk l) ;;; ret l.
(** section/32/151/ShortRangeRMatrixLimitedBlock/src/ctor.hpp:1-75 *)
Definition rd_short_rml (mat mf mt : Z) : M short_rml :=
  c <- rd_cont mat mf mt ;;
  gs <- rd_all (rd_list_if check_parameters) (l1 c) mat mf mt ;;
  m <- rd_checked check_triangle mat mf mt ;;
  ret (mkshort_rml gs m).
(** section/32/151/ShortRangeRMatrixLimitedBlock/src/print.hpp:1-20 *)
Definition short_rml_head (x : short_rml) : cont := mkcont rzero rzero (isize (sr_groups x)) 0 0 0.
(** section/32/151/ShortRangeRMatrixLimitedBlock/src/print.hpp:1-20 *)
Definition pr_short_rml (x : short_rml) (mat mf mt : Z) : text :=
  pr_cont (short_rml_head x) mat mf mt ++ pr_all pr_list (sr_groups x) mat mf mt ++ pr_list (sr_matrix x) mat mf mt.
(** section/32/151/ShortRangeRMatrixLimitedBlock/src/NC.hpp:1-10 *)
Definition nc_short_rml (x : short_rml) : Z := 1 + nc_all nc_list (sr_groups x) + nc_list (sr_matrix x).
(** the body of the loop in section/32/151/GeneralCovarianceBase/src/readSequence.hpp:15-41: the long L2 decides *)
Definition mk_long (l : listr) : out explicit :=
  if (-1 <=? lL2 l) && (lL2 l <=? 2) then let! u := check_pairs l in Val (Pairs l)
  else if lL2 l =? 5 then let! u := check_square l in Val (Square l)
  else Throw EStd.
(** section/32/151/GeneralCovarianceBase/src/ctor.hpp:1-161 *)
Definition rd_long (mat mf mt : Z) : M explicit := l <- rd_list mat mf mt ;; lift (mk_long l).
(** section/32/151/GeneralCovarianceBase.hpp:21-28; section/32/151/GeneralCovarianceBase/src/ctor.hpp:15-31, section/32/151/GeneralCovarianceBase/src/verifySize.hpp:1-31: called with LRU in the place of LRF, which is
    1 for all classes; on int.  nls is an unsigned int *)
Record general (D S : Type) := mkgeneral { ge_awri : real; ge_spi : real; ge_ap : real; ge_dap : option D; ge_nls : Z; ge_short : list S; ge_long : list explicit }.
Arguments mkgeneral {D S}. Arguments ge_awri {D S}. Arguments ge_spi {D S}. Arguments ge_ap {D S}. Arguments ge_dap {D S}.
Arguments ge_nls {D S}. Arguments ge_short {D S}. Arguments ge_long {D S}.
(** section/32/151/GeneralCovarianceBase/src/ctor.hpp:1-161 *)
Definition make_general {D S} (awri spi ap : real) (dap : option D) (nls : Z) (ss : list S) (ls : list explicit) : out (general D S) :=
  let! u := ensure (negb (isize ss <? 0)) in
  let! v := ensure (negb (isize ls <? 0)) in
  Val (mkgeneral awri spi ap dap nls ss ls).
(** section/32/151/GeneralCovarianceBase/src/ctor.hpp:62-161 *)
Definition rd_general {D S} (rdD : Z -> Z -> Z -> M D) (rdS : Z -> Z -> Z -> M S) (mat mf mt : Z) : M (general D S) :=
  c <- rd_cont mat mf mt ;;
  d <- rd_when rdD (z2b (n2 c)) mat mf mt ;;
  h <- rd_cont mat mf mt ;;
  ss <- rd_all rdS (n1 h) mat mf mt ;;
  ls <- rd_all rd_long (n2 h) mat mf mt ;;
  lift (make_general (c1 h) (c1 c) (c2 c) d (u32 (n1 c)) ss ls).
(** section/32/151/GeneralCovarianceBase/src/print.hpp:9-33, section/32/151/GeneralCovarianceBase/src/NC.hpp:4-17 *)
Definition general_head {D S} (x : general D S) : cont := mkcont (ge_spi x) (ge_ap x) 0 1 (ge_nls x) (isr (ge_dap x)).
(** section/32/151/GeneralCovarianceBase/src/print.hpp:1-33 *)
Definition general_counts {D S} (x : general D S) : cont := mkcont (ge_awri x) rzero 0 0 (isize (ge_short x)) (isize (ge_long x)).
(** section/32/151/GeneralCovarianceBase/src/print.hpp:1-33 *)
Definition pr_general {D S} (prD : D -> Z -> Z -> Z -> text) (prS : S -> Z -> Z -> Z -> text) (x : general D S) (mat mf mt : Z) : text :=
  pr_cont (general_head x) mat mf mt ++ pr_opt prD (ge_dap x) mat mf mt ++ pr_cont (general_counts x) mat mf mt
  ++ pr_all prS (ge_short x) mat mf mt ++ pr_all pr_explicit (ge_long x) mat mf mt.
(** section/32/151/GeneralCovarianceBase/src/NC.hpp:1-17 *)
Definition nc_general {D S} (ncD : D -> Z) (ncS : S -> Z) (x : general D S) : Z :=
  2 + nc_opt ncD (ge_dap x) + nc_all ncS (ge_short x) + nc_all nc_explicit (ge_long x).

(** ** compact covariances, LCOMP = 2 *)
(** section/32/151/CompactBreitWignerUncertainties/src/verifySize.hpp:1-29 (also used for Reich-Moore), section/32/151/CompactBreitWignerUncertainties/src/ctor.hpp:12-15 *)
Definition check_uncertainties : listr -> out unit := check_rows 12.
(** section/32/151/CompactBreitWignerUncertainties/src/generateList.hpp:1-52, section/32/151/CompactBreitWignerUncertainties/src/ctor.hpp:36-58 *)
Definition make_bw_uncertainties (awri qx : real) (lrx : bool) (es spins gt gn gg gf der dgn dgg dgf : list real) : out listr :=
  if negb (all_sized (u32 (Z.of_nat (length es))) [spins; gt; gn; gg; gf; der; dgn; dgg; dgf]) then Throw EStd
  else let r := mklist awri qx 0 (b2z lrx) (Z.of_nat (length es))
                  (rows_of [es; spins; gt; gn; gg; gf; der; []; []; dgn; dgg; dgf] (length es)) in
       let! u := check_uncertainties r in Val r.
(** section/32/151/CompactReichMooreUncertainties/src/generateList.hpp:1-56, section/32/151/CompactReichMooreUncertainties/src/ctor.hpp:36-60 *)
Definition make_rm_uncertainties (awri apl : real) (es spins gn gg gfa gfb der dgn dgg dgfa dgfb : list real) : out listr :=
  if negb (all_sized (u32 (Z.of_nat (length es))) [spins; gn; gg; gfa; gfb; der; dgn; dgg; dgfa; dgfb]) then Throw EStd
  else let r := mklist awri apl 0 0 (Z.of_nat (length es))
                  (rows_of [es; spins; gn; gg; gfa; gfb; der; []; dgn; dgg; dgfa; dgfb] (length es)) in
       let! u := check_uncertainties r in Val r.
(** section/32/151/CompactBreitWignerUncertainties.hpp:15-19,75-165: column k of 12 *)
Definition cb_ER := col_of 12 0.
(** section/32/151/CompactBreitWignerUncertainties.hpp:85 *)
Definition cb_AJ := col_of 12 1.
(** section/32/151/CompactBreitWignerUncertainties.hpp:95 *)
Definition cb_GT := col_of 12 2.
(** section/32/151/CompactBreitWignerUncertainties.hpp:105 *)
Definition cb_GN := col_of 12 3.
(** section/32/151/CompactBreitWignerUncertainties.hpp:115 *)
Definition cb_GG := col_of 12 4.
(** section/32/151/CompactBreitWignerUncertainties.hpp:125 *)
Definition cb_GF := col_of 12 5.
(** section/32/151/CompactBreitWignerUncertainties.hpp:135 *)
Definition cb_DER := col_of 12 6.
(** section/32/151/CompactBreitWignerUncertainties.hpp:145 *)
Definition cb_DGN := col_of 12 9.
(** section/32/151/CompactBreitWignerUncertainties.hpp:155 *)
Definition cb_DGG := col_of 12 10.
(** section/32/151/CompactBreitWignerUncertainties.hpp:165 *)
Definition cb_DGF := col_of 12 11.
(** section/32/151/CompactReichMooreUncertainties.hpp:17-21,67-167: column k of 12 *)
Definition cr_ER := col_of 12 0.
(** section/32/151/CompactReichMooreUncertainties.hpp:77 *)
Definition cr_AJ := col_of 12 1.
(** section/32/151/CompactReichMooreUncertainties.hpp:87 *)
Definition cr_GN := col_of 12 2.
(** section/32/151/CompactReichMooreUncertainties.hpp:97 *)
Definition cr_GG := col_of 12 3.
(** section/32/151/CompactReichMooreUncertainties.hpp:107 *)
Definition cr_GFA := col_of 12 4.
(** section/32/151/CompactReichMooreUncertainties.hpp:117 *)
Definition cr_GFB := col_of 12 5.
(** section/32/151/CompactReichMooreUncertainties.hpp:127 *)
Definition cr_DER := col_of 12 6.
(** section/32/151/CompactReichMooreUncertainties.hpp:137 *)
Definition cr_DGN := col_of 12 8.
(** section/32/151/CompactReichMooreUncertainties.hpp:147 *)
Definition cr_DGG := col_of 12 9.
(** section/32/151/CompactReichMooreUncertainties.hpp:157 *)
Definition cr_DGFA := col_of 12 10.
(** section/32/151/CompactReichMooreUncertainties.hpp:167 *)
Definition cr_DGFB := col_of 12 11.
(** section/32/151/CompactBreitWignerUncertainties.hpp:175-182, section/32/151/CompactReichMooreUncertainties.hpp:177-184: the chunks of 12 *)
Definition cu_resonances (l : listr) : list (list real) := chunks (length (lB l)) 12 (lB l).
(** section/32/151/CompactRMatrixLimitedUncertainties/ParticlePairs/src/ctor.hpp:9-12, 33-62, section/32/151/CompactRMatrixLimitedUncertainties/ParticlePairs/src/verifySize.hpp:1-29, section/32/151/CompactRMatrixLimitedUncertainties/ParticlePairs/src/generateList.hpp:1-52: as in File 2, with L2 the number of
    spin groups *)
Definition make_pairs32 (njsx : Z) (ma mb za zb ia ib pa pb q : list real) (pnt shf mt : list Z) : out listr :=
  let npp := u32 (Z.of_nat (length ma)) in
  if negb (all_sized npp [mb; za; zb; ia; ib; q; pa; pb] && all_sized npp [pnt; shf; mt]) then Throw EStd
  else let r := mklist rzero rzero (Z.of_nat (length ma)) njsx (2 * Z.of_nat (length ma))
                  (rows_of [ma; mb; za; zb; ia; ib; q; map of_int pnt; map of_int shf; map of_int mt; pa; pb] (length ma)) in
       if check_pairs_rml r then Val r else Throw EStd.
(** section/32/151/CompactRMatrixLimitedUncertainties/ResonanceParameters/src/verifySize.hpp:1-21, section/32/151/CompactRMatrixLimitedUncertainties/ResonanceParameters/src/ctor.hpp:10-12 *)
Definition check_parameters12 (l : listr) : bool := negb (i32 (npl l) <? 1) && (Z.rem (i32 (npl l)) 12 =? 0).
(** section/32/151/CompactRMatrixLimitedUncertainties/ResonanceParameters/src/generateList.hpp:1-56, section/32/151/CompactRMatrixLimitedUncertainties/ResonanceParameters/src/ctor.hpp:22-40: the lengths of the dparameters are not checked *)
Definition parameter_rows12 (pad : nat) (es : list real) (ps : list (list real)) (ds : list real) (qs : list (list real)) : list real :=
  flat_map (fun i => (nth i es rzero :: nth i ps [] ++ repeat rzero pad) ++ (nth i ds rzero :: nth i qs [] ++ repeat rzero pad)) (seq 0 (length es)).
(** section/32/151/CompactRMatrixLimitedUncertainties/ResonanceParameters/src/ctor.hpp:1-62 *)
Definition make_parameters12 (es : list real) (ps : list (list real)) (ds : list real) (qs : list (list real)) : out listr :=
  let nrs := u32 (Z.of_nat (length es)) in
  if negb ((Z.of_nat (length ps) =? nrs) && (Z.of_nat (length ds) =? nrs) && (Z.of_nat (length qs) =? nrs)) then Throw EStd
  else if nrs =? 0 then Throw EStd
  else let nch := u32 (Z.of_nat (length (nth 0 ps []))) in
       let pad := padding nch in
       if negb (all_sized nch ps) then Throw EStd
       else let nx := Z.quot (u32 (nrs * u32 (u32 (1 + nch) + pad))) 6 in
            let r := mklist rzero rzero 0 nrs nx (parameter_rows12 (Z.to_nat pad) es ps ds qs) in
            if check_parameters12 r then Val r else Throw EStd.
(** section/32/151/CompactRMatrixLimitedUncertainties/ResonanceParameters.hpp:30-110: NX() / NRSA() on long, a stride must be positive *)
Definition lines12 (l : listr) : out Z :=
  if lL2 l =? 0 then Undef
  else let n := Z.quot (Z.quot (npl l) 12) (lL2 l) in if n <? 1 then Undef else Val n.
(** section/32/151/CompactRMatrixLimitedUncertainties/ResonanceParameters.hpp:45-106 *)
Fixpoint every_other {A} (l : list A) : list A := match l with [] => [] | [a] => [a] | a :: _ :: l' => a :: every_other l' end.
(** section/32/151/CompactRMatrixLimitedUncertainties/ResonanceParameters.hpp:50-53 *)
Definition p12_ER (l : listr) : out (list real) := let! n := lines12 l in Val (stride (Z.to_nat (n * 12)) (lB l)).
(** section/32/151/CompactRMatrixLimitedUncertainties/ResonanceParameters.hpp:66-70 *)
Definition p12_DER (l : listr) : out (list real) :=
  let! n := lines12 l in let! b := drop_exactly (n * 6) (lB l) in Val (stride (Z.to_nat (n * 12)) b).
(** section/32/151/CompactRMatrixLimitedUncertainties/ResonanceParameters.hpp:45-106 *)
Definition tails12 (n : Z) (b : list real) : list (list real) := map (@tl real) (every_other (chunks (length b) (Z.to_nat (n * 6)) b)).
(** section/32/151/CompactRMatrixLimitedUncertainties/ResonanceParameters.hpp:83-89 *)
Definition p12_GAM (l : listr) : out (list (list real)) := let! n := lines12 l in Val (tails12 n (lB l)).
(** section/32/151/CompactRMatrixLimitedUncertainties/ResonanceParameters.hpp:99-106 *)
Definition p12_DGAM (l : listr) : out (list (list real)) :=
  let! n := lines12 l in let! b := drop_exactly (n * 6) (lB l) in Val (tails12 n b).
(** section/32/151/CompactRMatrixLimitedUncertainties/SpinGroup.hpp:22-27,79; section/32/151/CompactRMatrixLimitedUncertainties/SpinGroup/src/ctor.hpp:14-53, section/32/151/CompactRMatrixLimitedUncertainties/SpinGroup/src/print.hpp:1-16 *)
Record spin32 := mkspin32 { sg_channels : listr; sg_parameters : listr }.
(** section/32/151/CompactRMatrixLimitedUncertainties/SpinGroup/src/ctor.hpp:1-53 *)
Definition rd_spin32 (mat mf mt : Z) : M spin32 :=
  ch <- rd_list_if check_channels mat mf mt ;; pa <- rd_list_if check_parameters12 mat mf mt ;; ret (mkspin32 ch pa).
(** section/32/151/CompactRMatrixLimitedUncertainties/SpinGroup/src/print.hpp:1-16 *)
Definition pr_spin32 (x : spin32) (mat mf mt : Z) : text := pr_list (sg_channels x) mat mf mt ++ pr_list (sg_parameters x) mat mf mt.
(** section/32/151/CompactRMatrixLimitedUncertainties/SpinGroup.hpp:79 *)
Definition nc_spin32 (x : spin32) : Z := nc_list (sg_channels x) + nc_list (sg_parameters x).
(** section/32/151/CompactRMatrixLimitedUncertainties.hpp:20-26; section/32/151/CompactRMatrixLimitedUncertainties/src/ctor.hpp:13-62, section/32/151/CompactRMatrixLimitedUncertainties/src/verifySize.hpp:1-11, on int; section/32/151/CompactRMatrixLimitedUncertainties/src/print.hpp:9-19, section/32/151/CompactRMatrixLimitedUncertainties/src/NC.hpp:1-9 *)
Record rml32 := mkrml32 { r32_pairs : listr; r32_groups : list spin32 }.
(** section/32/151/CompactRMatrixLimitedUncertainties/src/ctor.hpp:1-62 *)
Definition make_rml32 (pairs : listr) (gs : list spin32) : out rml32 := let! u := at_least_one gs in Val (mkrml32 pairs gs).
(** section/32/151/CompactRMatrixLimitedUncertainties/src/ctor.hpp:1-62 *)
Definition rd_rml32 (mat mf mt : Z) : M rml32 :=
  pp <- rd_list_if check_pairs_rml mat mf mt ;;
  gs <- rd_all rd_spin32 (lL2 pp) mat mf mt ;;
  lift (make_rml32 pp gs).
(** section/32/151/CompactRMatrixLimitedUncertainties/src/print.hpp:1-19 *)
Definition pr_rml32 (x : rml32) (mat mf mt : Z) : text := pr_list (r32_pairs x) mat mf mt ++ pr_all pr_spin32 (r32_groups x) mat mf mt.
(** section/32/151/CompactRMatrixLimitedUncertainties/src/NC.hpp:1-9 *)
Definition nc_rml32 (x : rml32) : Z := nc_list (r32_pairs x) + nc_all nc_spin32 (r32_groups x).

(** *** the correlation matrix: section/32/151/CompactCorrelationMatrix.hpp:17-21.  The three vectors have the same length, [make_corr] *)
Record corr := mkcorr { cm_ndigit : Z; cm_nnn : Z; cm_i : list Z; cm_j : list Z; cm_values : list real }.
(** section/32/151/CompactCorrelationMatrix/src/verifyDigits.hpp:1-11, section/32/151/CompactCorrelationMatrix/src/verifySize.hpp:1-12 (the lengths as unsigned int), section/32/151/CompactCorrelationMatrix/src/ctor.hpp:20-40 *)
Definition digits_ok (n : Z) : bool := (2 <=? n) && (n <=? 6).
(** section/32/151/CompactCorrelationMatrix/src/ctor.hpp:1-88 *)
Definition make_corr (order : Z) (i j : list Z) (c : list real) (ndigit : Z) : out corr :=
  let ni := u32 (Z.of_nat (length i)) in
  let! u := ensure ((ni =? u32 (Z.of_nat (length j))) && (ni =? u32 (Z.of_nat (length c)))) in
  let! v := ensure (digits_ok ndigit) in
  Val (mkcorr (i32 ndigit) (i32 order) i j c).
(** a double times an int and an int and a half divided by an int, correctly rounded; None: overflow *)
(** section/32/151/CompactCorrelationMatrix/src/compact.hpp:1-90, and, section/32/151/CompactCorrelationMatrix/src/readMatrixElements.hpp:1-107 *)
Definition times (x : real) (f : Z) : option real :=
  if ris0 x then Some x else to_double (rneg x) (scn 2 (rman x * f) (- rexp x)) (scd 2 1 (- rexp x)).
(** section/32/151/CompactCorrelationMatrix/src/compact.hpp:1-90, and, section/32/151/CompactCorrelationMatrix/src/readMatrixElements.hpp:1-107 *)
Definition half_away (k f : Z) : real :=
  match to_double (k <? 0) (2 * Z.abs k + 1) (2 * f) with Some x => x | None => rzero end.
(** section/32/151/CompactCorrelationMatrix/src/readMatrixElements.hpp:21-46: the elements of one INTG record that are not zero *)
Definition elements_of (f : Z) (g : intg) : list (Z * Z * real) :=
  flat_map (fun p => if snd p =? 0 then [] else [(gi g, u32 (gj g + Z.of_nat (fst p)), half_away (snd p) f)])
           (combine (seq 0 (length (gk g))) (gk g)).
(** section/32/151/CompactCorrelationMatrix/src/readMatrixElements.hpp:48-107, section/32/151/CompactCorrelationMatrix/src/ctor.hpp:42-88, section/32/151/CompactCorrelationMatrix/src/verifyUnsigned.hpp:1-12 (only a message) *)
Definition rd_corr (mat mf mt : Z) : M corr :=
  c <- rd_cont mat mf mt ;;
  require (digits_ok (u32 (l1 c))) ;;;
  let nd := Z.to_nat (u32 (l1 c)) in
  gs <- rd_n (rd_intg nd (intg_cap nd) mat mf mt) (Z.to_nat (u32 (n1 c))) ;;
  let es := flat_map (elements_of (10 ^ Z.of_nat nd)) gs in
  lift (make_corr (u32 (l2 c)) (map (fun e => fst (fst e)) es) (map (fun e => snd (fst e)) es) (map snd es) (u32 (l1 c))).
(** the lambda in section/32/151/CompactCorrelationMatrix/src/compact.hpp:38-54; a conversion to int that does not fit is undefined *)
Definition convert (f : Z) (x : real) : out Z :=
  match times x f with
  | None => Undef
  | Some v => if rle (mkreal false (rman v) (rexp v)) (of_int 1) then Val 0 else int_op (trunc v)
  end.
(** the loop in section/32/151/CompactCorrelationMatrix/src/compact.hpp:58-85: unsigned int, the number of zeros as int *)
Fixpoint fill (n : Z) (g : intg) (es : list (Z * Z * Z)) : list intg :=
  match es with
  | [] => [g]
  | (i, j, k) :: es' =>
      if (i =? gi g) && (Z.of_nat (length (gk g)) <? n) && (j <? u32 (gj g + n)) then
        let pad := i32 (u32 (j - gj g) - Z.of_nat (length (gk g))) in
        fill n (mkintg (gi g) (gj g) (gk g ++ repeat 0 (Z.to_nat pad) ++ [k])) es'
      else g :: fill n (mkintg i j [k]) es'
  end.
(** section/32/151/CompactCorrelationMatrix/src/compact.hpp:1-90 *)
Definition compact_lines (x : corr) : out (list intg) :=
  let nd := Z.to_nat (u32 (cm_ndigit x)) in
  let! ks := all_val (map (convert (10 ^ Z.of_nat nd)) (cm_values x)) in
  match combine (combine (cm_i x) (cm_j x)) ks with
  | [] => Val []
  | (i, j, k) :: es => Val (fill (Z.of_nat (intg_cap nd)) (mkintg i j [k]) es)
  end.
(** section/32/151/CompactCorrelationMatrix/src/print.hpp:1-45: for NDIGIT = 3 the integers are written in the three columns of NDIGIT = 2.  Where
    [compact_lines] is undefined, and where a line holds more integers than fit (an exception), nothing is said about the text *)
Definition print_digits (nd : nat) : nat := if (nd =? 3)%nat then 2%nat else nd.
(** section/32/151/CompactCorrelationMatrix/src/compact.hpp:1-90 *)
Definition the_lines (x : corr) : list intg := match compact_lines x with Val l => l | _ => [] end.
(** section/32/151/CompactCorrelationMatrix/src/print.hpp:1-45 *)
Definition corr_head (x : corr) : cont :=
  mkcont rzero rzero (u32 (cm_ndigit x)) (u32 (cm_nnn x)) (Z.of_nat (length (the_lines x))) 0.
(** section/32/151/CompactCorrelationMatrix/src/print.hpp:1-45 *)
Definition pr_corr (x : corr) (mat mf mt : Z) : text :=
  let nd := Z.to_nat (u32 (cm_ndigit x)) in
  pr_cont (corr_head x) mat mf mt
  ++ flat_map (fun g => pr_intg (print_digits nd) (intg_cap nd) g mat mf mt) (the_lines x).
(** section/32/151/CompactCorrelationMatrix/src/NC.hpp:1-7 *)
Definition nc_corr (x : corr) : Z := 1 + Z.of_nat (length (the_lines x)).

(** section/32/151/CompactCovarianceBase.hpp:18-26; section/32/151/CompactCovarianceBase/src/ctor.hpp:15-126, section/32/151/CompactCovarianceBase/src/print.hpp:9-23, section/32/151/CompactCovarianceBase/src/NC.hpp:4-11 *)
Record compact (D U : Type) := mkcompact { co_spi : real; co_ap : real; co_l1 : Z; co_n1 : Z; co_dap : option D; co_unc : U; co_corr : corr }.
Arguments mkcompact {D U}. Arguments co_spi {D U}. Arguments co_ap {D U}. Arguments co_l1 {D U}. Arguments co_n1 {D U}.
Arguments co_dap {D U}. Arguments co_unc {D U}. Arguments co_corr {D U}.
(** section/32/151/CompactCovarianceBase/src/ctor.hpp:1-126 *)
Definition rd_compact {D U} (rdD : Z -> Z -> Z -> M D) (rdU : Z -> Z -> Z -> M U) (mat mf mt : Z) : M (compact D U) :=
  c <- rd_cont mat mf mt ;;
  d <- rd_when rdD (z2b (n2 c)) mat mf mt ;;
  u <- rdU mat mf mt ;;
  m <- rd_corr mat mf mt ;;
  ret (mkcompact (c1 c) (c2 c) (l1 c) (n1 c) d u m).
(** section/32/151/CompactCovarianceBase/src/print.hpp:1-23 *)
Definition compact_head {D U} (x : compact D U) : cont := mkcont (co_spi x) (co_ap x) (co_l1 x) 2 (co_n1 x) (isr (co_dap x)).
(** section/32/151/CompactCovarianceBase/src/print.hpp:1-23 *)
Definition pr_compact {D U} (prD : D -> Z -> Z -> Z -> text) (prU : U -> Z -> Z -> Z -> text) (x : compact D U) (mat mf mt : Z) : text :=
  pr_cont (compact_head x) mat mf mt ++ pr_opt prD (co_dap x) mat mf mt ++ prU (co_unc x) mat mf mt ++ pr_corr (co_corr x) mat mf mt.
(** section/32/151/CompactCovarianceBase/src/NC.hpp:1-11 *)
Definition nc_compact {D U} (ncD : D -> Z) (ncU : U -> Z) (x : compact D U) : Z :=
  1 + nc_opt ncD (co_dap x) + ncU (co_unc x) + nc_corr (co_corr x).

(** ** unresolved resonances: section/32/151/UnresolvedRelativeCovariances.hpp:22-28; section/32/151/UnresolvedRelativeCovariances/src/ctor.hpp:15-71, section/32/151/UnresolvedRelativeCovariances/src/print.hpp:9-22, section/32/151/UnresolvedRelativeCovariances/src/NC.hpp:1-9 *)
Record unres32 := mkunres32 { u32_spi : real; u32_ap : real; u32_lvalues : list listr; u32_matrix : listr }.
(** section/32/151/UnresolvedRelativeCovariances/LValue/src/verifySize.hpp:1-12 is that of case A in File 2; section/32/151/UnresolvedRelativeCovariances/LValue/src/generateList.hpp:1-36, section/32/151/UnresolvedRelativeCovariances/LValue/src/ctor.hpp:28-54 *)
Definition make_unres_lvalue (awri : real) (l : Z) (spins d gno gg gf gx : list real) : out listr :=
  if negb (all_sized (u32 (Z.of_nat (length spins))) [d; gno; gg; gf; gx]) then Throw EStd
  else let r := mklist awri rzero l 0 (Z.of_nat (length spins)) (rows_of [d; spins; gno; gg; gf; gx] (length spins)) in
       let! u := check_independent r in Val r.
(** section/32/151/UnresolvedRelativeCovariances/LValue.hpp:54-145, section/32/151/UnresolvedRelativeCovariances/JValue.hpp:21-71: the numbers in places 0 to 5 of the chunks of six *)
Definition ul_D := chunk_col 6 0.
(** section/32/151/UnresolvedRelativeCovariances/LValue.hpp:81-86 *)
Definition ul_AJ := chunk_col 6 1.
(** section/32/151/UnresolvedRelativeCovariances/LValue.hpp:96-101 *)
Definition ul_GNO := chunk_col 6 2.
(** section/32/151/UnresolvedRelativeCovariances/LValue.hpp:111-116 *)
Definition ul_GG := chunk_col 6 3.
(** section/32/151/UnresolvedRelativeCovariances/LValue.hpp:126-131 *)
Definition ul_GF := chunk_col 6 4.
(** section/32/151/UnresolvedRelativeCovariances/LValue.hpp:141-146 *)
Definition ul_GX := chunk_col 6 5.
(** section/32/151/UnresolvedRelativeCovariances/src/ctor.hpp:1-71 *)
Definition rd_unres32 (mat mf mt : Z) : M unres32 :=
  c <- rd_cont mat mf mt ;;
  ls <- rd_all (rd_checked check_independent) (n1 c) mat mf mt ;;
  m <- rd_checked check_triangle mat mf mt ;;
  ret (mkunres32 (c1 c) (c2 c) ls m).
(** section/32/151/UnresolvedRelativeCovariances/src/print.hpp:1-22 *)
Definition unres32_head (x : unres32) : cont := mkcont (u32_spi x) (u32_ap x) 0 0 (isize (u32_lvalues x)) 0.
(** section/32/151/UnresolvedRelativeCovariances/src/print.hpp:1-22 *)
Definition pr_unres32 (x : unres32) (mat mf mt : Z) : text :=
  pr_cont (unres32_head x) mat mf mt ++ pr_all pr_list (u32_lvalues x) mat mf mt ++ pr_list (u32_matrix x) mat mf mt.
(** section/32/151/UnresolvedRelativeCovariances/src/NC.hpp:1-9 *)
Definition nc_unres32 (x : unres32) : Z := 1 + nc_all nc_list (u32_lvalues x) + nc_list (u32_matrix x).

(** ** ranges and isotopes *)
(** section/32/151/ResonanceRange.hpp:13-30: the variant *)
Inductive cparams :=
| LimitedSLBW (x : limited) | LimitedMLBW (x : limited)
| GeneralSLBW (x : general real listr) | GeneralMLBW (x : general real listr) | GeneralRM (x : general listr listr) | GeneralRML (x : general listr short_rml)
| CompactSLBW (x : compact real listr) | CompactMLBW (x : compact real listr) | CompactRM (x : compact listr listr) | CompactRML (x : compact listr rml32)
| Unresolved32 (x : unres32).
(** LRU() and LRF() of the classes: type() and representation(), section/32/151/UnresolvedRelativeCovariances.hpp:39,49 *)
Definition c_LRU (p : cparams) : Z := match p with Unresolved32 _ => 2 | _ => 1 end.
(** section/32/151/ResonanceRange.hpp:86-88 *)
Definition c_LRF (p : cparams) : Z :=
  match p with
  | LimitedSLBW _ | GeneralSLBW _ | CompactSLBW _ | Unresolved32 _ => 1
  | LimitedMLBW _ | GeneralMLBW _ | CompactMLBW _ => 2
  | GeneralRM _ | CompactRM _ => 3
  | GeneralRML _ | CompactRML _ => 7
  end.
(** the CONT record at the present position, which stays there *)
(** section/32/151/Isotope/src/readParameters.hpp:1-117 *)
Definition peek_cont (mat mf mt : Z) : M cont := fun s =>
  match rd_cont mat mf mt s with Ok c _ => Ok c s | r => r end.
(** section/32/151/Isotope/src/readParameters.hpp:17-117 *)
Definition rd_cparams_of (lru lrf lcomp mat mf mt : Z) : M cparams :=
  if lru =? 1 then
    if lcomp =? 0 then
      if lrf =? 1 then x <- rd_limited mat mf mt ;; ret (LimitedSLBW x)
      else if lrf =? 2 then x <- rd_limited mat mf mt ;; ret (LimitedMLBW x)
      else throw EStd
    else if lcomp =? 1 then
      if lrf =? 1 then x <- rd_general rd_dap (rd_checked check_short) mat mf mt ;; ret (GeneralSLBW x)
      else if lrf =? 2 then x <- rd_general rd_dap (rd_checked check_short) mat mf mt ;; ret (GeneralMLBW x)
      else if lrf =? 3 then x <- rd_general rd_list (rd_checked check_short) mat mf mt ;; ret (GeneralRM x)
      else if lrf =? 7 then x <- rd_general rd_no_dap rd_short_rml mat mf mt ;; ret (GeneralRML x)
      else throw EStd
    else if lcomp =? 2 then
      if lrf =? 1 then x <- rd_compact rd_dap (rd_checked check_uncertainties) mat mf mt ;; ret (CompactSLBW x)
      else if lrf =? 2 then x <- rd_compact rd_dap (rd_checked check_uncertainties) mat mf mt ;; ret (CompactMLBW x)
      else if lrf =? 3 then x <- rd_compact rd_list (rd_checked check_uncertainties) mat mf mt ;; ret (CompactRM x)
      else if lrf =? 7 then x <- rd_compact rd_no_dap rd_rml32 mat mf mt ;; ret (CompactRML x)
      else throw EStd
    else throw EStd
  else if lru =? 2 then x <- rd_unres32 mat mf mt ;; ret (Unresolved32 x)
  else throw EStd.
(** section/32/151/Isotope/src/readParameters.hpp:1-15 *)
Definition rd_cparams (lru lrf mat mf mt : Z) : M cparams :=
  c <- peek_cont mat mf mt ;; rd_cparams_of lru lrf (i32 (l2 c)) mat mf mt.
(** section/32/151/ResonanceRange/src/print.hpp:1-21 *)
Definition pr_cparams (p : cparams) : Z -> Z -> Z -> text :=
  match p with
  | LimitedSLBW x | LimitedMLBW x => pr_limited x
  | GeneralSLBW x | GeneralMLBW x => pr_general pr_dap pr_list x
  | GeneralRM x => pr_general pr_list pr_list x
  | GeneralRML x => pr_general pr_list pr_short_rml x
  | CompactSLBW x | CompactMLBW x => pr_compact pr_dap pr_list x
  | CompactRM x => pr_compact pr_list pr_list x
  | CompactRML x => pr_compact pr_list pr_rml32 x
  | Unresolved32 x => pr_unres32 x
  end.
(** section/32/151/ResonanceRange/src/NC.hpp:1-11 *)
Definition nc_cparams (p : cparams) : Z :=
  match p with
  | LimitedSLBW x | LimitedMLBW x => nc_limited x
  | GeneralSLBW x | GeneralMLBW x => nc_general nc_dap nc_list x
  | GeneralRM x => nc_general nc_list nc_list x
  | GeneralRML x => nc_general nc_list nc_short_rml x
  | CompactSLBW x | CompactMLBW x => nc_compact nc_dap nc_list x
  | CompactRM x => nc_compact nc_list nc_list x
  | CompactRML x => nc_compact nc_list nc_rml32 x
  | Unresolved32 x => nc_unres32 x
  end.
(** section/32/151/ScatteringRadiusCovariances.hpp:17; section/32/151/ScatteringRadiusCovariances/src/ctor.hpp:12-48, section/32/151/ScatteringRadiusCovariances/src/print.hpp:9-21, section/32/151/ScatteringRadiusCovariances/src/NC.hpp:1-14 *)
Definition rd_radcov (mat mf mt : Z) : M (list explicit) := c <- rd_cont mat mf mt ;; rd_all rd_explicit (n2 c) mat mf mt.
(** section/32/151/ScatteringRadiusCovariances/src/print.hpp:1-21 *)
Definition radcov_head (l : list explicit) : cont := mkcont rzero rzero 0 0 0 (isize l).
(** section/32/151/ScatteringRadiusCovariances/src/print.hpp:1-21 *)
Definition pr_radcov (l : list explicit) (mat mf mt : Z) : text := pr_cont (radcov_head l) mat mf mt ++ pr_all pr_explicit l mat mf mt.
(** section/32/151/ScatteringRadiusCovariances/src/NC.hpp:1-14 *)
Definition nc_radcov (l : list explicit) : Z := 1 + nc_all nc_explicit l.
(** section/32/151/Isotope/src/readScatteringRadiusCovariances.hpp:1-29 *)
Definition rd_cradius (nro mat mf mt : Z) : M (option (list explicit)) :=
  if nro =? 0 then ret None
  else if nro =? 1 then t <- rd_radcov mat mf mt ;; ret (Some t)
  else throw EStd.
(** section/32/151/ResonanceRange.hpp:34-42; section/32/151/ResonanceRange/src/ctor.hpp:14-28, section/32/151/ResonanceRange/src/verifyOptions.hpp:1-39 *)
Record crange := mkcrange { cr_el : real; cr_eh : real; cr_naps : Z; cr_params : cparams; cr_radius : option (list explicit) }.
(** section/32/151/ResonanceRange/src/verifyOptions.hpp:1-39 *)
Definition crange_ok (naps : Z) (p : cparams) (o : option (list explicit)) : bool :=
  match o with
  | None => (0 <=? naps) && (naps <=? 1)
  | Some _ => (0 <=? naps) && (naps <=? 2) && negb (c_LRU p =? 0) && negb ((c_LRU p =? 1) && (c_LRF p =? 7))
  end.
(** section/32/151/ResonanceRange/src/ctor.hpp:1-28 *)
Definition make_crange (el eh : real) (naps : Z) (p : cparams) (o : option (list explicit)) : out crange :=
  if crange_ok naps p o then Val (mkcrange el eh naps p o) else Throw EStd.
(** the body of the loop in section/32/151/Isotope/src/readRanges.hpp:19-36 *)
Definition rd_crange (mat mf mt : Z) : M crange :=
  c <- rd_cont mat mf mt ;;
  o <- rd_cradius (i32 (n1 c)) mat mf mt ;;
  p <- rd_cparams (i32 (l1 c)) (i32 (l2 c)) mat mf mt ;;
  lift (make_crange (c1 c) (c2 c) (i32 (n2 c)) p o).
(** section/32/151/ResonanceRange/src/print.hpp:11-21, section/32/151/ResonanceRange/src/NC.hpp:4-11 *)
Definition crange_head (x : crange) : cont :=
  mkcont (cr_el x) (cr_eh x) (c_LRU (cr_params x)) (c_LRF (cr_params x)) (isr (cr_radius x)) (cr_naps x).
(** section/32/151/ResonanceRange/src/print.hpp:1-21 *)
Definition pr_crange (x : crange) (mat mf mt : Z) : text :=
  pr_cont (crange_head x) mat mf mt ++ pr_opt pr_radcov (cr_radius x) mat mf mt ++ pr_cparams (cr_params x) mat mf mt.
(** section/32/151/ResonanceRange/src/NC.hpp:1-11 *)
Definition nc_crange (x : crange) : Z := 1 + nc_opt nc_radcov (cr_radius x) + nc_cparams (cr_params x).
(** section/32/151/Isotope.hpp:13-17; section/32/151/Isotope/src/ctor.hpp:12-55, section/32/151/Isotope/src/readRanges.hpp:1-17, section/32/151/Isotope/src/print.hpp:1-8, section/32/151/Isotope/src/NC.hpp:1-6: ZAI is a double *)
Record cisotope := mkcisotope { ci_zai : real; ci_abn : real; ci_lfw : bool; ci_ranges : list crange }.
(** section/32/151/Isotope/src/ctor.hpp:1-55 *)
Definition rd_cisotope (mat mf mt : Z) : M cisotope :=
  c <- rd_cont mat mf mt ;;
  rs <- rd_all rd_crange (n1 c) mat mf mt ;;
  ret (mkcisotope (c1 c) (c2 c) (z2b (l2 c)) rs).
(** section/32/151/Isotope/src/print.hpp:1-8 *)
Definition cisotope_head (x : cisotope) : cont := mkcont (ci_zai x) (ci_abn x) 0 (b2z (ci_lfw x)) (isize (ci_ranges x)) 0.
(** section/32/151/Isotope/src/print.hpp:1-8 *)
Definition pr_cisotope (x : cisotope) (mat mf mt : Z) : text :=
  pr_cont (cisotope_head x) mat mf mt ++ pr_all pr_crange (ci_ranges x) mat mf mt.
(** section/32/151/Isotope/src/NC.hpp:1-6 *)
Definition nc_cisotope (x : cisotope) : Z := 1 + nc_all nc_crange (ci_ranges x).
(** section/32/151.hpp:24-30; section/32/151/src/ctor.hpp:16-63, section/32/151/src/verifyNIS.hpp:1-10, on int *)
Definition make_cisotopes (l : list cisotope) : out (list cisotope) := let! u := at_least_one l in Val l.
(** section/32/151/src/ctor.hpp:1-63 *)
Definition make_32_ranges (za : Z) (lfw : bool) (rs : list crange) : out (list cisotope) :=
  make_cisotopes [mkcisotope (of_int za) (of_int 1) lfw rs].
(** section/32/151/src/ctor.hpp:1-63 *)
Definition rd_32_151 (n mat mf mt : Z) : M (list cisotope) :=
  l <- rd_all rd_cisotope n mat mf mt ;; lift (make_cisotopes l).
(** section/32/151/src/print.hpp:9-21, section/32/151/src/NC.hpp:1-9 *)
Definition sec_32_151 : skind (list cisotope) :=
  mkskind 32 (Some 151) true false false (fun h => rd_32_151 (n1 (sbase h)))
    (fun l => (0, 0, isize l, 0)) (pr_all pr_cisotope) (nc_all nc_cisotope).

(** ** the line counter, as it is: section/32/151/Isotope/src/readParameters.hpp:13-15 reads the CONT record with a copy of the iterator but with the
    counter itself *)
Definition bump : M unit := fun s => Ok tt (mkst (buf s) (line s + 1)).
(** section/32/151/Isotope/src/readParameters.hpp:1-117 *)
Definition rd_cparams_as_is (lru lrf mat mf mt : Z) : M cparams :=
  c <- peek_cont mat mf mt ;; bump ;;; rd_cparams_of lru lrf (i32 (l2 c)) mat mf mt.
(** section/32/151/Isotope/src/readRanges.hpp:1-39 *)
Definition rd_crange_as_is (mat mf mt : Z) : M crange :=
  c <- rd_cont mat mf mt ;;
  o <- rd_cradius (i32 (n1 c)) mat mf mt ;;
  p <- rd_cparams_as_is (i32 (l1 c)) (i32 (l2 c)) mat mf mt ;;
  lift (make_crange (c1 c) (c2 c) (i32 (n2 c)) p o).
(** section/32/151/Isotope/src/ctor.hpp:1-55 *)
Definition rd_cisotope_as_is (mat mf mt : Z) : M cisotope :=
  c <- rd_cont mat mf mt ;;
  rs <- rd_all rd_crange_as_is (n1 c) mat mf mt ;;
  ret (mkcisotope (c1 c) (c2 c) (z2b (l2 c)) rs).
(** section/32/151/src/ctor.hpp:1-63 *)
Definition rd_32_151_as_is (n mat mf mt : Z) : M (list cisotope) :=
  l <- rd_all rd_cisotope_as_is n mat mf mt ;; lift (make_cisotopes l).
