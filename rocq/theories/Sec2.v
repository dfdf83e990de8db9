(** Sec2.v -- File 2: resonance parameters (151) and unresolved self-shielding (152).
    Paths relative to /repo/src/ENDFtk/section/2.

    Simplifications.  A bool made from a long is true unless the long is 0.  In readRanges and
    readBackgroundMatrices all failures are std::exception, and only the first one is modelled where
    several are checked in one place.  A vector with a negative number of elements is a
    std::length_error; a vector too large for the memory is not modelled. *)
From Verif Require Import Base Disco Records Sections SecKit Sec9 Sec6 Sec33 Sec8 Sec7.
Open Scope Z_scope.

(** long to bool, bool to long *)
(** not code: int and bool *)
Definition z2b (z : Z) : bool := negb (z =? 0).
(** not code: int and bool *)
Definition b2z (b : bool) : Z := if b then 1 else 0.
(** a loop over i < n that pushes the i-th element of each column *)
(** not code: rows and columns of a list, see section/2/151/RMatrixLimited/ResonanceParameters/src/generateList.hpp:1-45 *)
Definition rows_of (cols : list (list real)) (n : nat) : list real :=
  flat_map (fun i => map (fun c => nth i c rzero) cols) (seq 0 n).
(** all columns have n elements; n is an unsigned int *)
(** not code: rows and columns of a list, see section/2/151/RMatrixLimited/ResonanceParameters/src/generateList.hpp:1-45 *)
Definition all_sized {A} (n : Z) (cols : list (list A)) : bool := forallb (fun c => Z.of_nat (length c) =? n) cols.
(** column k of a list with m columns: drop_exactly( k ) | stride( m ) *)
(** not code: rows and columns of a list, see section/2/151/RMatrixLimited/ResonanceParameters/src/generateList.hpp:1-45 *)
Definition col_of (m : nat) (k : Z) (l : listr) : out (list real) := let! b := drop_exactly k (lB l) in Val (stride m b).

(** ** 152 *)
(** section/2/152.hpp:33-36 *)
Record shielding := mkshielding { sh_lssf : bool; sh_interpolation : Z; sh_data : listr }.
(** section/2/152.hpp:70-129 *)
Definition NREAC (l : listr) : Z := i32 (lL1 l).
(** section/2/152.hpp:100 *)
Definition NSIGZ (l : listr) : Z := i32 (lL2 l).
(** section/2/152.hpp:124 *)
Definition NUNR (l : listr) : Z := i32 (lN2 l).
(** section/2/152.hpp:70 *)
Definition TEMZ (l : listr) : real := lC1 l.
(** section/2/152/src/verifySize.hpp:1-14, on int; section/2/152/src/ctor.hpp:6-12 *)
Definition check_152 (l : listr) : out unit :=
  let! a := int_op (NREAC l * NSIGZ l) in
  let! b := int_op (a + 1) in
  let! c := int_op (b * NUNR l) in
  let! d := int_op (c + NSIGZ l) in
  ensure (i32 (npl l) =? d).
(** section/2/152.hpp:110-147, section/2/152/src/reaction.hpp:1-16: the energies are taken five reactions apart *)
Definition SIGZ (l : listr) : out (list real) := take_exactly (NSIGZ l) (lB l).
(** section/2/152.hpp:134-139 *)
Definition EUNR (l : listr) : out (list real) :=
  let! b := drop_exactly (NSIGZ l) (lB l) in
  let! p := int_op (NSIGZ l * 5) in
  let! n := int_op (1 + p) in
  if n <? 1 then Undef else Val (stride (Z.to_nat n) b).
(** section/2/152/src/reaction.hpp:1-16 on unsigned int, section/2/152.hpp:149-172: total(), elastic(), fission(), capture() and
    currentWeightedTotal() are the reactions 0 to 4 *)
Definition reaction (i : nat) (l : listr) : out (list (list real)) :=
  let nreac := u32 (lL1 l) in
  let nsigz := u32 (lL2 l) in
  let n := u32 (1 + u32 (nsigz * nreac)) in
  let! b := drop_exactly nsigz (lB l) in
  if (n =? 0) || (nsigz =? 0) then Undef
  else all_val (map (fun c => match nth_error (chunks (length c) (Z.to_nat nsigz) (tl c)) i with Some r => Val r | None => Undef end)
                    (chunks (length b) (Z.to_nat n) b)).
(** section/2/152/src/generateList.hpp:1-54 *)
Fixpoint shield_rows (es : list real) (xs : list (list (list real))) : list real :=
  match es, xs with
  | e :: es', x :: xs' => e :: concat x ++ shield_rows es' xs'
  | _, _ => []
  end.
(** the five values of each energy, in the order in which they are written *)
(** section/2/152/src/ctor.hpp:112-123 *)
Fixpoint five (a b c d e : list (list real)) : list (list (list real)) :=
  match a, b, c, d, e with
  | x1 :: a', x2 :: b', x3 :: c', x4 :: d', x5 :: e' => [x1; x2; x3; x4; x5] :: five a' b' c' d' e'
  | _, _, _, _, _ => []
  end.
(** section/2/152/src/generateList.hpp:27 *)
Definition shield_list (dil es : list real) (tot el fi ca cw : list (list real)) : out (list real) :=
  let nsigz := u32 (Z.of_nat (length dil)) in
  let nunr := u32 (Z.of_nat (length es)) in
  if negb (all_sized nunr [tot; el; fi; ca; cw]) then Throw EStd
  else let xs := five tot el fi ca cw in
       if forallb (all_sized nsigz) xs then Val (dil ++ shield_rows es xs) else Throw EStd.
(** section/2/152/src/ctor.hpp:45-60 *)
Definition make_152 (lssf : bool) (inter : Z) (temp : real) (dil es : list real) (tot el fi ca cw : list (list real)) : out shielding :=
  let! b := shield_list dil es tot el fi ca cw in
  let l := mklist temp rzero 5 (Z.of_nat (length dil)) (Z.of_nat (length es)) b in
  let! u := check_152 l in Val (mkshielding lssf inter l).
(** section/2/152/src/ctor.hpp:83-94, section/2/152/src/generateList.hpp:56-91: one dilution, 1e+10 *)
Definition make_152_infinite (lssf : bool) (inter : Z) (temp : real) (es tot el fi ca cw : list real) : out shielding :=
  if negb (all_sized (u32 (Z.of_nat (length es))) [tot; el; fi; ca; cw]) then Throw EStd
  else let l := mklist temp rzero 5 1 (Z.of_nat (length es)) (of_int 10000000000 :: rows_of [es; tot; el; fi; ca; cw] (length es)) in
       let! u := check_152 l in Val (mkshielding lssf inter l).
(** section/2/152/src/ctor.hpp:112-123 *)
Definition rd_152 (lssf inter mat mf mt : Z) : M shielding :=
  l <- rd_checked check_152 mat mf mt ;; ret (mkshielding (z2b lssf) (i32 inter) l).
(** section/2/152/src/print.hpp:10-19, section/2/152/src/NC.hpp:4-7 *)
Definition sec_2_152 : skind shielding :=
  mkskind 2 (Some 152) true false true (fun h => rd_152 (l1 (sbase h)) (n2 (sbase h)))
    (fun x => (b2z (sh_lssf x), 0, 0, sh_interpolation x)) (fun x => pr_list (sh_data x)) (fun x => nc_list (sh_data x)).

(** ** 151: Breit-Wigner and Reich-Moore; paths relative to 2/151 *)
(** section/2/151/BreitWignerReichMooreLValueBase/src/verifySize.hpp:1-29, section/2/151/BreitWignerReichMooreLValueBase/src/ctor.hpp:9-12, on int *)
Definition check_lvalue (l : listr) : out unit :=
  let! u := ensure (negb (i32 (npl l) <? 1)) in
  let! v := ensure (negb (i32 (lN2 l) <? 1)) in
  let! p := int_op (6 * i32 (lN2 l)) in
  ensure (i32 (npl l) =? p).
(** section/2/151/BreitWignerReichMooreLValueBase/src/ctor.hpp:14-35, section/2/151/BreitWignerReichMooreLValueBase/src/generateList.hpp:1-37; section/2/151/BreitWignerLValue/src/ctor.hpp:25-40,
    section/2/151/ReichMooreLValue/src/ctor.hpp:24-39 *)
Definition make_lvalue (awri c2 : real) (l : Z) (l2 : bool) (es spins a b c d : list real) : out listr :=
  if negb (all_sized (u32 (Z.of_nat (length es))) [spins; a; b; c; d]) then Throw EStd
  else let r := mklist awri c2 l (b2z l2) (Z.of_nat (length es)) (rows_of [es; spins; a; b; c; d] (length es)) in
       let! u := check_lvalue r in Val r.
(** section/2/151/BreitWignerLValue/src/ctor.hpp:1-57 *)
Definition make_bw_lvalue (awri qx : real) (l : Z) (lrx : bool) (es spins gt gn gg gf : list real) : out listr :=
  make_lvalue awri qx l lrx es spins gt gn gg gf.
(** section/2/151/ReichMooreLValue/src/ctor.hpp:1-56 *)
Definition make_rm_lvalue (awri apl : real) (l : Z) (es spins gn gg gfa gfb : list real) : out listr :=
  make_lvalue awri apl l false es spins gn gg gfa gfb.
(** section/2/151/BreitWignerReichMooreLValueBase.hpp:14-44,61-111; section/2/151/BreitWignerLValue.hpp:24-90; section/2/151/ReichMooreLValue.hpp:24-80 *)
Definition lv_ER := col_of 6 0.
(** section/2/151/BreitWignerReichMooreLValueBase.hpp:106 *)
Definition lv_AJ := col_of 6 1.
(** section/2/151/BreitWignerLValue.hpp:55 *)
Definition bw_GT := col_of 6 2.
(** section/2/151/BreitWignerLValue.hpp:65 *)
Definition bw_GN := col_of 6 3.
(** section/2/151/BreitWignerLValue.hpp:75 *)
Definition bw_GG := col_of 6 4.
(** section/2/151/BreitWignerLValue.hpp:85 *)
Definition bw_GF := col_of 6 5.
(** section/2/151/ReichMooreLValue.hpp:45 *)
Definition rm_GN := col_of 6 2.
(** section/2/151/ReichMooreLValue.hpp:55 *)
Definition rm_GG := col_of 6 3.
(** section/2/151/ReichMooreLValue.hpp:65 *)
Definition rm_GFA := col_of 6 4.
(** section/2/151/ReichMooreLValue.hpp:75 *)
Definition rm_GFB := col_of 6 5.
(** section/2/151/BreitWignerReichMooreBase.hpp:1-126; section/2/151/BreitWignerReichMooreBase/src/ctor.hpp:9-46, section/2/151/BreitWignerReichMooreBase/src/verifySize.hpp:1-11, on int *)
Record resolved := mkresolved { rs_spi : real; rs_ap : real; rs_lad : bool; rs_nlsc : Z; rs_lvalues : list listr }.
(** section/2/151/BreitWignerReichMooreBase/src/verifySize.hpp:1-11 *)
Definition at_least_one {A} (l : list A) : out unit := ensure (negb (isize l <? 1)).
(** section/2/151/BreitWignerReichMooreBase/src/ctor.hpp:1-60 *)
Definition make_resolved (spi ap : real) (lad : bool) (nlsc : Z) (ls : list listr) : out resolved :=
  let! u := at_least_one ls in Val (mkresolved spi ap lad nlsc ls).
(** section/2/151/ReichMoore/src/ctor.hpp:20-30, section/2/151/ReichMoore/src/verifyNLSC.hpp:1-12, on int *)
Definition make_reich_moore (spi ap : real) (lad : bool) (nlsc : Z) (ls : list listr) : out resolved :=
  let! x := make_resolved spi ap lad nlsc ls in let! u := ensure (negb (nlsc <? isize ls)) in Val x.
(** section/2/151/SingleLevelBreitWigner/src/ctor.hpp:19-28, section/2/151/MultiLevelBreitWigner/src/ctor.hpp:19-28 *)
Definition make_breit_wigner (spi ap : real) (ls : list listr) : out resolved := make_resolved spi ap false 0 ls.
(** section/2/151/BreitWignerReichMooreBase/src/ctor.hpp:21-60 *)
Definition rd_resolved (mk : real -> real -> bool -> Z -> list listr -> out resolved) (mat mf mt : Z) : M resolved :=
  c <- rd_cont mat mf mt ;;
  ls <- rd_all (rd_checked check_lvalue) (n1 c) mat mf mt ;;
  lift (mk (c1 c) (c2 c) (z2b (l1 c)) (i32 (n2 c)) ls).
(** section/2/151/BreitWignerReichMooreBase/src/print.hpp:9-21, section/2/151/BreitWignerReichMooreBase/src/NC.hpp:1-9 *)
Definition resolved_head (x : resolved) : cont :=
  mkcont (rs_spi x) (rs_ap x) (b2z (rs_lad x)) 0 (isize (rs_lvalues x)) (rs_nlsc x).
(** section/2/151/BreitWignerReichMooreBase/src/print.hpp:1-21 *)
Definition pr_resolved (x : resolved) (mat mf mt : Z) : text :=
  pr_cont (resolved_head x) mat mf mt ++ pr_all pr_list (rs_lvalues x) mat mf mt.
(** section/2/151/BreitWignerReichMooreBase/src/NC.hpp:1-9 *)
Definition nc_resolved (x : resolved) : Z := 1 + nc_all nc_list (rs_lvalues x).

(** ** unresolved resonances *)
(** section/2/151/UnresolvedEnergyIndependent/LValue/src/verifySize.hpp:1-12, section/2/151/UnresolvedEnergyIndependent/LValue/src/ctor.hpp:9-13, on int *)
Definition check_independent (l : listr) : out unit :=
  let! p := int_op (6 * i32 (lN2 l)) in ensure (i32 (npl l) =? p).
(** section/2/151/UnresolvedEnergyIndependent/LValue/src/ctor.hpp:31-47, section/2/151/UnresolvedEnergyIndependent/LValue/src/generateList.hpp:1-34 *)
Definition make_independent (awri : real) (l : Z) (spins d : list real) (amun : list Z) (gn gg : list real) : out listr :=
  let njs := u32 (Z.of_nat (length spins)) in
  if negb (all_sized njs [d; gn; gg] && (Z.of_nat (length amun) =? njs)) then Throw EStd
  else let r := mklist awri rzero l 0 (Z.of_nat (length spins))
                  (rows_of [d; spins; map of_int amun; gn; gg; []] (length spins)) in
       let! u := check_independent r in Val r.
(** number k of each of the chunks of m numbers: chunk( m ) | transform( chunk[k] ) *)
(** not code: range-v3 chunk and its elements, as used by section/2/151/UnresolvedEnergyIndependent/LValue.hpp:54-180 *)
Definition chunk_rows (m : nat) (l : listr) : list (list real) := chunks (length (lB l)) m (lB l).
(** not code: range-v3 chunk and its elements, as used by section/2/151/UnresolvedEnergyIndependent/LValue.hpp:54-180 *)
Definition chunk_col (m k : nat) (l : listr) : out (list real) := all_val (map (fun c => element c k) (chunk_rows m l)).
(** section/2/151/UnresolvedEnergyIndependent/LValue.hpp:54-180: transforms of jValues(); AMUN() is truncated to an int (section/2/151/UnresolvedEnergyIndependent/JValue.hpp:45);
    AMUG(), AMUF(), AMUX(), GF() and GX() are NJS() zeroes (a count below 0 is not possible after the size check) *)
Definition ui_D := chunk_col 6 0.
(** section/2/151/UnresolvedEnergyIndependent/LValue.hpp:81-86 *)
Definition ui_AJ := chunk_col 6 1.
(** section/2/151/UnresolvedEnergyIndependent/LValue.hpp:141-146 *)
Definition ui_GN := chunk_col 6 3.
(** section/2/151/UnresolvedEnergyIndependent/LValue.hpp:156-161 *)
Definition ui_GG := chunk_col 6 4.
(** section/2/151/UnresolvedEnergyIndependent/LValue.hpp:96-101 *)
Definition ui_AMUN (l : listr) : out (list Z) :=
  all_val (map (fun c => let! x := element c 2 in int_op (trunc x)) (chunk_rows 6 l)).
(** section/2/151/UnresolvedEnergyIndependent/LValue.hpp:111 *)
Definition ui_zeroes (l : listr) : list real := repeat rzero (Z.to_nat (i32 (lN2 l))).
(** section/2/151/UnresolvedEnergyIndependent/LValue.hpp:111 *)
Definition ui_AMUG := ui_zeroes.
(** section/2/151/UnresolvedEnergyIndependent/LValue.hpp:121 *)
Definition ui_AMUF := ui_zeroes.
(** section/2/151/UnresolvedEnergyIndependent/LValue.hpp:131 *)
Definition ui_AMUX := ui_zeroes.
(** section/2/151/UnresolvedEnergyIndependent/LValue.hpp:171 *)
Definition ui_GF := ui_zeroes.
(** section/2/151/UnresolvedEnergyIndependent/LValue.hpp:181 *)
Definition ui_GX := ui_zeroes.
(** section/2/151/UnresolvedBase.hpp:1-52, section/2/151/UnresolvedBaseWithoutSpin.hpp:1-109; section/2/151/UnresolvedBase/src/ctor.hpp:12-52,
    section/2/151/UnresolvedBaseWithoutSpin/src/ctor.hpp:10-20, section/2/151/UnresolvedBaseWithoutSpin/src/verifySize.hpp:1-11 *)
Record unresolved (A : Type) := mkunresolved { un_spi : real; un_ap : real; un_lssf : bool; un_lvalues : list A }.
Arguments mkunresolved {A}. Arguments un_spi {A}. Arguments un_ap {A}. Arguments un_lssf {A}. Arguments un_lvalues {A}.
(** section/2/151/UnresolvedBase/src/ctor.hpp:1-52 *)
Definition make_unresolved {A} (spi ap : real) (lssf : bool) (ls : list A) : out (unresolved A) :=
  let! u := at_least_one ls in Val (mkunresolved spi ap lssf ls).
(** section/2/151/UnresolvedBase/src/ctor.hpp:1-52 *)
Definition rd_unresolved {A} (rd : Z -> Z -> Z -> M A) (mat mf mt : Z) : M (unresolved A) :=
  c <- rd_cont mat mf mt ;;
  ls <- rd_all rd (n1 c) mat mf mt ;;
  lift (make_unresolved (c1 c) (c2 c) (z2b (l1 c)) ls).
(** section/2/151/UnresolvedBase/src/print.hpp:9-21, section/2/151/UnresolvedBase/src/NC.hpp:1-9 *)
Definition unresolved_head {A} (x : unresolved A) : cont :=
  mkcont (un_spi x) (un_ap x) (b2z (un_lssf x)) 0 (isize (un_lvalues x)) 0.
(** section/2/151/UnresolvedBase/src/print.hpp:1-21 *)
Definition pr_unresolved {A} (pr : A -> Z -> Z -> Z -> text) (x : unresolved A) (mat mf mt : Z) : text :=
  pr_cont (unresolved_head x) mat mf mt ++ pr_all pr (un_lvalues x) mat mf mt.
(** section/2/151/UnresolvedBase/src/NC.hpp:1-9 *)
Definition nc_unresolved {A} (nc : A -> Z) (x : unresolved A) : Z := 1 + nc_all nc (un_lvalues x).
(** section/2/151/UnresolvedLValueBase.hpp:1-70; section/2/151/UnresolvedLValueBase/src/ctor.hpp:5-44, section/2/151/UnresolvedLValueBase/src/verifySize.hpp:1-11, section/2/151/UnresolvedLValueBase/src/print.hpp:1-21, section/2/151/UnresolvedLValueBase/src/NC.hpp:1-9 *)
Record jgroup := mkjgroup { jg_awri : real; jg_l : Z; jg_j : list listr }.
(** section/2/151/UnresolvedLValueBase/src/ctor.hpp:1-44 *)
Definition make_jgroup (awri : real) (l : Z) (js : list listr) : out jgroup :=
  let! u := at_least_one js in Val (mkjgroup awri l js).
(** section/2/151/UnresolvedLValueBase/src/ctor.hpp:1-44 *)
Definition rd_jgroup (chk : listr -> out unit) (mat mf mt : Z) : M jgroup :=
  c <- rd_cont mat mf mt ;;
  js <- rd_all (rd_checked chk) (n1 c) mat mf mt ;;
  lift (make_jgroup (c1 c) (i32 (l1 c)) js).
(** section/2/151/UnresolvedLValueBase/src/print.hpp:1-21 *)
Definition jgroup_head (x : jgroup) : cont := mkcont (jg_awri x) rzero (jg_l x) 0 (isize (jg_j x)) 0.
(** section/2/151/UnresolvedLValueBase/src/print.hpp:1-21 *)
Definition pr_jgroup (x : jgroup) (mat mf mt : Z) : text :=
  pr_cont (jgroup_head x) mat mf mt ++ pr_all pr_list (jg_j x) mat mf mt.
(** section/2/151/UnresolvedLValueBase/src/NC.hpp:1-9 *)
Definition nc_jgroup (x : jgroup) : Z := 1 + nc_all nc_list (jg_j x).
(** section/2/151/UnresolvedEnergyDependent/JValue.hpp:15-22,81-146: the columns after the first six numbers *)
Definition column7 (k : Z) (l : listr) : out (list real) := col_of 6 (k + 6) l.
(** section/2/151/UnresolvedEnergyDependent/JValue.hpp:81 *)
Definition jc_ES := column7 0.
(** section/2/151/UnresolvedEnergyDependent/JValue.hpp:91 *)
Definition jc_D := column7 1.
(** section/2/151/UnresolvedEnergyDependent/JValue.hpp:131 *)
Definition jc_GX := column7 2.
(** section/2/151/UnresolvedEnergyDependent/JValue.hpp:101 *)
Definition jc_GN := column7 3.
(** section/2/151/UnresolvedEnergyDependent/JValue.hpp:111 *)
Definition jc_GG := column7 4.
(** section/2/151/UnresolvedEnergyDependent/JValue.hpp:121 *)
Definition jc_GF := column7 5.
(** section/2/151/UnresolvedEnergyDependent/JValue.hpp:146 *)
Definition jc_NE (l : listr) : out Z := let! es := jc_ES l in Val (u32 (Z.of_nat (length es))).
(** section/2/151/UnresolvedEnergyDependent/JValue/src/verifySize.hpp:1-17, section/2/151/UnresolvedEnergyDependent/JValue/src/ctor.hpp:9-12, on unsigned int *)
Definition check_dependent (l : listr) : out unit :=
  let! ne := jc_NE l in
  let! u := ensure (negb (ne =? 0)) in
  ensure (u32 (npl l) =? u32 (6 + u32 (ne * 6))).
(** section/2/151/UnresolvedEnergyDependent/JValue/src/ctor.hpp:31-53, section/2/151/UnresolvedEnergyDependent/JValue/src/generateList.hpp:1-42 *)
Definition make_dependent (spin : real) (amun amug amuf amux inter : Z) (es d gn gg gf gx : list real) : out listr :=
  if negb (all_sized (u32 (Z.of_nat (length es))) [d; gx; gn; gg; gf]) then Throw EStd
  else let r := mklist spin rzero inter 0 (Z.of_nat (length es))
                  ([rzero; rzero; of_int amux; of_int amun; of_int amug; of_int amuf] ++ rows_of [es; d; gx; gn; gg; gf] (length es)) in
       let! u := check_dependent r in Val r.
(** section/2/151/UnresolvedEnergyDependent/JValue.hpp:41-76: truncated *)
Definition degrees (l : listr) (i : nat) : out Z := let! x := element (lB l) i in int_op (trunc x).
(** section/2/151/UnresolvedEnergyDependentFissionWidths/JValue.hpp:128-146, section/2/151/UnresolvedEnergyDependentFissionWidths/JValue/src/verifySize.hpp:1-9, section/2/151/UnresolvedEnergyDependentFissionWidths/JValue/src/ctor.hpp:9-12 *)
Definition jb_GF (l : listr) : out (list real) := drop_exactly 6 (lB l).
(** section/2/151/UnresolvedEnergyDependentFissionWidths/JValue.hpp:144 *)
Definition jb_NE (l : listr) : out Z := let! g := jb_GF l in Val (u32 (Z.of_nat (length g))).
(** section/2/151/UnresolvedEnergyDependentFissionWidths/JValue/src/verifySize.hpp:1-9 *)
Definition check_widths (l : listr) : out unit := let! ne := jb_NE l in ensure (negb (ne <? 1)).
(** section/2/151/UnresolvedEnergyDependentFissionWidths/JValue/src/ctor.hpp:28-38, section/2/151/UnresolvedEnergyDependentFissionWidths/JValue/src/generateList.hpp:1-13 *)
Definition make_widths (l : Z) (spin d : real) (amun amuf : Z) (gn gg : real) (gf : list real) : out listr :=
  let r := mklist rzero rzero l amuf 0 ([d; spin; of_int amun; gn; gg; rzero] ++ gf) in
  let! u := check_widths r in Val r.
(** section/2/151/UnresolvedEnergyDependentFissionWidths/LValue/src/verifySize.hpp:1-16, section/2/151/UnresolvedEnergyDependentFissionWidths/LValue/src/ctor.hpp:9-47 *)
Definition same_NE (js : list listr) : bool :=
  match js with
  | [] => true
  | j :: _ => forallb (fun i => match jb_NE j, jb_NE i with Val a, Val b => a =? b | _, _ => false end) js
  end.
(** section/2/151/UnresolvedEnergyDependentFissionWidths/LValue/src/ctor.hpp:1-47 *)
Definition make_width_group (awri : real) (l : Z) (js : list listr) : out jgroup :=
  let! x := make_jgroup awri l js in let! u := ensure (same_NE js) in Val x.
(** section/2/151/UnresolvedEnergyDependentFissionWidths/LValue/src/ctor.hpp:1-47 *)
Definition rd_width_group (mat mf mt : Z) : M jgroup :=
  x <- rd_jgroup check_widths mat mf mt ;; require (same_NE (jg_j x)) ;;; ret x.
(** section/2/151/UnresolvedEnergyDependentFissionWidths.hpp:1-105; section/2/151/UnresolvedEnergyDependentFissionWidths/LValue.hpp:1-31: NE() is that of the first J value; section/2/151/UnresolvedEnergyDependentFissionWidths/src/verifySize.hpp:1-14,
    section/2/151/UnresolvedEnergyDependentFissionWidths/src/ctor.hpp:6-85 *)
Record widths := mkwidths { wd_energies : listr; wd_lvalues : list jgroup }.
(** section/2/151/UnresolvedEnergyDependentFissionWidths.hpp:79 *)
Definition group_NE (x : jgroup) : out Z := match jg_j x with j :: _ => jb_NE j | [] => Undef end.
(** section/2/151/UnresolvedEnergyDependentFissionWidths/src/verifySize.hpp:1-14 *)
Definition widths_ok (l : listr) (ls : list jgroup) : bool :=
  forallb (fun g => match group_NE g with Val n => u32 (npl l) =? n | _ => false end) ls.
(** section/2/151/UnresolvedEnergyDependentFissionWidths/src/ctor.hpp:1-85 *)
Definition make_widths_range (l : listr) (ls : list jgroup) : out widths :=
  let! u := at_least_one ls in let! v := ensure (widths_ok l ls) in Val (mkwidths l ls).
(** section/2/151/UnresolvedEnergyDependentFissionWidths/src/ctor.hpp:1-85 *)
Definition make_widths_parts (spi ap : real) (lssf : bool) (es : list real) (ls : list jgroup) : out widths :=
  make_widths_range (mklist spi ap (b2z lssf) 0 (Z.of_nat (length ls)) es) ls.
(** section/2/151/UnresolvedEnergyDependentFissionWidths/src/ctor.hpp:1-85 *)
Definition rd_widths (mat mf mt : Z) : M widths :=
  l <- rd_list mat mf mt ;;
  ls <- rd_all rd_width_group (lN2 l) mat mf mt ;;
  lift (make_widths_range l ls).
(** section/2/151/UnresolvedEnergyDependentFissionWidths/src/print.hpp:11-19, section/2/151/UnresolvedEnergyDependentFissionWidths/src/NC.hpp:1-9 *)
Definition pr_widths (x : widths) (mat mf mt : Z) : text :=
  pr_list (wd_energies x) mat mf mt ++ pr_all pr_jgroup (wd_lvalues x) mat mf mt.
(** section/2/151/UnresolvedEnergyDependentFissionWidths/src/NC.hpp:1-9 *)
Definition nc_widths (x : widths) : Z := nc_list (wd_energies x) + nc_all nc_jgroup (wd_lvalues x).

(** ** R-matrix limited; paths relative to 2/151/RMatrixLimited *)
(** section/2/151/RMatrixLimited/ParticlePairs/src/verifySize.hpp:1-29, section/2/151/RMatrixLimited/ParticlePairs/src/ctor.hpp:7-10: int compared with NPL / 12. as double, exact *)
Definition check_pairs_rml (l : listr) : bool :=
  negb (i32 (npl l) <? 1) && negb (i32 (lL1 l) <? 1) && (i32 (npl l) =? 12 * i32 (lL1 l)).
(** section/2/151/RMatrixLimited/ParticlePairs/src/ctor.hpp:29-50, section/2/151/RMatrixLimited/ParticlePairs/src/generateList.hpp:1-52 *)
Definition make_pairs_rml (ma mb za zb ia ib pa pb q : list real) (pnt shf mt : list Z) : out listr :=
  let npp := u32 (Z.of_nat (length ma)) in
  if negb (all_sized npp [mb; za; zb; ia; ib; q; pa; pb] && all_sized npp [pnt; shf; mt]) then Throw EStd
  else let r := mklist rzero rzero (Z.of_nat (length ma)) 0 (2 * Z.of_nat (length ma))
                  (rows_of [ma; mb; za; zb; ia; ib; q; map of_int pnt; map of_int shf; map of_int mt; pa; pb] (length ma)) in
       if check_pairs_rml r then Val r else Throw EStd.
(** section/2/151/RMatrixLimited/ParticlePairs.hpp:17-158 *)
Definition pp_MA := col_of 12 0.
(** section/2/151/RMatrixLimited/ParticlePairs.hpp:54 *)
Definition pp_MB := col_of 12 1.
(** section/2/151/RMatrixLimited/ParticlePairs.hpp:64 *)
Definition pp_ZA := col_of 12 2.
(** section/2/151/RMatrixLimited/ParticlePairs.hpp:74 *)
Definition pp_ZB := col_of 12 3.
(** section/2/151/RMatrixLimited/ParticlePairs.hpp:84 *)
Definition pp_IA := col_of 12 4.
(** section/2/151/RMatrixLimited/ParticlePairs.hpp:94 *)
Definition pp_IB := col_of 12 5.
(** section/2/151/RMatrixLimited/ParticlePairs.hpp:124 *)
Definition pp_Q := col_of 12 6.
(** section/2/151/RMatrixLimited/ParticlePairs.hpp:104 *)
Definition pp_PA := col_of 12 10.
(** section/2/151/RMatrixLimited/ParticlePairs.hpp:114 *)
Definition pp_PB := col_of 12 11.
(** section/2/151/RMatrixLimited/ParticlePairs.hpp:129-132 *)
Definition pp_ints (k : Z) (l : listr) : out (list Z) :=
  let! c := col_of 12 k l in all_val (map (fun x => int_op (trunc x)) c).
(** section/2/151/RMatrixLimited/ParticlePairs.hpp:129-132 *)
Definition pp_PNT := pp_ints 7.
(** section/2/151/RMatrixLimited/ParticlePairs.hpp:142-145 *)
Definition pp_SHF := pp_ints 8.
(** section/2/151/RMatrixLimited/ParticlePairs.hpp:155-158 *)
Definition pp_MT := pp_ints 9.
(** section/2/151/RMatrixLimited/ResonanceChannels/src/verifySize.hpp:1-29, section/2/151/RMatrixLimited/ResonanceChannels/src/ctor.hpp:7-10 *)
Definition check_channels (l : listr) : bool :=
  negb (i32 (npl l) <? 1) && negb (i32 (lN2 l) <? 1) && (i32 (npl l) =? 6 * i32 (lN2 l)).
(** section/2/151/RMatrixLimited/ResonanceChannels/src/ctor.hpp:28-89, section/2/151/RMatrixLimited/ResonanceChannels/src/generateList.hpp:1-47: ppi and l are unsigned int *)
Definition make_channels (spin parity : real) (ppi l : list Z) (s b apt ape : list real) (kbk kps : Z) : out listr :=
  let nch := u32 (Z.of_nat (length l)) in
  if negb ((Z.of_nat (length ppi) =? nch) && all_sized nch [s; b; ape; apt]) then Throw EStd
  else let r := mklist spin parity kbk kps (Z.of_nat (length l))
                  (rows_of [map of_int ppi; map of_int l; s; b; ape; apt] (length l)) in
       if check_channels r then Val r else Throw EStd.
(** section/2/151/RMatrixLimited/ResonanceChannels.hpp:75: NPL() / 6 *)
Definition NCH (l : listr) : Z := u32 (Z.quot (npl l) 6).
(** section/2/151/RMatrixLimited/ResonanceChannels.hpp:14-151 *)
Definition ch_ints (k : Z) (l : listr) : out (list Z) := let! c := col_of 6 k l in all_val (map (fun x => int_op (trunc x)) c).
(** section/2/151/RMatrixLimited/ResonanceChannels.hpp:85-89 *)
Definition ch_PPI := ch_ints 0.
(** section/2/151/RMatrixLimited/ResonanceChannels.hpp:99-102 *)
Definition ch_L := ch_ints 1.
(** section/2/151/RMatrixLimited/ResonanceChannels.hpp:112 *)
Definition ch_S := col_of 6 2.
(** section/2/151/RMatrixLimited/ResonanceChannels.hpp:122 *)
Definition ch_BND := col_of 6 3.
(** section/2/151/RMatrixLimited/ResonanceChannels.hpp:145 *)
Definition ch_APE := col_of 6 4.
(** section/2/151/RMatrixLimited/ResonanceChannels.hpp:133 *)
Definition ch_APT := col_of 6 5.
(** section/2/151/RMatrixLimited/ResonanceParameters/src/verifySize.hpp:1-21, section/2/151/RMatrixLimited/ResonanceParameters/src/ctor.hpp:7-10 *)
Definition check_parameters (l : listr) : bool := negb (i32 (npl l) <? 1) && (Z.rem (i32 (npl l)) 6 =? 0).
(** section/2/151/RMatrixLimited/ResonanceParameters/src/generateList.hpp:1-45, section/2/151/RMatrixLimited/ResonanceParameters/src/ctor.hpp:19-28: unsigned int *)
Definition padding (nch : Z) : Z := Z.rem (6 - Z.rem (u32 (1 + nch)) 6) 6.
(** section/2/151/RMatrixLimited/ResonanceParameters/src/generateList.hpp:1-45 *)
Definition parameter_rows (pad : nat) (es : list real) (ps : list (list real)) : list real :=
  flat_map (fun i => nth i es rzero :: nth i ps [] ++ repeat rzero pad) (seq 0 (length es)).
(** section/2/151/RMatrixLimited/ResonanceParameters/src/ctor.hpp:1-48 *)
Definition make_parameters (es : list real) (ps : list (list real)) : out listr :=
  let nrs := u32 (Z.of_nat (length es)) in
  if negb (Z.of_nat (length ps) =? nrs) then Throw EStd
  else if nrs =? 0 then Throw EStd
  else let nch := u32 (Z.of_nat (length (nth 0 ps []))) in
       let pad := padding nch in
       if negb (all_sized nch ps) then Throw EStd
       else let nx := Z.quot (u32 (nrs * u32 (u32 (1 + nch) + pad))) 6 in
            let r := mklist rzero rzero 0 nrs nx (parameter_rows (Z.to_nat pad) es ps) in
            if check_parameters r then Val r else Throw EStd.
(** section/2/151/RMatrixLimited/ResonanceParameters.hpp:25-66: NX() / NRS() * 6 on long; a stride must be positive *)
Definition pa_stride (l : listr) : out nat :=
  if lL2 l =? 0 then Undef
  else let n := Z.quot (Z.quot (npl l) 6) (lL2 l) * 6 in if n <? 1 then Undef else Val (Z.to_nat n).
(** section/2/151/RMatrixLimited/ResonanceParameters.hpp:45-48 *)
Definition pa_ER (l : listr) : out (list real) := let! n := pa_stride l in Val (stride n (lB l)).
(** section/2/151/RMatrixLimited/ResonanceParameters.hpp:68-75: the chunks without their first number *)
Definition pa_GAM (l : listr) : out (list (list real)) := let! n := pa_stride l in Val (map (@tl real) (chunks (length (lB l)) n (lB l))).

(** *** background R-matrix elements *)
(** section/2/151/RMatrixLimited/NoBackgroundRMatrix.hpp:1-52, section/2/151/RMatrixLimited/TabulatedBackgroundRMatrix.hpp:1-147, section/2/151/RMatrixLimited/SammyBackgroundRMatrix.hpp:1-94, section/2/151/RMatrixLimited/FrohnerBackgroundRMatrix.hpp:1-84;
    section/2/151/RMatrixLimited/BaseBackgroundRMatrix.hpp:11,25,42: the index *)
Inductive background :=
| NoBackground
| TableBackground (re im : tab1)
| SammyBackground (ed eu r0 r1 r2 s0 s1 : real)
| FrohnerBackground (ed eu r0 s0 ga : real).
(** section/2/151/RMatrixLimited/BackgroundChannels.hpp:1-67 *)
Record entry := mkentry { en_lch : Z; en_kind : background }.
(** LBK() *)
(** section/2/151/RMatrixLimited/BaseBackgroundRMatrix.hpp:34-37 *)
Definition LBK (b : background) : Z :=
  match b with NoBackground => 0 | TableBackground _ _ => 1 | SammyBackground _ _ _ _ _ _ _ => 2 | FrohnerBackground _ _ _ _ _ => 3 end.
(** section/2/151/RMatrixLimited/TabulatedBackgroundRMatrix/src/verify.hpp:10-40: only the sizes are an error *)
Definition tables_ok (re im : tab1) : bool :=
  (length (tx re) =? length (tx im))%nat && (length (tbnd (tbase re)) =? length (tbnd (tbase im)))%nat.
(** section/2/151/RMatrixLimited/TabulatedBackgroundRMatrix/src/ctor.hpp:1-128 *)
Definition make_table (p : tab1 * tab1) : out background :=
  if tables_ok (fst p) (snd p) then Val (TableBackground (fst p) (snd p)) else Throw EStd.
(** section/2/151/RMatrixLimited/SammyBackgroundRMatrix/src/extract.hpp:1-19, section/2/151/RMatrixLimited/FrohnerBackgroundRMatrix/src/extract.hpp:1-19 *)
Definition make_sammy (l : listr) : out background :=
  match lB l with [r0; r1; r2; s0; s1] => Val (SammyBackground (lC1 l) (lC2 l) r0 r1 r2 s0 s1) | _ => Throw EStd end.
(** section/2/151/RMatrixLimited/FrohnerBackgroundRMatrix/src/ctor.hpp:1-80 *)
Definition make_frohner (l : listr) : out background :=
  match lB l with [r0; s0; ga] => Val (FrohnerBackground (lC1 l) (lC2 l) r0 s0 ga) | _ => Throw EStd end.
(** the body of the loop in section/2/151/RMatrixLimited/BackgroundChannels/src/readBackgroundMatrices.hpp:18-68 (the CONT record
    is read twice there, from the same place) and the constructors in section/2/151/RMatrixLimited/SammyBackgroundRMatrix/src/ctor.hpp:1-83 and its siblings *)
Definition rd_background (lbk mat mf mt : Z) : M background :=
  if lbk =? 0 then ret NoBackground
  else if lbk =? 1 then re <- rd_tab1 mat mf mt ;; im <- rd_tab1 mat mf mt ;; lift (make_table (re, im))
  else if lbk =? 2 then l <- rd_list mat mf mt ;; lift (make_sammy l)
  else if lbk =? 3 then l <- rd_list mat mf mt ;; lift (make_frohner l)
  else throw EStd.
(** section/2/151/RMatrixLimited/BackgroundChannels/src/readBackgroundMatrices.hpp:1-72 *)
Definition rd_entry (nch mat mf mt : Z) : M entry :=
  c <- rd_cont mat mf mt ;;
  require ((0 <? i32 (l1 c)) && (i32 (l1 c) <=? nch)) ;;;
  b <- rd_background (i32 (l2 c)) mat mf mt ;;
  ret (mkentry (i32 (l1 c)) b).
(** print( it, MAT, MF, MT ) and NC() of the four classes *)
(** section/2/151/RMatrixLimited/BackgroundChannels/src/print.hpp:1-23 *)
Definition pr_background (b : background) : Z -> Z -> Z -> text :=
  match b with
  | NoBackground => fun _ _ _ => []
  | TableBackground re im => fun mat mf mt => pr_tab1 re mat mf mt ++ pr_tab1 im mat mf mt
  | SammyBackground ed eu r0 r1 r2 s0 s1 => pr_list (mklist ed eu 0 0 0 [r0; r1; r2; s0; s1])
  | FrohnerBackground ed eu r0 s0 ga => pr_list (mklist ed eu 0 0 0 [r0; s0; ga])
  end.
(** section/2/151/RMatrixLimited/BackgroundChannels/src/NC.hpp:1-17 *)
Definition nc_background (b : background) : Z :=
  match b with NoBackground => 0 | TableBackground re im => nc_tab1 re + nc_tab1 im | _ => 2 end.
(** section/2/151/RMatrixLimited/BackgroundChannels/src/print.hpp:1-23 *)
Definition entry_head (e : entry) : cont := mkcont rzero rzero (en_lch e) (LBK (en_kind e)) 0 0.
(** section/2/151/RMatrixLimited/BackgroundChannels/src/print.hpp:1-23 *)
Definition pr_entry (e : entry) (mat mf mt : Z) : text :=
  pr_cont (entry_head e) mat mf mt ++ pr_background (en_kind e) mat mf mt.
(** section/2/151/RMatrixLimited/BackgroundChannels/src/NC.hpp:1-17 *)
Definition nc_entry (e : entry) : Z := 1 + nc_background (en_kind e).
(** background[ LCH - 1 ] = ... for all elements *)
(** section/2/151/RMatrixLimited/BackgroundChannels/src/makeBackgroundMatrices.hpp:1-31 *)
Fixpoint set_slot {A} (n : nat) (a : A) (l : list A) : list A :=
  match l, n with [], _ => [] | _ :: l', O => a :: l' | x :: l', S n' => x :: set_slot n' a l' end.
(** section/2/151/RMatrixLimited/BackgroundChannels/src/makeBackgroundMatrices.hpp:1-31 *)
Definition place_all (nch : nat) (es : list entry) : list (option entry) :=
  fold_left (fun bg e => set_slot (Z.to_nat (en_lch e - 1)) (Some e) bg) es (repeat None nch).
(** the elements that are there, in order of their channel *)
(** section/2/151/RMatrixLimited/BackgroundChannels/src/makeBackgroundMatrices.hpp:1-31 *)
Definition there (bg : list (option entry)) : list entry := flat_map (fun o => match o with Some e => [e] | None => [] end) bg.
(** section/2/151/RMatrixLimited/BackgroundChannels/src/readBackgroundMatrices.hpp:5-72, section/2/151/RMatrixLimited/BackgroundChannels/src/print.hpp:11-23, section/2/151/RMatrixLimited/BackgroundChannels/src/NC.hpp:1-17 *)
Definition rd_backgrounds (nch kbk mat mf mt : Z) : M (list entry) :=
  require (negb (nch <? 0) && negb (kbk <? 0) && (kbk <=? nch)) ;;;
  rd_n (rd_entry nch mat mf mt) (Z.to_nat kbk).
(** section/2/151/RMatrixLimited/BackgroundChannels/src/makeBackgroundMatrices.hpp:1-31 *)
Definition make_backgrounds (nch : Z) (es : list entry) : out (list (option entry)) :=
  fold_left (fun o e =>
    let! bg := o in
    let lch := u32 (en_lch e) in
    if (lch <=? 0) || (nch <? lch) then Throw EStd
    else match nth_error bg (Z.to_nat (lch - 1)) with
         | Some None => Val (set_slot (Z.to_nat (lch - 1)) (Some e) bg)
         | Some (Some _) => Throw EStd
         | None => Undef
         end) es (Val (repeat None (Z.to_nat nch))).
(** section/2/151/RMatrixLimited/SpinGroup.hpp:1-99; section/2/151/RMatrixLimited/SpinGroup/src/ctor.hpp:6-81, section/2/151/RMatrixLimited/SpinGroup/src/verify.hpp:1-20, on int; section/2/151/RMatrixLimited/SpinGroup/src/print.hpp:1-17, section/2/151/RMatrixLimited/SpinGroup.hpp:95 *)
Record group := mkgroup { gp_channels : listr; gp_parameters : listr; gp_background : list (option entry) }.
(** section/2/151/RMatrixLimited/SpinGroup/src/ctor.hpp:1-81 *)
Definition make_group (ch pa : listr) (bg : list (option entry)) : out group :=
  let! u := ensure (i32 (lL1 ch) =? i32 (Z.of_nat (length (there bg)))) in
  let! v := ensure (i32 (NCH ch) =? i32 (Z.of_nat (length bg))) in
  Val (mkgroup ch pa bg).
(** section/2/151/RMatrixLimited/SpinGroup/src/ctor.hpp:1-81 *)
Definition rd_group (mat mf mt : Z) : M group :=
  ch <- rd_list mat mf mt ;; require (check_channels ch) ;;;
  pa <- rd_list mat mf mt ;; require (check_parameters pa) ;;;
  es <- rd_backgrounds (i32 (NCH ch)) (i32 (lL1 ch)) mat mf mt ;;
  lift (make_group ch pa (place_all (Z.to_nat (i32 (NCH ch))) es)).
(** section/2/151/RMatrixLimited/SpinGroup/src/print.hpp:1-17 *)
Definition pr_group (x : group) (mat mf mt : Z) : text :=
  pr_list (gp_channels x) mat mf mt ++ pr_list (gp_parameters x) mat mf mt ++ pr_all pr_entry (there (gp_background x)) mat mf mt.
(** section/2/151/RMatrixLimited/SpinGroup.hpp:95-96 *)
Definition nc_group (x : group) : Z :=
  nc_list (gp_channels x) + nc_list (gp_parameters x) + nc_all nc_entry (there (gp_background x)).
(** section/2/151/RMatrixLimited/SpinGroup.hpp:60,65 *)
Definition gp_KBK (x : group) : Z := lL1 (gp_channels x).
(** section/2/151/RMatrixLimited/SpinGroup.hpp:65 *)
Definition gp_numberBackgroundChannels (x : group) : Z := NCH (gp_channels x).
(** section/2/151/RMatrixLimited.hpp:34-40; section/2/151/RMatrixLimited/src/ctor.hpp:5-88, section/2/151/RMatrixLimited/src/verifySize.hpp:1-11, section/2/151/RMatrixLimited/src/print.hpp:9-22, section/2/151/RMatrixLimited/src/NC.hpp:1-9 *)
Record rml := mkrml { rm_ifg : bool; rm_krl : bool; rm_krm : Z; rm_pairs : listr; rm_groups : list group }.
(** section/2/151/RMatrixLimited/src/ctor.hpp:1-88 *)
Definition make_rml (ifg krl : bool) (krm : Z) (pairs : listr) (gs : list group) : out rml :=
  let! u := at_least_one gs in Val (mkrml ifg krl krm pairs gs).
(** section/2/151/RMatrixLimited/src/ctor.hpp:1-88 *)
Definition rd_rml (mat mf mt : Z) : M rml :=
  c <- rd_cont mat mf mt ;;
  pp <- rd_list mat mf mt ;; require (check_pairs_rml pp) ;;;
  gs <- rd_all rd_group (n1 c) mat mf mt ;;
  lift (make_rml (z2b (l1 c)) (z2b (n2 c)) (i32 (l2 c)) pp gs).
(** section/2/151/RMatrixLimited/src/print.hpp:1-22 *)
Definition rml_head (x : rml) : cont :=
  mkcont rzero rzero (b2z (rm_ifg x)) (rm_krm x) (isize (rm_groups x)) (b2z (rm_krl x)).
(** section/2/151/RMatrixLimited/src/print.hpp:1-22 *)
Definition pr_rml (x : rml) (mat mf mt : Z) : text :=
  pr_cont (rml_head x) mat mf mt ++ pr_list (rm_pairs x) mat mf mt ++ pr_all pr_group (rm_groups x) mat mf mt.
(** section/2/151/RMatrixLimited/src/NC.hpp:1-9 *)
Definition nc_rml (x : rml) : Z := 1 + nc_list (rm_pairs x) + nc_all nc_group (rm_groups x).
(** section/2/151/RMatrixLimited/src/SPI.hpp:4-11: the numbers are truncated one after the other until 2 is found *)
Fixpoint find_int (z : Z) (l : list real) : out nat :=
  match l with
  | [] => Val O
  | x :: l' => let! n := int_op (trunc x) in if n =? z then Val O else let! i := find_int z l' in Val (S i)
  end.
(** section/2/151/RMatrixLimited/src/SPI.hpp:4-11 *)
Definition rml_SPI (x : rml) : out real :=
  let! mts := col_of 12 9 (rm_pairs x) in
  let! i := find_int 2 mts in
  let! ib := pp_IB (rm_pairs x) in element ib i.
(** section/2/151/RMatrixLimited/src/AP.hpp:9-22: the true radius of the first channel of the first spin group that belongs to that pair *)
Definition rml_AP (x : rml) : out real :=
  let! mts := col_of 12 9 (rm_pairs x) in
  let! i := find_int 2 mts in
  match rm_groups x with
  | [] => Undef
  | g :: _ =>
      let! ppi := col_of 6 0 (gp_channels g) in
      let! k := find_int (i32 (u32 (Z.of_nat i + 1))) ppi in
      let! apt := ch_APT (gp_channels g) in element apt k
  end.

(** ** ranges and isotopes; paths relative to 2/151 *)
(** section/2/151/SpecialCase.hpp:1-79; section/2/151/ResonanceRange.hpp:19-28: the variant *)
Inductive params :=
| Special (spi ap : real)
| SLBW (x : resolved) | MLBW (x : resolved) | ReichMoore (x : resolved)
| RMatrix (x : rml)
| CaseA (x : unresolved listr) | CaseB (x : widths) | CaseC (x : unresolved jgroup).
(** LRU() and LRF() of each class *)
(** section/2/151/SpecialCase.hpp:26 *)
Definition LRU (p : params) : Z :=
  match p with Special _ _ => 0 | SLBW _ | MLBW _ | ReichMoore _ | RMatrix _ => 1 | CaseA _ | CaseB _ | CaseC _ => 2 end.
(** section/2/151/SpecialCase.hpp:36 *)
Definition LRF (p : params) : Z :=
  match p with Special _ _ => 0 | SLBW _ => 1 | MLBW _ => 2 | ReichMoore _ => 3 | RMatrix _ => 7 | CaseA _ => 1 | CaseB _ => 1 | CaseC _ => 2 end.
(** section/2/151/SpecialCase/src/ctor.hpp:18-48 *)
Definition rd_special (mat mf mt : Z) : M params := c <- rd_cont mat mf mt ;; ret (Special (c1 c) (c2 c)).
(** section/2/151/Isotope/src/readParameters.hpp:1-83 *)
Definition rd_params (lru lrf lfw mat mf mt : Z) : M params :=
  if lru =? 0 then rd_special mat mf mt
  else if lru =? 1 then
    if lrf =? 1 then x <- rd_resolved make_resolved mat mf mt ;; ret (SLBW x)
    else if lrf =? 2 then x <- rd_resolved make_resolved mat mf mt ;; ret (MLBW x)
    else if lrf =? 3 then x <- rd_resolved make_reich_moore mat mf mt ;; ret (ReichMoore x)
    else if lrf =? 7 then x <- rd_rml mat mf mt ;; ret (RMatrix x)
    else throw EStd
  else if lru =? 2 then
    if lrf =? 1 then
      if lfw =? 0 then x <- rd_unresolved (rd_checked check_independent) mat mf mt ;; ret (CaseA x)
      else if lfw =? 1 then x <- rd_widths mat mf mt ;; ret (CaseB x)
      else throw EStd
    else if lrf =? 2 then x <- rd_unresolved (rd_jgroup check_dependent) mat mf mt ;; ret (CaseC x)
    else throw EStd
  else throw EStd.
(** section/2/151/ResonanceRange/src/print.hpp:1-21 *)
Definition pr_params (p : params) : Z -> Z -> Z -> text :=
  match p with
  | Special spi ap => pr_cont (mkcont spi ap 0 0 0 0)
  | SLBW x | MLBW x | ReichMoore x => pr_resolved x
  | RMatrix x => pr_rml x
  | CaseA x => pr_unresolved pr_list x
  | CaseB x => pr_widths x
  | CaseC x => pr_unresolved pr_jgroup x
  end.
(** section/2/151/ResonanceRange/src/NC.hpp:1-11 *)
Definition nc_params (p : params) : Z :=
  match p with
  | Special _ _ => 1
  | SLBW x | MLBW x | ReichMoore x => nc_resolved x
  | RMatrix x => nc_rml x
  | CaseA x => nc_unresolved nc_list x
  | CaseB x => nc_widths x
  | CaseC x => nc_unresolved nc_jgroup x
  end.
(** section/2/151/ResonanceRange.hpp:32-38; section/2/151/ScatteringRadius.hpp:1-49: a TAB1 record *)
Record range := mkrange { rg_el : real; rg_eh : real; rg_naps : Z; rg_params : params; rg_radius : option tab1 }.
(** section/2/151/ResonanceRange.hpp:110 *)
Definition NRO (o : option tab1) : Z := match o with Some _ => 1 | None => 0 end.
(** section/2/151/ResonanceRange/src/verifyOptions.hpp:1-39, section/2/151/ResonanceRange/src/ctor.hpp:14-22 *)
Definition range_ok (naps : Z) (p : params) (o : option tab1) : bool :=
  match o with
  | None => (0 <=? naps) && (naps <=? 1)
  | Some _ => (0 <=? naps) && (naps <=? 2) && negb (LRU p =? 0) && negb ((LRU p =? 1) && (LRF p =? 7))
  end.
(** section/2/151/ResonanceRange/src/ctor.hpp:1-27 *)
Definition make_range (el eh : real) (naps : Z) (p : params) (o : option tab1) : out range :=
  if range_ok naps p o then Val (mkrange el eh naps p o) else Throw EStd.
(** section/2/151/Isotope/src/readScatteringRadius.hpp:1-28 *)
Definition rd_radius (nro mat mf mt : Z) : M (option tab1) :=
  if nro =? 0 then ret None
  else if nro =? 1 then t <- rd_tab1 mat mf mt ;; ret (Some t)
  else throw EStd.
(** the body of the loop in section/2/151/Isotope/src/readRanges.hpp:15-36 *)
Definition rd_range (lfw mat mf mt : Z) : M range :=
  c <- rd_cont mat mf mt ;;
  o <- rd_radius (i32 (n1 c)) mat mf mt ;;
  p <- rd_params (i32 (l1 c)) (i32 (l2 c)) lfw mat mf mt ;;
  lift (make_range (c1 c) (c2 c) (i32 (n2 c)) p o).
(** section/2/151/ResonanceRange/src/print.hpp:11-21, section/2/151/ResonanceRange/src/NC.hpp:4-11 *)
Definition range_head (x : range) : cont :=
  mkcont (rg_el x) (rg_eh x) (LRU (rg_params x)) (LRF (rg_params x)) (NRO (rg_radius x)) (rg_naps x).
(** section/2/151/ResonanceRange/src/print.hpp:1-21 *)
Definition pr_range (x : range) (mat mf mt : Z) : text :=
  pr_cont (range_head x) mat mf mt ++ pr_opt pr_tab1 (rg_radius x) mat mf mt ++ pr_params (rg_params x) mat mf mt.
(** section/2/151/ResonanceRange/src/NC.hpp:1-11 *)
Definition nc_range (x : range) : Z := 1 + nc_opt nc_tab1 (rg_radius x) + nc_params (rg_params x).
(** section/2/151/Isotope.hpp:20-24; section/2/151/Isotope/src/ctor.hpp:9-27, section/2/151/Isotope/src/readRanges.hpp:1-39: LFW and NER become int.  The conversion of
    ZAI is done first here (the order is unspecified) *)
Record resisotope := mkresisotope { ri_zai : Z; ri_abn : real; ri_lfw : bool; ri_ranges : list range }.
(** section/2/151/Isotope/src/ctor.hpp:1-55 *)
Definition rd_resisotope (mat mf mt : Z) : M resisotope :=
  c <- rd_cont mat mf mt ;;
  z <- lift (cast_int (c1 c)) ;;
  rs <- rd_all (rd_range (i32 (l2 c))) (n1 c) mat mf mt ;;
  ret (mkresisotope z (c2 c) (z2b (l2 c)) rs).
(** section/2/151/Isotope/src/print.hpp:1-8, section/2/151/Isotope/src/NC.hpp:1-6 *)
Definition resisotope_head (x : resisotope) : cont :=
  mkcont (of_int (ri_zai x)) (ri_abn x) 0 (b2z (ri_lfw x)) (isize (ri_ranges x)) 0.
(** section/2/151/Isotope/src/print.hpp:1-8 *)
Definition pr_resisotope (x : resisotope) (mat mf mt : Z) : text :=
  pr_cont (resisotope_head x) mat mf mt ++ pr_all pr_range (ri_ranges x) mat mf mt.
(** section/2/151/Isotope/src/NC.hpp:1-6 *)
Definition nc_resisotope (x : resisotope) : Z := 1 + nc_all nc_range (ri_ranges x).
(** section/2/151.hpp:1-127; section/2/151/src/ctor.hpp:16-78, section/2/151/src/verifyNIS.hpp:1-10, on int *)
Definition make_isotopes (l : list resisotope) : out (list resisotope) := let! u := at_least_one l in Val l.
(** section/2/151/src/ctor.hpp:1-78 *)
Definition make_151_ranges (za : Z) (lfw : bool) (rs : list range) : out (list resisotope) :=
  make_isotopes [mkresisotope za (of_int 1) lfw rs].
(** section/2/151/src/ctor.hpp:1-78 *)
Definition make_151_special (za : Z) (el eh spin ap : real) : out (list resisotope) :=
  let! r := make_range el eh 0 (Special spin ap) None in make_151_ranges za false [r].
(** section/2/151/src/ctor.hpp:1-78 *)
Definition rd_151 (n mat mf mt : Z) : M (list resisotope) :=
  l <- rd_all rd_resisotope n mat mf mt ;; lift (make_isotopes l).
(** section/2/151/src/print.hpp:10-21, section/2/151/src/NC.hpp:1-9 *)
Definition sec_2_151 : skind (list resisotope) :=
  mkskind 2 (Some 151) true false false (fun h => rd_151 (n1 (sbase h)))
    (fun l => (0, 0, isize l, 0)) (pr_all pr_resisotope) (nc_all nc_resisotope).
