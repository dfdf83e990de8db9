(** Sec33.v -- the covariance files 31, 33, 34, 35 and 40.  Paths relative to
    /repo/src/ENDFtk/section. *)
From Verif Require Import Base Disco Records Sections SecKit Sec9 Sec6.
Open Scope Z_scope.

(** arithmetic on long: undefined when the result does not fit *)
(** not code: arithmetic on long and static_cast< int >( std::round( x ) ), as in section/ReactionBlock.hpp:1-137 *)
Definition in64 (z : Z) : bool := (-9223372036854775808 <=? z) && (z <? 9223372036854775808).
(** not code: arithmetic on long and static_cast< int >( std::round( x ) ), as in section/ReactionBlock.hpp:1-137 *)
Definition long_op (z : Z) : out Z := if in64 z then Val z else Undef.
(** static_cast< int >( std::round( x ) ): undefined when the result does not fit *)
(** not code: arithmetic on long and static_cast< int >( std::round( x ) ), as in section/ReactionBlock.hpp:1-137 *)
Definition cast_int (x : real) : out Z := int_op (round_int x).

(** ** explicit covariances *)
(** section/CovariancePairs/src/verifyLB.hpp:1-37, section/CovariancePairs/src/verifySize.hpp:1-11, section/CovariancePairs/src/ctor.hpp:14-19 *)
Definition lb_lt (lb lt : Z) : bool :=
  if (lb =? 0) || (lb =? 1) || (lb =? 2) || (lb =? 8) || (lb =? 9) then lt =? 0
  else if (lb =? 3) || (lb =? 4) then 0 <? lt
  else false.
(** section/CovariancePairs/src/verifyLB.hpp:1-37, section/CovariancePairs/src/verifySize.hpp:1-11 *)
Definition check_pairs (l : listr) : out unit :=
  if lb_lt (i32 (lL2 l)) (i32 (lL1 l)) then size_tab l else Throw EStd.
(** section/SquareMatrix/src/verifySize.hpp:1-30 *)
Definition size_square (ls ne nt : Z) : out unit :=
  let! num := int_op (nt - ne) in
  let! m := int_op (ne - 1) in
  if negb (ls =? 0) then let! p := int_op (ne * m) in ensure (num =? Z.quot p 2)
  else let! p := int_op (m * m) in ensure (num =? p).
(** section/SquareMatrix/src/verifyLB.hpp:1-11, section/SquareMatrix/src/ctor.hpp:14-19 *)
Definition check_square (l : listr) : out unit :=
  if i32 (lL2 l) =? 5 then size_square (i32 (lL1 l)) (i32 (lN2 l)) (i32 (npl l)) else Throw EStd.
(** section/RectangularMatrix/src/verifySize.hpp:1-20, section/RectangularMatrix/src/verifyLB.hpp:1-11, section/RectangularMatrix/src/ctor.hpp:14-19; a % b on int is
    undefined for b = 0 and for the smallest int and -1 *)
Definition check_rect (l : listr) : out unit :=
  if i32 (lL2 l) =? 6 then
    let! a := int_op (i32 (npl l) - 1) in
    if i32 (lN2 l) =? 0 then Undef
    else if (a =? -2147483648) && (i32 (lN2 l) =? -1) then Undef
    else ensure (Z.rem a (i32 (lN2 l)) =? 0)
  else Throw EStd.
(** section/ExplicitCovariance.hpp:19-21,33-85: the variant, chosen by the long L2 of the LIST record *)
Inductive explicit := Pairs (l : listr) | Square (l : listr) | Rect (l : listr).
(** section/ExplicitCovariance.hpp:19-85 *)
Definition list_of (e : explicit) : listr := match e with Pairs l | Square l | Rect l => l end.
(** section/ExplicitCovariance.hpp:19-85 *)
Definition is_pairs (lb : Z) : bool := ((0 <=? lb) && (lb <=? 4)) || (lb =? 8) || (lb =? 9).
(** section/ExplicitCovariance.hpp:19-85 *)
Definition mk_explicit (l : listr) : out explicit :=
  if is_pairs (lL2 l) then let! u := check_pairs l in Val (Pairs l)
  else if lL2 l =? 5 then let! u := check_square l in Val (Square l)
  else if lL2 l =? 6 then let! u := check_rect l in Val (Rect l)
  else Throw EStd.
(** section/ExplicitCovariance.hpp:19-85 *)
Definition rd_explicit (mat mf mt : Z) : M explicit := l <- rd_list mat mf mt ;; lift (mk_explicit l).
(** section/ExplicitCovariance.hpp:19-85 *)
Definition pr_explicit (e : explicit) : Z -> Z -> Z -> text := pr_list (list_of e).
(** section/ExplicitCovariance.hpp:19-85 *)
Definition nc_explicit (e : explicit) : Z := nc_list (list_of e).

(** the constructors from parts: section/CovariancePairs/src/ctor.hpp:28-68 (the constructor
    without second array is the one with an empty second array), section/CovariancePairs/src/generateList.hpp:1-62 *)
Definition make_pairs (lb : Z) (ek fk el fl : list real) : out listr :=
  if negb (length ek =? length fk)%nat then Throw EStd
  else if negb (length el =? length fl)%nat then Throw EStd
  else let l := mklist rzero rzero (Z.of_nat (length el)) lb (Z.of_nat (length ek + length el)) (interleave2 ek fk ++ interleave2 el fl) in
       let! u := check_pairs l in Val l.
(** section/SquareMatrix/src/ctor.hpp:28-42, section/SquareMatrix/src/generateList.hpp:1-8 *)
Definition make_square (ls : Z) (energies values : list real) : out listr :=
  let l := mklist rzero rzero ls 5 (Z.of_nat (length energies)) (energies ++ values) in
  let! u := check_square l in Val l.
(** section/RectangularMatrix/src/ctor.hpp:29-44, section/RectangularMatrix/src/generateList.hpp:1-22: sizes as int *)
Definition make_rect (row col values : list real) : out listr :=
  let! a := int_op (isize row - 1) in
  let! b := int_op (isize col - 1) in
  let! p := int_op (a * b) in
  if negb (p =? isize values) then Throw EStd
  else let l := mklist rzero rzero 0 6 (Z.of_nat (length row)) (row ++ col ++ values) in
       let! u := check_rect l in Val l.
(** take_exactly( n ) and drop_exactly( n ) of a list: undefined unless 0 <= n <= its length *)
(** not code: range-v3 views, as in section/CovariancePairs.hpp:79-126 *)
Definition take_exactly (n : Z) (l : list real) : out (list real) :=
  if (n <? 0) || (Z.of_nat (length l) <? n) then Undef else Val (firstn (Z.to_nat n) l).
(** not code: range-v3 views, as in section/CovariancePairs.hpp:79-126 *)
Definition drop_exactly (n : Z) (l : list real) : out (list real) :=
  if (n <? 0) || (Z.of_nat (length l) <? n) then Undef else Val (skipn (Z.to_nat n) l).
(** not code: range-v3 views, as in section/CovariancePairs.hpp:79-126 *)
Definition strided (o : out (list real)) : out (list real) := let! l := o in Val (stride 2 l).
(** section/CovariancePairs.hpp:39-131: LT() is an int, NP() is NPL() / 2 on long *)
Definition pairs_split (l : listr) : Z := 2 * (Z.quot (npl l) 2 - i32 (lL1 l)).
(** section/CovariancePairs.hpp:79-83 *)
Definition EK (l : listr) : out (list real) := strided (take_exactly (pairs_split l) (lB l)).
(** section/CovariancePairs.hpp:93-98 *)
Definition FK (l : listr) : out (list real) := strided (let! a := take_exactly (pairs_split l) (lB l) in drop_exactly 1 a).
(** section/CovariancePairs.hpp:108-112 *)
Definition EL (l : listr) : out (list real) := strided (drop_exactly (pairs_split l) (lB l)).
(** section/CovariancePairs.hpp:122-126 *)
Definition FL (l : listr) : out (list real) := strided (drop_exactly (pairs_split l + 1) (lB l)).
(** section/SquareMatrix.hpp:65-100 *)
Definition sq_energies (l : listr) : out (list real) := take_exactly (lN2 l) (lB l).
(** section/SquareMatrix.hpp:94-98 *)
Definition sq_values (l : listr) : out (list real) := drop_exactly (lN2 l) (lB l).
(** section/RectangularMatrix.hpp:50-102: NEC() is ( NT - 1 ) / NER on long; columnEnergies() only drops *)
Definition NEC (l : listr) : out Z := if lN2 l =? 0 then Undef else Val (Z.quot (npl l - 1) (lN2 l)).
(** section/RectangularMatrix.hpp:80-83 *)
Definition row_energies (l : listr) : out (list real) := take_exactly (lN2 l) (lB l).
(** section/RectangularMatrix.hpp:88-91 *)
Definition column_energies (l : listr) : out (list real) := drop_exactly (lN2 l) (lB l).
(** section/RectangularMatrix.hpp:96-100 *)
Definition rect_values (l : listr) : out (list real) := let! n := NEC l in drop_exactly (lN2 l + n) (lB l).

(** ** derived covariances *)
(** section/DerivedRedundant.hpp:1-112, section/DerivedRatioToStandard.hpp:1-158: a CONT record of which only LTY is kept, then a
    LIST record; section/ReactionBlock/src/readNC.hpp:1-47 (the switch is on the long L2, LTY is an int);
    section/DerivedRedundant/src/ctor.hpp:16-22, section/DerivedRedundant/src/print.hpp:1-16, section/DerivedRatioToStandard/src/ctor.hpp:15-22,
    section/DerivedRatioToStandard/src/print.hpp:1-16, section/DerivedRatioToStandard/src/NC.hpp:1-4 *)
Inductive derived := Redundant (l : listr) | Ratio (lty : Z) (l : listr).
(** section/DerivedRedundant.hpp:42 *)
Definition LTY (d : derived) : Z := match d with Redundant _ => 0 | Ratio n _ => n end.
(** section/DerivedRedundant.hpp:1-112 *)
Definition list_ofd (d : derived) : listr := match d with Redundant l => l | Ratio _ l => l end.
(** section/ReactionBlock/src/readNC.hpp:1-47 *)
Definition rd_derived (mat mf mt : Z) : M derived :=
  c <- rd_cont mat mf mt ;;
  if l2 c =? 0 then l <- rd_list mat mf mt ;; ret (Redundant l)
  else if (1 <=? l2 c) && (l2 c <=? 3) then l <- rd_list mat mf mt ;; ret (Ratio (l2 c) l)
  else throw EStd.
(** section/DerivedRedundant/src/print.hpp:1-16 *)
Definition pr_derived (d : derived) (mat mf mt : Z) : text :=
  pr_cont (mkcont rzero rzero 0 (LTY d) 0 0) mat mf mt ++ pr_list (list_ofd d) mat mf mt.
(** section/DerivedRedundant/src/NC.hpp:1-4 *)
Definition nc_derived (d : derived) : Z := 1 + nc_list (list_ofd d).
(** the constructors from parts check the lengths only: section/DerivedRedundant/src/ctor.hpp:33-46,
    section/DerivedRedundant/src/generateList.hpp:1-22, section/DerivedRatioToStandard/src/ctor.hpp:38-54, section/DerivedRatioToStandard/src/generateList.hpp:1-23 *)
Definition make_redundant (e1 e2 : real) (cs : list real) (reactions : list Z) : out derived :=
  if negb (length cs =? length reactions)%nat then Throw EStd
  else Val (Redundant (mklist e1 e2 0 0 (Z.of_nat (length cs)) (interleave2 cs (map of_int reactions)))).
(** section/DerivedRatioToStandard/src/ctor.hpp:1-80 *)
Definition make_ratio (lty : Z) (e1 e2 : real) (mats mts xmfs xlfss : Z) (es ws : list real) : out derived :=
  if negb (length es =? length ws)%nat then Throw EStd
  else Val (Ratio lty (mklist e1 e2 mats mts (Z.of_nat (length es)) (of_int xmfs :: of_int xlfss :: interleave2 es ws))).
(** section/DerivedRedundant.hpp:82-101, section/DerivedRatioToStandard.hpp:103-146 *)
Definition CI (d : derived) : list real := stride 2 (lB (list_ofd d)).
(** section/DerivedRedundant.hpp:92-96 *)
Definition XMTI (d : derived) : out (list real) := strided (drop_exactly 1 (lB (list_ofd d))).
(** section/DerivedRatioToStandard.hpp:123-127 *)
Definition EI (d : derived) : out (list real) := strided (drop_exactly 2 (lB (list_ofd d))).
(** section/DerivedRatioToStandard.hpp:137-141 *)
Definition WEI (d : derived) : out (list real) := strided (drop_exactly 3 (lB (list_ofd d))).

(** ** reaction blocks: section/ReactionBlock.hpp:1-137, section/ReactionBlock/src/ctor.hpp:55-105, section/ReactionBlock/src/readNC.hpp:1-47 (for i < n:
    a negative count reads nothing), section/ReactionBlock/src/print.hpp:1-32, section/ReactionBlock/src/NC.hpp:1-24.  The conversions to int are
    done when everything was read (the order is unspecified); a negative N2 makes reserve throw. *)
Record block := mkblock { xmf1 : Z; xlfs1 : Z; mat1 : Z; mt1 : Z; b_nc : list derived; b_ni : list explicit }.
(** section/ReactionBlock/src/ctor.hpp:1-105 *)
Definition mk_block (c : cont) (p : list derived * list explicit) : out block :=
  let! a := cast_int (c1 c) in
  let! b := cast_int (c2 c) in
  Val (mkblock a b (i32 (l1 c)) (i32 (l2 c)) (fst p) (snd p)).
(** section/ReactionBlock/src/ctor.hpp:1-105 *)
Definition rd_block (mat mf mt : Z) : M block :=
  c <- rd_cont mat mf mt ;;
  ds <- rd_n (rd_derived mat mf mt) (Z.to_nat (i32 (n1 c))) ;;
  es <- rd_all rd_explicit (n2 c) mat mf mt ;;
  lift (mk_block c (ds, es)).
(** section/ReactionBlock/src/print.hpp:1-32 *)
Definition block_head (b : block) : cont :=
  mkcont (of_int (xmf1 b)) (of_int (xlfs1 b)) (mat1 b) (mt1 b) (isize (b_nc b)) (isize (b_ni b)).
(** section/ReactionBlock/src/print.hpp:1-32 *)
Definition pr_block (b : block) (mat mf mt : Z) : text :=
  pr_cont (block_head b) mat mf mt ++ pr_all pr_derived (b_nc b) mat mf mt ++ pr_all pr_explicit (b_ni b) mat mf mt.
(** section/ReactionBlock/src/NC.hpp:1-24 *)
Definition nc_block (b : block) : Z := 1 + nc_all nc_derived (b_nc b) + nc_all nc_explicit (b_ni b).

(** ** sections *)
(** section/31/src/ctor.hpp:25-42, section/31/src/print.hpp:1-18, section/31/src/NC.hpp:1-9 *)
Definition sec_31 : skind (list block) :=
  mkskind 31 None false true false (fun h => rd_all rd_block (n2 (sbase h)))
    (fun l => (0, 0, 0, isize l)) (pr_all pr_block) (nc_all nc_block).
(** section/33/src/ctor.hpp:36-53: MTL as int, section/33/src/print.hpp:1-18, section/33/src/NC.hpp:1-9 *)
Definition sec_33 : skind (Z * list block) :=
  mkskind 33 None false true false (fun h mat mf mt => l <- rd_all rd_block (n2 (sbase h)) mat mf mt ;; ret (i32 (l2 (sbase h)), l))
    (fun b => (0, fst b, 0, isize (snd b))) (fun b => pr_all pr_block (snd b)) (fun b => nc_all nc_block (snd b)).

(** section/34/LegendreBlock/src/ctor.hpp:17-53, section/34/LegendreBlock/src/print.hpp:1-25, section/34/LegendreBlock/src/NC.hpp:1-17 *)
Record legblock := mklegblock { lg_l : Z; lg_l1 : Z; lg_lct : Z; lg_data : list explicit }.
(** section/34/LegendreBlock/src/ctor.hpp:1-53 *)
Definition rd_legblock (mat mf mt : Z) : M legblock :=
  c <- rd_cont mat mf mt ;;
  es <- rd_all rd_explicit (n2 c) mat mf mt ;;
  ret (mklegblock (i32 (l1 c)) (i32 (l2 c)) (i32 (n1 c)) es).
(** section/34/LegendreBlock/src/print.hpp:1-25 *)
Definition leg_head (b : legblock) : cont := mkcont rzero rzero (lg_l b) (lg_l1 b) (lg_lct b) (isize (lg_data b)).
(** section/34/LegendreBlock/src/print.hpp:1-25 *)
Definition pr_legblock (b : legblock) (mat mf mt : Z) : text :=
  pr_cont (leg_head b) mat mf mt ++ pr_all pr_explicit (lg_data b) mat mf mt.
(** section/34/LegendreBlock/src/NC.hpp:1-17 *)
Definition nc_legblock (b : legblock) : Z := 1 + nc_all nc_explicit (lg_data b).
(** section/34/ReactionBlock/src/verifySize.hpp:1-35 *)
Definition size_block34 (nl nl1 nss : Z) (diag : bool) : out unit :=
  if diag then
    if nl =? nl1 then
      let! m := int_op (nl + 1) in
      let! p := int_op (nl * m) in
      ensure (Z.quot p 2 =? nss)
    else Throw EStd
  else let! p := int_op (nl * nl1) in ensure (p =? nss).
(** section/34/ReactionBlock/src/readLegendreBlocks.hpp:1-16: on long, then converted to int *)
Definition count34 (mt : Z) (c : cont) : out Z :=
  if mt =? l2 c then
    let! a := long_op (n2 c + 1) in
    let! p := long_op (n1 c * a) in Val (Z.quot p 2)
  else long_op (n1 c * n2 c).
(** section/34/ReactionBlock/src/ctor.hpp:11-58, section/34/ReactionBlock/src/print.hpp:1-22, section/34/ReactionBlock/src/NC.hpp:1-14 *)
Record block34 := mkblock34 { b34_mt1 : Z; b34_nl : Z; b34_nl1 : Z; b34_blocks : list legblock }.
(** section/34/ReactionBlock/src/ctor.hpp:1-58 *)
Definition make_block34 (mt mt1 nl nl1 : Z) (bs : list legblock) : out block34 :=
  let! u := size_block34 nl nl1 (isize bs) (mt =? mt1) in Val (mkblock34 mt1 nl nl1 bs).
(** [sec] is the number of the section, the MT of the records *)
(** section/34/ReactionBlock/src/ctor.hpp:1-58 *)
Definition rd_block34 (sec mat mf mt : Z) : M block34 :=
  c <- rd_cont mat mf mt ;;
  n <- lift (count34 sec c) ;;
  bs <- rd_all rd_legblock n mat mf mt ;;
  lift (make_block34 sec (i32 (l2 c)) (i32 (n1 c)) (i32 (n2 c)) bs).
(** section/34/ReactionBlock/src/print.hpp:1-22 *)
Definition head34 (b : block34) : cont := mkcont rzero rzero 0 (b34_mt1 b) (b34_nl b) (b34_nl1 b).
(** section/34/ReactionBlock/src/print.hpp:1-22 *)
Definition pr_block34 (b : block34) (mat mf mt : Z) : text :=
  pr_cont (head34 b) mat mf mt ++ pr_all pr_legblock (b34_blocks b) mat mf mt.
(** section/34/ReactionBlock/src/NC.hpp:1-14 *)
Definition nc_block34 (b : block34) : Z := 1 + nc_all nc_legblock (b34_blocks b).
(** a block is made for a section number (section/33/src/ctor.hpp:11-18): on the diagonal NL ( NL + 1 ) / 2 Legendre
    blocks, else NL NL1 *)
Definition made_for (mt : Z) (b : block34) : Prop :=
  size_block34 (b34_nl b) (b34_nl1 b) (isize (b34_blocks b)) (mt =? b34_mt1 b) = Val tt.
(** section/34/src/ctor.hpp:26-44, section/34/src/print.hpp:1-18, section/34/src/NC.hpp:1-9 *)
Definition sec_34 : skind (Z * list block34) :=
  mkskinda 34 None false true false (fun h mat mf mt => l <- rd_all (rd_block34 (smt h)) (n2 (sbase h)) mat mf mt ;; ret (i32 (l2 (sbase h)), l))
    (fun b => (0, fst b, 0, isize (snd b))) (fun _ b => pr_all pr_block34 (snd b)) (fun b => nc_all nc_block34 (snd b))
    (Some (fun mt b => Forall (made_for mt) (snd b))).

(** section/35/SquareMatrix/src/ctor.hpp:14-19, section/35/SquareMatrix/src/verifyLB.hpp:1-11 *)
Definition check_square35 (l : listr) : out unit :=
  if i32 (lL2 l) =? 7 then size_square 1 (i32 (lN2 l)) (i32 (npl l)) else Throw EStd.
(** section/35/SquareMatrix/src/ctor.hpp:29-43 *)
Definition make_square35 (e1 e2 : real) (energies values : list real) : out listr :=
  let l := mklist e1 e2 1 7 (Z.of_nat (length energies)) (energies ++ values) in
  let! u := check_square35 l in Val l.
(** section/35/SquareMatrix.hpp:22-40: E1() and E2() return an int, the numbers are truncated *)
Definition E1_35 (l : listr) : out Z := int_op (trunc (lC1 l)).
(** section/35/SquareMatrix.hpp:22-40 *)
Definition E2_35 (l : listr) : out Z := int_op (trunc (lC2 l)).
(** section/35/src/ctor.hpp:25-43, section/35/src/print.hpp:1-18, section/35/src/NC.hpp:1-9 *)
Definition sec_35 : skind (list listr) :=
  mkskind 35 None false true false (fun h => rd_all (rd_checked check_square35) (n1 (sbase h)))
    (fun l => (0, 0, isize l, 0)) (pr_all pr_list) (nc_all nc_list).

(** section/40/LevelBlock/src/ctor.hpp:18-57, section/40/LevelBlock/src/print.hpp:1-22, section/40/LevelBlock/src/NC.hpp:1-14 *)
Record level := mklevel { lv_qm : real; lv_qi : real; lv_izap : Z; lv_lfs : Z; lv_reactions : list block }.
(** section/40/LevelBlock/src/ctor.hpp:1-57 *)
Definition rd_level (mat mf mt : Z) : M level :=
  c <- rd_cont mat mf mt ;;
  bs <- rd_all rd_block (n2 c) mat mf mt ;;
  ret (mklevel (c1 c) (c2 c) (i32 (l1 c)) (i32 (l2 c)) bs).
(** section/40/LevelBlock/src/print.hpp:1-22 *)
Definition level_head (v : level) : cont := mkcont (lv_qm v) (lv_qi v) (lv_izap v) (lv_lfs v) 0 (isize (lv_reactions v)).
(** section/40/LevelBlock/src/print.hpp:1-22 *)
Definition pr_level (v : level) (mat mf mt : Z) : text :=
  pr_cont (level_head v) mat mf mt ++ pr_all pr_block (lv_reactions v) mat mf mt.
(** section/40/LevelBlock/src/NC.hpp:1-14 *)
Definition nc_level (v : level) : Z := 1 + nc_all nc_block (lv_reactions v).
(** section/40/src/ctor.hpp:26-43, section/40/src/print.hpp:1-18, section/40/src/NC.hpp:1-9 *)
Definition sec_40 : skind (Z * list level) :=
  mkskind 40 None false true false (fun h mat mf mt => l <- rd_all rd_level (n1 (sbase h)) mat mf mt ;; ret (i32 (l1 (sbase h)), l))
    (fun b => (fst b, 0, isize (snd b), 0)) (fun b => pr_all pr_level (snd b)) (fun b => nc_all nc_level (snd b)).
