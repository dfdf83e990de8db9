(** Records.v -- the ENDF record classes: readers, printers, constructors.
    All paths are relative to /repo/src/ENDFtk. *)
From Verif Require Import Base Disco.
Open Scope Z_scope.

(** Outcome of a constructor (no text involved). *)
(** not code: a value, an exception or undefined behaviour *)
Inductive out (A : Type) := Val (a : A) | Throw (e : exn) | Undef.
Arguments Val {A}. Arguments Throw {A}. Arguments Undef {A}.
(** not code: a value, an exception or undefined behaviour *)
Definition lift {A} (o : out A) : M A :=
  match o with Val a => ret a | Throw e => throw e | Undef => undef end.
(** not code: a value, an exception or undefined behaviour *)
Definition obind {A B} (o : out A) (f : A -> out B) : out B :=
  match o with Val a => f a | Throw e => Throw e | Undef => Undef end.

(** conversion of a long to unsigned int / int (32 bit) *)
(** not code: conversion to a 32-bit unsigned int or int *)
Definition u32 (z : Z) : Z := z mod 4294967296.
(** not code: conversion to a 32-bit unsigned int or int *)
Definition i32 (z : Z) : Z :=
  let m := z mod 4294967296 in if m <? 2147483648 then m else m - 4294967296.

(** ** Tail: MAT, MF, MT in columns 67-75 *)

(** record/Tail.hpp:34-50: read three integers, move to the next line,
    ++lineNumber.  The sequence number columns 76-80 are not looked at. *)
Definition rd_tail : M (Z * Z * Z) :=
  mat <- rd_int 4 ;; mf <- rd_int 2 ;; mt <- rd_int 3 ;;
  rd_eol ;;; inc_line ;;; ret (mat, mf, mt).

(** record/TailVerifying.hpp:23-37: TailVerifying<MAT,MF,MT>.  The innermost
    base class is verified first: MT, then MF, then MAT; throws
    (position + 6). *)
Definition verify_tail (mat mf mt : Z) : M unit :=
  '(m, f, t) <- rd_tail ;;
  (if t =? mt then ret tt else throw (EInt 8)) ;;;
  (if f =? mf then ret tt else throw (EInt 7)) ;;;
  (if m =? mat then ret tt else throw (EInt 6)).

(** The tail as written by every print function:
    disco::Record< ..., Integer<4>, Integer<2>, Integer<3>, Column<5> >
    (e.g. ControlRecord/src/print.hpp:15-24) *)
Definition pr_tail (mat mf mt : Z) : text :=
  pr_int 4 mat ++ pr_int 2 mf ++ pr_int 3 mt ++ pr_col 5 ++ [LF].

(** ** record::Base< Real, Real, Integer<11> x 4 > *)
(** ControlRecord.hpp:1-134, record/Base.hpp:1-124 *)
Record cont := mkcont { c1 : real; c2 : real; l1 : Z; l2 : Z; n1 : Z; n2 : Z }.

(** record/Base.hpp:78-87; every std::exception is rethrown as such *)
Definition rd_base : M cont :=
  a <- rd_real ;; b <- rd_real ;;
  c <- rd_int 11 ;; d <- rd_int 11 ;; e <- rd_int 11 ;; f <- rd_int 11 ;;
  ret (mkcont a b c d e f).

(** ControlRecord/src/print.hpp:1-25 *)
Definition pr_base (c : cont) : text :=
  write_real (c1 c) ++ write_real (c2 c) ++ pr_int 11 (l1 c) ++ pr_int 11 (l2 c)
  ++ pr_int 11 (n1 c) ++ pr_int 11 (n2 c).

(** catch( std::exception& e ){ throw e; } -- slices to std::exception;
    catch( int ){ --lineNumber; throw std::exception(); } *)
(** the catch blocks of ControlRecord.hpp:77-90, TextRecord.hpp:30-45, DirectoryRecord.hpp:75-85, TapeIdentification.hpp:69-79, ListRecord.hpp:89-95, StructureDivision.hpp:74-104 *)
Definition h_dec (e : exn) (s : st) : exn * st :=
  match e with
  | EStd | EOor => (EStd, s)
  | EInt _ => (EStd, mkst (buf s) (line s - 1))
  | _ => (e, s)
  end.
(** the same without the decrement *)
(** the catch blocks of ControlRecord.hpp:77-90, TextRecord.hpp:30-45, DirectoryRecord.hpp:75-85, TapeIdentification.hpp:69-79, ListRecord.hpp:89-95, StructureDivision.hpp:74-104 *)
Definition h_nodec (e : exn) (s : st) : exn * st :=
  match e with
  | EStd | EOor | EInt _ => (EStd, s)
  | _ => (e, s)
  end.
(** TAB1/TAB2: also IllegalN2 and InconsistentN2
    (TabulationRecord/src/ctor.hpp:104-125, InterpolationRecord/src/ctor.hpp:64-85) *)
Definition h_tab (e : exn) (s : st) : exn * st := (EStd, s).
(** catch( std::exception& e ){ throw e; } only *)
(** the catch blocks of ControlRecord.hpp:77-90, TextRecord.hpp:30-45, DirectoryRecord.hpp:75-85, TapeIdentification.hpp:69-79, ListRecord.hpp:89-95, StructureDivision.hpp:74-104 *)
Definition h_std (e : exn) (s : st) : exn * st :=
  match e with EOor => (EStd, s) | _ => (e, s) end.

(** ControlRecord.hpp:72-84 *)
Definition rd_cont (mat mf mt : Z) : M cont :=
  on_err (c <- rd_base ;; verify_tail mat mf mt ;;; ret c) h_dec.
(** ControlRecord/src/print.hpp:11-25 *)
Definition pr_cont (c : cont) (mat mf mt : Z) : text := pr_base c ++ pr_tail mat mf mt.
(** ControlRecord.hpp:124 *)
Definition nc_cont (c : cont) : Z := 1.

(** TextRecord.hpp:21-40 and TextRecord/src/print.hpp:1-10.  The constructor
    stores the string as it is; printing pads it to 66 columns. *)
Definition rd_text (mat mf mt : Z) : M text :=
  on_err (t <- rd_chars 66 ;; verify_tail mat mf mt ;;; ret t) h_dec.
(** TextRecord/src/print.hpp:1-10 *)
Definition pr_text (t : text) (mat mf mt : Z) : text := lj 66 t ++ pr_tail mat mf mt.

(** DirectoryRecord.hpp:44-45, 67-83 and DirectoryRecord/src/print.hpp:11-21 *)
Record dir := mkdir { dmf : Z; dmt : Z; dnc : Z; dmod : Z }.
(** DirectoryRecord.hpp:44-45 *)
Definition rd_dir (mat mf mt : Z) : M dir :=
  on_err (a <- rd_int 33 ;; b <- rd_int 11 ;; c <- rd_int 11 ;; d <- rd_int 11 ;;
          verify_tail mat mf mt ;;; ret (mkdir a b c d)) h_dec.
(** DirectoryRecord/src/print.hpp:1-21 *)
Definition pr_dir (d : dir) (mat mf mt : Z) : text :=
  pr_int 33 (dmf d) ++ pr_int 11 (dmt d) ++ pr_int 11 (dnc d) ++ pr_int 11 (dmod d)
  ++ pr_tail mat mf mt.

(** TapeIdentification.hpp:30-42, 54-55, 66-79: text and tape number *)
Record tpid := mktpid { tptext : text; tpnum : Z }.
(** TapeIdentification.hpp:30-79 *)
Definition order66 (t : text) : text :=
  if (66 <? length t)%nat then firstn 66 t else lj 66 t.
(** TapeIdentification.hpp:30-79 *)
Definition make_tpid (t : text) (n : Z) : tpid := mktpid (order66 t) n.
(** TapeIdentification.hpp:30-79 *)
Definition rd_tpid : M tpid :=
  on_err (t <- rd_chars 66 ;; '(m, f, s) <- rd_tail ;;
          (if s =? 0 then ret tt else throw (EInt 8)) ;;;
          (if f =? 0 then ret tt else throw (EInt 7)) ;;;
          ret (mktpid t m)) h_dec.
(** TapeIdentification/src/print.hpp:11-20 *)
Definition pr_tpid (t : tpid) (mat mf mt : Z) : text :=
  lj 66 (tptext t) ++ pr_tail mat mf mt.

(** ** StructureDivision and HeadRecord *)
(** StructureDivision.hpp:20-60 *)
Record sdiv := mksdiv { sbase : cont; smat : Z; smf : Z; smt : Z }.
(** StructureDivision.hpp:175-225 *)
Definition zero_cont : cont := mkcont rzero rzero 0 0 0 0.

(** StructureDivision.hpp:34-104 *)
Definition rd_sdiv : M sdiv :=
  on_err (c <- rd_base ;; '(m, f, t) <- rd_tail ;;
          require (negb (m <? -1)) ;;; require (negb (f <? 0)) ;;;
          require (negb (t <? 0)) ;;; ret (mksdiv c m f t)) h_nodec.

(** base == empty (record/Base.hpp:99-112): doubles compared by value *)
Definition base_is0 (c : cont) : bool :=
  ris0 (c1 c) && ris0 (c2 c) && (l1 c =? 0) && (l2 c =? 0) && (n1 c =? 0) && (n2 c =? 0).

(** StructureDivision.hpp:106-142 *)
Definition is_head (d : sdiv) : bool :=
  negb (smt d =? 0) && negb (smf d =? 0) && negb (smat d =? 0).
(** StructureDivision.hpp:106-142 *)
Definition is_send_permissive (d : sdiv) : bool := base_is0 (sbase d) && (smt d =? 0).
(** StructureDivision.hpp:106-142 *)
Definition is_send (d : sdiv) : bool :=
  is_send_permissive d && negb (smf d =? 0) && (0 <? smat d).
(** StructureDivision.hpp:106-142 *)
Definition is_fend_permissive (d : sdiv) : bool := is_send_permissive d && (smf d =? 0).
(** StructureDivision.hpp:106-142 *)
Definition is_fend (d : sdiv) : bool := is_fend_permissive d && (0 <? smat d).
(** StructureDivision.hpp:106-142 *)
Definition is_mend (d : sdiv) : bool := is_fend_permissive d && (smat d =? 0).
(** StructureDivision.hpp:106-142 *)
Definition is_tend (d : sdiv) : bool := is_fend_permissive d && (smat d =? -1).

(** StructureDivision.hpp:144-172 *)
Definition pr_sdiv (d : sdiv) : text :=
  if is_head d then pr_base (sbase d) ++ pr_tail (smat d) (smf d) (smt d)
  else pr_int 70 (smat d) ++ pr_int 2 (smf d) ++ pr_int 3 (smt d) ++ pr_col 5 ++ [LF].

(** StructureDivision.hpp:175-225 *)
Definition SEND (mat mf : Z) : out sdiv :=
  if mat <? 1 then Throw EStd else if mf <? 1 then Throw EStd
  else Val (mksdiv zero_cont mat mf 0).
(** StructureDivision.hpp:211 *)
Definition FEND (mat : Z) : out sdiv :=
  if mat <? 1 then Throw EStd else Val (mksdiv zero_cont mat 0 0).
(** StructureDivision.hpp:218 *)
Definition MEND : sdiv := mksdiv zero_cont 0 0 0.
(** StructureDivision.hpp:225 *)
Definition TEND : sdiv := mksdiv zero_cont (-1) 0 0.

(** printing may throw when it constructs a SEND or FEND record *)
(** not code: printed text or an exception *)
Definition pout := out text.
(** not code: printed text or an exception *)
Definition oapp (a b : pout) : pout := obind a (fun x => obind b (fun y => Val (x ++ y))).
Infix "+++" := oapp (right associativity, at level 60).
(** StructureDivision.hpp:194-197 *)
Definition pr_SEND (mat mf : Z) : pout := obind (SEND mat mf) (fun d => Val (pr_sdiv d)).
(** StructureDivision.hpp:211 *)
Definition pr_FEND (mat : Z) : pout := obind (FEND mat) (fun d => Val (pr_sdiv d)).

(** HeadRecord.hpp:31-34; ZA() is Sections.head_za32, AWR() is C2 *)
Definition head_make (za : Z) (awr : real) (a b c d mat mf mt : Z) : sdiv :=
  mksdiv (mkcont (of_int za) awr a b c d) mat mf mt.

(** record/skip.hpp:16-25 *)
Definition rd_skip : M (Z * Z * Z) := rd_chars 66 ;;; rd_tail.

(** ** Zipper: blocks of equally wide tuples, [k] tuples per line

    Only Real, (Real,Real) and (Integer<11>,Integer<11>) are instantiated
    (ListRecord.hpp:86, TabulationRecord/src/readPairs.hpp:9,
    record/InterpolationBase/src/readRangeDescriptions.hpp:8), hence
    nPad = 66 % width = 0 and the Column<nPad> is empty. *)
Section Zip.
  Context {A : Type}.
  Variable rd : M A.            (* TupleFormat::read *)
  Variable isdef : A -> bool.   (* equal to defaultTuple() *)
  Variable k : nat.             (* tuplesPerRecord *)
  Variables mat mf mt : Z.

  (** record/Zipper/src/process.hpp:1-7 *)
  Fixpoint rd_n (n : nat) : M (list A) :=
    match n with
    | O => ret []
    | S n' => x <- rd ;; xs <- rd_n n' ;; ret (x :: xs)
    end.
  (** record/Zipper/src/process.hpp:1-7 *)
  Definition rd_zline : M (list A) :=
    xs <- rd_n k ;; verify_tail mat mf mt ;;; ret xs.
  (** record/Zipper/src/process.hpp:1-7 *)
  Fixpoint rd_zlines (q : nat) : M (list A) :=
    match q with
    | O => ret []
    | S q' => xs <- rd_zline ;; ys <- rd_zlines q' ;; ret (xs ++ ys)
    end.
  (** record/Zipper/src/readPartialLine.hpp:21-27 *)
  Fixpoint rd_leftover (n : nat) : M unit :=
    match n with
    | O => ret tt
    | S n' => x <- rd ;; require (isdef x) ;;; rd_leftover n'
    end.
  (** record/Zipper/src/readPartialLine.hpp:1-35 *)
  Definition rd_zpartial (r : nat) : M (list A) :=
    xs <- rd_n r ;; rd_leftover (k - r) ;;; verify_tail mat mf mt ;;; ret xs.
  (** record/Zipper/src/unzip.hpp:1-28 *)
  Definition unzip (n : nat) : M (list A) :=
    xs <- rd_zlines (n / k) ;;
    if (n mod k =? 0)%nat then ret xs
    else ys <- rd_zpartial (n mod k) ;; ret (xs ++ ys).
End Zip.

(** the printed form of such a block: lines of [k] tuples of [w] columns, the
    last one filled with blanks (ListRecord/src/print.hpp:26-60,
    record/InterpolationBase/src/print.hpp:18-56,
    TabulationRecord/src/print.hpp:17-49) *)
Fixpoint chunk_aux {A} (k fuel : nat) (l : list A) : list (list A) :=
  match fuel, l with
  | O, _ => []
  | _, [] => []
  | S f, _ => firstn k l :: chunk_aux k f (skipn k l)
  end.
(** ListRecord/src/print.hpp:26-60 *)
Definition chunks {A} (k : nat) (l : list A) : list (list A) := chunk_aux k (length l) l.

(** ListRecord/src/print.hpp:1-61 *)
Definition pr_zline {A} (pe : A -> text) (w k : nat) (mat mf mt : Z) (c : list A) : text :=
  flat_map pe c ++ pr_col (w * (k - length c)) ++ pr_tail mat mf mt.
(** ListRecord/src/print.hpp:1-61 *)
Definition pr_zip {A} (pe : A -> text) (w k : nat) (mat mf mt : Z) (l : list A) : text :=
  flat_map (pr_zline pe w k mat mf mt) (chunks k l).

(** ** LIST *)
(** ListRecord.hpp:1-172 *)
Record listr := mklist
  { lC1 : real; lC2 : real; lL1 : Z; lL2 : Z; lN2 : Z; lB : list real }.
(** ListRecord.hpp:1-172 *)
Definition npl (l : listr) : Z := Z.of_nat (length (lB l)).

(** ListRecord.hpp:82-95, ListRecord/src/readMetadata.hpp:1-19 *)
Definition rd_list (mat mf mt : Z) : M listr :=
  on_err
    (c <- on_err (c <- rd_base ;; verify_tail mat mf mt ;;;
                  require (negb (n1 c <? 0)) ;;; ret c) h_std ;;
     b <- unzip rd_real ris0 6 mat mf mt (Z.to_nat (n1 c)) ;;
     ret (mklist (c1 c) (c2 c) (l1 c) (l2 c) (n2 c) b))
    h_nodec.
(** ListRecord/src/print.hpp:11-61 *)
Definition pr_list (l : listr) (mat mf mt : Z) : text :=
  pr_cont (mkcont (lC1 l) (lC2 l) (lL1 l) (lL2 l) (npl l) (lN2 l)) mat mf mt
  ++ pr_zip write_real 11 6 mat mf mt (lB l).
(** ListRecord.hpp:162 *)
Definition nc_list (l : listr) : Z := 1 + (npl l + 5) / 6.

(** ** InterpolationBase and TAB2 *)
(** record/InterpolationBase.hpp:1-116 *)
Record tab2 := mktab2
  { tC1 : real; tC2 : real; tL1 : Z; tL2 : Z; tbnd : list Z; tint : list Z }.
(** record/InterpolationBase.hpp:1-116 *)
Definition tnr (t : tab2) : Z := Z.of_nat (length (tbnd t)).
(** boundaryIndices.back(); only used on non-empty vectors *)
(** record/InterpolationBase.hpp:1-116 *)
Definition tn2 (t : tab2) : Z := last (tbnd t) 0.

(** std::is_sorted: no element is smaller than its predecessor *)
(** record/InterpolationBase.hpp:1-116 *)
Fixpoint is_sorted {A} (lt : A -> A -> bool) (l : list A) : bool :=
  match l with
  | a :: (b :: _) as l' => negb (lt b a) && is_sorted lt l'
  | _ => true
  end.

(** record/InterpolationBase/src/ctor.hpp:9-18.  back() of an empty vector is
    undefined behaviour. *)
Definition make_tab2 (C1 C2 : real) (L1 L2 : Z) (bnd int : list Z) : out tab2 :=
  match bnd with
  | [] => Undef
  | _ => if negb (length bnd =? length int)%nat then Throw EStd
         else if negb (is_sorted Z.ltb bnd) then Throw EStd
         else Val (mktab2 C1 C2 L1 L2 bnd int)
  end.

(** record/InterpolationBase/src/ctor.hpp:1-57 *)
Definition rd_pair_int : M (Z * Z) := a <- rd_int 11 ;; b <- rd_int 11 ;; ret (a, b).
(** record/InterpolationBase/src/print.hpp:1-57 *)
Definition pr_pair_int (p : Z * Z) : text := pr_int 11 (fst p) ++ pr_int 11 (snd p).
(** record/InterpolationBase/src/ctor.hpp:1-57 *)
Definition pair_int_is0 (p : Z * Z) : bool := (fst p =? 0) && (snd p =? 0).

(** record/InterpolationBase/src/ctor.hpp:29-57, record/InterpolationBase/src/readMetadata.hpp:1-18,
    record/InterpolationBase/src/readRangeDescriptions.hpp:1-17, record/InterpolationBase/src/verifyN2.hpp:1-7 *)
Definition rd_ibase (mat mf mt : Z) : M tab2 :=
  c <- rd_base ;; verify_tail mat mf mt ;;;
  require (negb (n1 c <? 1)) ;;;
  (if n2 c <? 0 then throw EIllegalN2 else ret tt) ;;;
  ps <- on_err (ps <- unzip rd_pair_int pair_int_is0 3 mat mf mt (Z.to_nat (n1 c)) ;;
                require (is_sorted Z.ltb (map fst ps)) ;;; ret ps) h_std ;;
  t <- lift (make_tab2 (c1 c) (c2 c) (l1 c) (l2 c) (map fst ps) (map snd ps)) ;;
  (if n2 c =? tn2 t then ret tt else throw EInconsistentN2) ;;;
  ret t.
(** record/InterpolationBase/src/print.hpp:1-57 *)
Definition pr_tab2 (t : tab2) (mat mf mt : Z) : text :=
  pr_cont (mkcont (tC1 t) (tC2 t) (tL1 t) (tL2 t) (tnr t) (tn2 t)) mat mf mt
  ++ pr_zip pr_pair_int 22 3 mat mf mt (combine (tbnd t) (tint t)).
(** record/InterpolationBase.hpp:107 *)
Definition nc_tab2 (t : tab2) : Z := 1 + (tnr t + 2) / 3.
(** InterpolationRecord/src/ctor.hpp:58-85 *)
Definition rd_tab2 (mat mf mt : Z) : M tab2 := on_err (rd_ibase mat mf mt) h_tab.

(** ** TAB1 *)
(** TabulationRecord.hpp:1-157 *)
Record tab1 := mktab1 { tbase : tab2; tx : list real; ty : list real }.
(** TabulationRecord.hpp:1-157 *)
Definition tnp (t : tab1) : Z := Z.of_nat (length (tx t)).

(** TabulationRecord/src/ctor.hpp:21-38, TabulationRecord/src/verifyXValuesAreSorted.hpp:1-13,
    TabulationRecord/src/verifyVectorSizes.hpp:1-13, TabulationRecord/src/verifyNP.hpp:1-13 (arguments are unsigned int) *)
Definition make_tab1 (C1 C2 : real) (L1 L2 : Z) (bnd int : list Z) (x y : list real)
  : out tab1 :=
  obind (make_tab2 C1 C2 L1 L2 bnd int) (fun b =>
  if negb (is_sorted rlt x) then Throw EStd
  else if negb (length x =? length y)%nat then Throw EStd
  else if negb (u32 (tn2 b) =? u32 (Z.of_nat (length x))) then Throw EStd
  else Val (mktab1 b x y)).

(** TabulationRecord/src/ctor.hpp:1-125 *)
Definition rd_pair_real : M (real * real) := a <- rd_real ;; b <- rd_real ;; ret (a, b).
(** TabulationRecord/src/print.hpp:1-50 *)
Definition pr_pair_real (p : real * real) : text := write_real (fst p) ++ write_real (snd p).
(** TabulationRecord.hpp:1-157 *)
Definition pair_real_is0 (p : real * real) : bool := ris0 (fst p) && ris0 (snd p).

(** TabulationRecord/src/ctor.hpp:66-125, TabulationRecord/src/readPairs.hpp:1-19 *)
Definition rd_tab1 (mat mf mt : Z) : M tab1 :=
  on_err
    (b <- rd_ibase mat mf mt ;;
     ps <- on_err (ps <- unzip rd_pair_real pair_real_is0 3 mat mf mt (Z.to_nat (tn2 b)) ;;
                   require (is_sorted rlt (map fst ps)) ;;; ret ps) h_std ;;
     ret (mktab1 b (map fst ps) (map snd ps)))
    h_tab.
(** TabulationRecord/src/print.hpp:11-50 *)
Definition pr_tab1 (t : tab1) (mat mf mt : Z) : text :=
  pr_tab2 (tbase t) mat mf mt
  ++ pr_zip pr_pair_real 22 3 mat mf mt (combine (tx t) (ty t)).
(** TabulationRecord.hpp:144-147 *)
Definition nc_tab1 (t : tab1) : Z := nc_tab2 (tbase t) + (tnp t + 2) / 3.

(** TabulationRecord.hpp:43-53: the index-th interpolation region as a pair of
    subranges of x and y; iterators outside the vector (or last before first)
    are undefined behaviour *)
Definition subrange {A} (l : list A) (left right : Z) : out (list A) :=
  if (0 <=? left) && (left <=? right) && (right <=? Z.of_nat (length l))
  then Val (firstn (Z.to_nat (right - left)) (skipn (Z.to_nat left) l))
  else Undef.
(** TabulationRecord.hpp:43-53 *)
Definition region (t : tab1) (i : nat) : out (list real * list real) :=
  match nth_error (tbnd (tbase t)) i with
  | None => Undef
  | Some rgt =>
      let lft := match i with O => 0 | S j => nth j (tbnd (tbase t)) 0 - 1 end in
      obind (subrange (tx t) lft rgt) (fun a =>
      obind (subrange (ty t) lft rgt) (fun b => Val (a, b)))
  end.
(** TabulationRecord.hpp:111-117 *)
Definition regions (t : tab1) : list (out (list real * list real)) :=
  map (region t) (seq 0 (length (tbnd (tbase t)))).

(** ** TAB2 + sequence of components *)

(** readSequence.hpp:21-40: [int size]; vector::reserve of a negative int
    throws std::length_error *)
Definition rd_sequence {C} (rdc : Z -> Z -> Z -> M C) (mat mf mt size : Z) : M (list C) :=
  let n := i32 size in
  require (negb (n <? 0)) ;;; rd_n (rdc mat mf mt) (Z.to_nat n).

(** InterpolationSequenceRecord.hpp:1-144 *)
Record iseq (C : Type) := mkiseq { istab : tab2; isrec : list C }.
Arguments mkiseq {C}. Arguments istab {C}. Arguments isrec {C}.

(** InterpolationSequenceRecord/src/ctor.hpp:15-22, InterpolationSequenceRecord/src/verifyNZ.hpp:1-20;
    [validate] is the overloaded validateSequence
    (InterpolationSequenceRecord.hpp:89-90) *)
Definition make_iseq {C} (validate : list C -> bool) (t : tab2) (l : list C) : out (iseq C) :=
  let nz := u32 (Z.of_nat (length l)) in
  if nz =? 0 then Throw EStd
  else if negb (u32 (tn2 t) =? nz) then Throw EStd
  else if negb (validate l) then Throw EStd
  else Val (mkiseq t l).
(** InterpolationSequenceRecord/src/readInterpolationSequenceRecord.hpp:9-23 *)
Definition rd_iseq {C} (validate : list C -> bool) (rdc : Z -> Z -> Z -> M C) (mat mf mt : Z)
  : M (iseq C) :=
  t <- rd_tab2 mat mf mt ;;
  l <- rd_sequence rdc mat mf mt (tn2 t) ;;
  lift (make_iseq validate t l).
(** InterpolationSequenceRecord/src/print.hpp:11-19 *)
Definition pr_iseq {C} (prc : C -> Z -> Z -> Z -> text) (q : iseq C) (mat mf mt : Z) : text :=
  pr_tab2 (istab q) mat mf mt ++ flat_map (fun c => prc c mat mf mt) (isrec q).
(** InterpolationSequenceRecord/src/NC.hpp:4-9 *)
Definition zsum (l : list Z) : Z := fold_right Z.add 0 l.
(** InterpolationSequenceRecord/src/NC.hpp:1-9 *)
Definition nc_iseq {C} (ncc : C -> Z) (q : iseq C) : Z :=
  nc_tab2 (istab q) + zsum (map ncc (isrec q)).

(** ** INTG *)
(** record/IntegerBase.hpp:1-52, record/IntegerBase/src/readIntegers.hpp:1-30 *)
Record intg := mkintg { gi : Z; gj : Z; gk : list Z }.
(** capacity N for NDIGIT, see
    section/32/151/CompactCorrelationMatrix/src/readMatrixElements.hpp:48-88 *)
Definition intg_cap (nd : nat) : nat :=
  match nd with 2 => 18 | 3 => 13 | 4 => 11 | 5 => 9 | 6 => 8 | _ => 0 end%nat.
(** leading blank / trailing gap (record/IntegerBase/src/readIntegers.hpp:7, 21-27) *)
Definition intg_lead (nd : nat) : nat := if (nd =? 6)%nat then 0 else 1.
(** record/IntegerBase.hpp:1-52, record/IntegerBase/src/readIntegers.hpp:1-30 *)
Definition intg_gap (nd : nat) : nat :=
  match nd with 2 => 1 | 5 => 1 | 3 => 3 | _ => 0 end%nat.

(** record/IntegerBase/src/ctor.hpp:8-12 *)
Definition make_intg (cap : nat) (i j : Z) (k : list Z) : out intg :=
  if (cap <? length k)%nat then Throw EStd else Val (mkintg i j k).

(** [it += n]: moving past the end of the buffer is undefined behaviour *)
(** record/IntegerBase.hpp:1-52, record/IntegerBase/src/readIntegers.hpp:1-30 *)
Definition advance (n : nat) : M unit :=
  fun s => if (n <=? length (buf s))%nat then Ok tt (mkst (skipn n (buf s)) (line s)) else UB.

(** record/IntegerBase/src/readIntegers.hpp:15-18 *)
Fixpoint strip0 (l : list Z) : list Z :=
  match l with
  | [] => []
  | a :: l' => match strip0 l' with
               | [] => if a =? 0 then [] else [a]
               | l'' => a :: l''
               end
  end.

(** record/IntegerBase/src/ctor.hpp:19-69.  verifyUnsigned only logs
    (record/IntegerBase/src/verifyUnsigned.hpp:1-12) and converts to unsigned int. *)
Definition rd_intg (nd cap : nat) (mat mf mt : Z) : M intg :=
  on_err
    (i <- rd_int 5 ;; j <- rd_int 5 ;;
     advance (intg_lead nd) ;;;
     ks <- rd_n (rd_int (nd + 1)) cap ;;
     advance (intg_gap nd) ;;;
     r <- lift (make_intg cap (u32 i) (u32 j) (strip0 ks)) ;;
     verify_tail mat mf mt ;;; ret r)
    h_nodec.
(** record/IntegerBase/src/print.hpp:11-42 *)
Definition pr_intg (nd cap : nat) (g : intg) (mat mf mt : Z) : text :=
  pr_int 5 (gi g) ++ pr_int 5 (gj g) ++ pr_col (intg_lead nd)
  ++ flat_map (pr_int (nd + 1)) (gk g)
  ++ pr_col (intg_gap nd) ++ pr_col ((nd + 1) * (cap - length (gk g)))
  ++ pr_tail mat mf mt.
