(** Sections.v -- the part common to all section classes: the HEAD checks, SEND,
    and the shape  HEAD / body / SEND.  Paths relative to /repo/src/ENDFtk. *)
From Verif Require Import Base Disco Records.
Open Scope Z_scope.

(** HeadRecord.hpp:40-43: static_cast<int>( std::round( C1 ) ), undefined
    behaviour when the value does not fit in an int *)
Definition head_za32 (h : sdiv) : out Z :=
  let z := round_int (c1 (sbase h)) in
  if (-2147483648 <=? z) && (z <? 2147483648) then Val z else Undef.

(** section/BaseWithoutMT/src/ctor.hpp:9-45 and section/Base/src/ctor.hpp:10-38.
    [wmt]: Base (checks MT) instead of BaseWithoutMT; [chk]: the constructor from
    a HEAD record (checks MAT and MF); section 1/455 uses the other one. *)
Definition sec_head (chk wmt : bool) (h : sdiv) (mat mf : Z) : M (Z * real) :=
  za <- lift (head_za32 h) ;;
  require (negb (za <? 1)) ;;;
  require (negb (rlt (c2 (sbase h)) rzero)) ;;;
  require (if wmt then negb (smt h <? 1) else true) ;;;
  require (if chk then (mat =? smat h) && (mf =? smf h) else true) ;;;
  ret (za, c2 (sbase h)).

(** section/BaseWithoutMT/src/readSEND.hpp:1-37 *)
Definition rd_SEND (mat mf : Z) : M unit :=
  d <- rd_sdiv ;; require (is_send d) ;;;
  require (mat =? smat d) ;;; require (mf =? smf d).

(** a section: ZA_, atomicWeightRatio_, the section number and the other fields *)
(** section/Base.hpp:1-40, section/BaseWithoutMT.hpp:1-64 *)
Record sect (B : Type) := mksect { s_za : Z; s_awr : real; s_mt : Z; s_body : B }.
Arguments mksect {B}. Arguments s_za {B}. Arguments s_awr {B}. Arguments s_mt {B}. Arguments s_body {B}.

(** what distinguishes the section classes:
    - k_mf: the MF number in the class name;
    - k_fix: the MT number if it is in the class name (sectionNumber());
    - k_own: records are read with that number rather than with head.MT();
    - k_chk: see sec_head;
    - k_hm: records are read with MAT of the HEAD instead of the MAT asked for
      (sections 14 and 2/152; also 3, 4, 23, 27, where the two were compared before);
    - k_read: reads the fields from the HEAD record and the text;
    - k_ints: L1, L2, N1, N2 of the printed HEAD record;
    - k_print, k_nc: prints / counts the lines of the fields; printing is given AWR (section 4
      repeats it in its second record);
    - k_for: the section numbers the reader accepts for the fields, if it restricts them. *)
(** not code: what differs between the section classes that derive from section/Base.hpp:1-40 *)
Record skind (B : Type) := mkskinda
  { k_mf : Z; k_fix : option Z; k_own : bool; k_chk : bool; k_hm : bool;
    k_read : sdiv -> Z -> Z -> Z -> M B;
    k_ints : B -> Z * Z * Z * Z;
    k_print : real -> B -> Z -> Z -> Z -> text;
    k_nc : B -> Z;
    k_for : option (Z -> B -> Prop) }.
Arguments mkskinda {B}. Arguments k_mf {B}. Arguments k_fix {B}. Arguments k_own {B}. Arguments k_chk {B}. Arguments k_hm {B}.
Arguments k_read {B}. Arguments k_ints {B}. Arguments k_print {B}. Arguments k_nc {B}. Arguments k_for {B}.

(** a class whose fields are printed without AWR *)
Notation mkskind mf fix_ own chk hm rd ints pr nc := (mkskinda mf fix_ own chk hm rd ints (fun _ => pr) nc None).

(** the section number of the object, and the one its records are read with *)
(** not code: what differs between the section classes that derive from section/Base.hpp:1-40 *)
Definition k_mt {B} (k : skind B) (h : sdiv) : Z := match k_fix k with Some n => n | None => smt h end.
(** not code: what differs between the section classes that derive from section/Base.hpp:1-40 *)
Definition k_rmt {B} (k : skind B) (h : sdiv) : Z := if k_own k then k_mt k h else smt h.

(** the material number its records are read with *)
(** not code: what differs between the section classes that derive from section/Base.hpp:1-40 *)
Definition k_rmat {B} (k : skind B) (h : sdiv) (mat : Z) : Z := if k_hm k then smat h else mat.

(** Type( head, begin, end, lineNumber, MAT ): base class, fields, readSEND *)
(** section/BaseWithoutMT/src/ctor.hpp:1-45, section/Base/src/ctor.hpp:1-38 *)
Definition rd_section {B} (k : skind B) (h : sdiv) (mat : Z) : M (sect B) :=
  '(za, awr) <- sec_head (k_chk k) (match k_fix k with None => true | _ => false end) h mat (k_mf k) ;;
  b <- k_read k h (k_rmat k h mat) (k_mf k) (k_rmt k h) ;;
  rd_SEND mat (k_mf k) ;;;
  ret (mksect za awr (k_mt k h) b).

(** print( it, MAT, MF ) *)
(** section/3/src/print.hpp:1-17, and print() of every section *)
Definition head_cont {B} (k : skind B) (x : sect B) : cont :=
  let '(a, b, c, d) := k_ints k (s_body x) in mkcont (of_int (s_za x)) (s_awr x) a b c d.
(** section/3/src/print.hpp:1-17, and print() of every section *)
Definition pr_section {B} (k : skind B) (x : sect B) (mat mf : Z) : pout :=
  Val (pr_cont (head_cont k x) mat mf (s_mt x) ++ k_print k (s_awr x) (s_body x) mat mf (s_mt x))
  +++ pr_SEND mat mf.
(** NC(): the lines without SEND *)
(** section/3.hpp:121, and the NC() of every section *)
Definition nc_section {B} (k : skind B) (x : sect B) : Z := 1 + k_nc k (s_body x).
(** HeadRecord( begin, end, lineNumber ) followed by the section constructor *)
(** tree/Section/src/parse.hpp:1-24 *)
Definition parse_section {B} (k : skind B) (mat : Z) : M (sect B) :=
  h <- rd_sdiv ;; rd_section k h mat.
(** the constructors that take ZA and AWR *)
(** section/3/src/ctor.hpp:1-78, and the constructors from parts of every section *)
Definition make_section {B} (wmt : bool) (za : Z) (awr : real) (mt : Z) (b : B) : out (sect B) :=
  if (za <? 1) || rlt awr rzero || (wmt && (mt <? 1)) then Throw EStd else Val (mksect za awr mt b).
