(** Sec451.v -- section 1/451 (descriptive data and directory) and the update of
    the directory in a syntax tree.  Paths relative to /repo/src/ENDFtk. *)
From Verif Require Import Base Disco Records Sections Tree.
Open Scope Z_scope.

(** section/1/451.hpp:29-36 *)
Record descr := mkdescr
  { d_lrp : Z; d_lfi : Z; d_nlib : Z; d_nmod : Z;
    d_c0 : cont; d_c1 : cont; d_c2 : cont;       (* parameters_ *)
    d_text : list text; d_index : list dir }.
(** section/1/451/src/ctor.hpp:98-103 and section/1/451/src/readParameters.hpp:1-18; head.L1() and so
    on are stored in an int.  The MAT, MF = 1 and MT = 451 arguments are supplied
    by rd_section (k_mf, k_fix, k_own). *)
Definition rd_descr (h : sdiv) (mat mf mt : Z) : M descr :=
  c0 <- rd_cont mat mf mt ;; c1 <- rd_cont mat mf mt ;; c2 <- rd_cont mat mf mt ;;
  require (negb (n1 c2 <? 0)) ;;;
  require (negb (n2 c2 <? 1)) ;;;
  t <- rd_sequence rd_text mat mf mt (n1 c2) ;;
  x <- rd_sequence rd_dir mat mf mt (n2 c2) ;;
  ret (mkdescr (i32 (l1 (sbase h))) (i32 (l2 (sbase h))) (i32 (n1 (sbase h))) (i32 (n2 (sbase h)))
               c0 c1 c2 t x).
(** section/1/451/src/print.hpp:10-20 *)
Definition pr_descr (b : descr) (mat mf mt : Z) : text :=
  pr_cont (d_c0 b) mat mf mt ++ pr_cont (d_c1 b) mat mf mt ++ pr_cont (d_c2 b) mat mf mt
  ++ flat_map (fun t => pr_text t mat mf mt) (d_text b)
  ++ flat_map (fun d => pr_dir d mat mf mt) (d_index b).
(** section/1/451.hpp:229-246: NWD, NXC, NC.  (4 + NWD + NXC is an int sum; its overflow is
    not modelled.) *)
Definition NWD (b : descr) : Z := i32 (Z.of_nat (length (d_text b))).
(** section/1/451.hpp:238 *)
Definition NXC (b : descr) : Z := i32 (Z.of_nat (length (d_index b))).
(** the lines after the HEAD: NC() - 1 *)
(** section/1/451.hpp:251 *)
Definition nc_descr (b : descr) : Z := 3 + NWD b + NXC b.
(** section/1/451.hpp:1-272 *)
Definition sec_451 : skind descr :=
  mkskind 1 (Some 451) true true false rd_descr
    (fun b => (d_lrp b, d_lfi b, d_nlib b, d_nmod b)) pr_descr nc_descr.

(** ** the constructor from a string *)
(** ranges::views::split( description, '\n' ): no piece after a final newline (as
    section/1/451/test (451.test) shows), none for the empty string *)
(** section/1/451/src/makeDescription.hpp:1-11 *)
Fixpoint split_lines (t : text) : list text :=
  match t with
  | [] => []
  | c :: t' => if Ascii.eqb LF c then [] :: split_lines t'
               else match split_lines t' with [] => [[c]] | l :: r => (c :: l) :: r end
  end.
(** section/1/451/src/ctor.hpp:54-82, section/1/451/src/makeParameters.hpp:1-10, section/1/451/src/makeDescription.hpp:1-11;
    nwd and nxc are converted to int *)
Definition make_descr (lrp lfi nlib nmod : Z) (elis sta : real) (lis liso nfor : Z)
    (awi emax : real) (lrel nsub nver : Z) (temp rtol : real) (ldrv : Z)
    (description : text) (index : list dir) : descr :=
  let ts := split_lines description in
  mkdescr lrp lfi nlib nmod
    (mkcont elis sta lis liso 0 nfor) (mkcont awi emax lrel 0 nsub nver)
    (mkcont temp rtol ldrv 0 (i32 (Z.of_nat (length ts))) (i32 (Z.of_nat (length index))))
    ts index.
(** section/1/451/src/description.hpp:4-13: the lines joined by '\n', then '\n' *)
Fixpoint join_lines (l : list text) : text :=
  match l with [] => [] | [t] => t | t :: l' => t ++ LF :: join_lines l' end.
(** section/1/451/src/description.hpp:4-14 *)
Definition description (b : descr) : text := join_lines (d_text b) ++ [LF].

(** ** tree/toSection.hpp:20-29 and tree/Section/src/parse.hpp:9-24 *)
Definition to_section {B} (k : skind B) (x : sect B) (mat : Z) : out tsec :=
  obind (pr_section k x mat (k_mf k)) (fun t => Val (mktsec mat (k_mf k) (s_mt x) t)).
(** the MAT number is that of the HEAD record *)
(** tree/Section/src/parse.hpp:1-24 *)
Definition rd_parse {B} (k : skind B) : M (sect B) :=
  h <- rd_sdiv ;; Sections.rd_section k h (smat h).
(** tree/Section/src/parse.hpp:1-24 *)
Definition sec_parse {B} (k : skind B) (s : tsec) : out (sect B) :=
  match rd_parse k (mkst (ts_text s) 1) with
  | Ok x _ => Val x | Err e _ => Throw e | UB => Undef
  end.

(** ** tree/updateDirectory.hpp:22-88 *)
(** std::find_if( begin, end, ... ): the entries from the found one on *)
(** tree/updateDirectory.hpp:22-88 *)
Fixpoint find_entry (mf mt : Z) (l : list dir) : option (dir * list dir) :=
  match l with
  | [] => None
  | d :: l' => if (dmf d =? mf) && (dmt d =? mt) then Some (d, l) else find_entry mf mt l'
  end.
(** lines 49-74: the entries for the sections of one file *)
(** tree/updateDirectory.hpp:22-88 *)
Fixpoint dir_entries (copy : bool) (begin : list dir) (secs : list (Z * tsec)) : list dir :=
  match secs with
  | [] => []
  | (_, s) :: r =>
      let '(md, b') :=
        if copy then match find_entry (ts_mf s) (ts_mt s) begin with
                     | Some (d, l) => (dmod d, l) | None => (0, begin) end
        else (0, begin) in
      mkdir (ts_mf s) (ts_mt s) (sec_NC s) md :: dir_entries copy b' r
  end.
(** lines 45-75 *)
(** tree/updateDirectory.hpp:22-88 *)
Definition new_index (copy : bool) (old : list dir) (m : tmat) : list dir :=
  flat_map (fun p => dir_entries copy old (tf_secs (snd p))) (tm_files m).
(** line 78; index[0] of an empty vector is undefined behaviour *)
(** tree/updateDirectory.hpp:22-88 *)
Definition own_entry (nwd : Z) (idx : list dir) : out (list dir) :=
  match idx with
  | [] => Undef
  | d :: r => Val (mkdir 1 451 (4 + nwd + Z.of_nat (length idx)) (dmod d) :: r)
  end.
(** lines 81-88; the getters LIS() and so on return an int *)
(** tree/updateDirectory.hpp:22-88 *)
Definition rebuild (o : sect descr) (idx : list dir) : out (sect descr) :=
  let b := s_body o in
  make_section false (s_za o) (s_awr o) 451
    (make_descr (d_lrp b) (d_lfi b) (d_nlib b) (d_nmod b)
       (c1 (d_c0 b)) (c2 (d_c0 b)) (i32 (l1 (d_c0 b))) (i32 (l2 (d_c0 b))) (i32 (n2 (d_c0 b)))
       (c1 (d_c1 b)) (c2 (d_c1 b)) (i32 (l1 (d_c1 b))) (i32 (n1 (d_c1 b))) (i32 (n2 (d_c1 b)))
       (c1 (d_c2 b)) (c2 (d_c2 b)) (i32 (l1 (d_c2 b)))
       (description b) idx).
(** the new section of the material *)
(** tree/updateDirectory.hpp:22-88 *)
Definition directory_section (copy : bool) (m : tmat) : out tsec :=
  if negb (mat_hasMF m 1) then Throw EStd else
  obind (mat_file m 1) (fun f =>
  if negb (file_has f 451) then Throw EStd else
  obind (file_section f 451) (fun s =>
  obind (sec_parse sec_451 s) (fun old =>
  obind (own_entry (NWD (s_body old)) (new_index copy (d_index (s_body old)) m)) (fun idx =>
  obind (rebuild old idx) (fun x => to_section sec_451 x (tm_mat m)))))).
(** updateDirectory( Material&, bool ): the material afterwards and the exception;
    nothing is changed before insertOrReplace *)
(** tree/updateDirectory.hpp:22-88 *)
Definition update_directory (copy : bool) (m : tmat) : out (tmat * option exn) :=
  match directory_section copy m with
  | Val s => Val (mat_put_sec s m)
  | Throw e => Val (m, Some e)
  | Undef => Undef
  end.
(** updateDirectory( Tape&, bool ), lines 103-109 *)
(** tree/updateDirectory.hpp:22-88 *)
Fixpoint update_all (copy : bool) (l : list (Z * tmat)) : out (list (Z * tmat) * option exn) :=
  match l with
  | [] => Val ([], None)
  | (k, m) :: l' =>
      obind (update_directory copy m) (fun '(m', x) =>
        match x with
        | Some e => Val ((k, m') :: l', Some e)
        | None => obind (update_all copy l') (fun '(l'', y) => Val ((k, m') :: l'', y))
        end)
  end.
(** tree/updateDirectory.hpp:22-88 *)
Definition update_tape (copy : bool) (T : ttape) : out (ttape * option exn) :=
  obind (update_all copy (tt_mats T)) (fun '(l, x) => Val (mkttape (tt_tpid T) l, x)).
