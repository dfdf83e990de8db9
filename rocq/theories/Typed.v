(** Typed.v -- typed files, materials and tapes: file::Type< MF >, Material, Tape.
    Paths relative to /repo/src/ENDFtk.

    The section classes are parameters here; Classes.v supplies them.  Loops
    ("while") take a fuel; the readers of files and materials use more fuel than
    the text has characters.  Running out of fuel is reported as UB, which here
    also stands for a loop that does not end. *)
From Verif Require Import Base Disco Records Sections Tree.
Open Scope Z_scope.

(** map.emplace( key, value ) for each element, std::exception if one is present:
    file/Base/src/fill.hpp:1-17, Material/src/fill.hpp:1-17 *)
Fixpoint fill_from {A} (key : A -> Z) (l : list A) (acc : list (Z * A)) : out (list (Z * A)) :=
  match l with
  | [] => Val acc
  | a :: l' => if mhas (key a) acc then Throw EStd else fill_from key l' (memplace (key a) a acc)
  end.
(** file/Base/src/fill.hpp:1-17 *)
Definition fill {A} (key : A -> Z) (l : list A) : out (list (Z * A)) := fill_from key l [].

(** while ( not stop( division ) ) { emplace_back( ... ); division = StructureDivision( ... ); }
    file/Base/src/read.hpp:9-13, Material/src/read.hpp:9-46, Tape/src/readMaterials.hpp:18-23 *)
Fixpoint div_loop {A} (stop : sdiv -> bool) (body : sdiv -> M A) (fuel : nat) (d : sdiv) : M (list A) :=
  match fuel with
  | O => undef
  | S f => if stop d then ret []
           else x <- body d ;; d' <- rd_sdiv ;; r <- div_loop stop body f d' ;; ret (x :: r)
  end.

(** file/NotImplementedYet.hpp:61-72: read lines until the MF number changes.
    The first line has been read already *)
Fixpoint skip_mf (mf : Z) (fuel : nat) (f : Z) : M unit :=
  match fuel with
  | O => undef
  | S n => if f =? mf then '(_, f', _) <- rd_skip ;; skip_mf mf n f' else ret tt
  end.
(** file/8/src/ctor.hpp:83-89: read lines until the MT number changes *)
Fixpoint skip_mt (mt : Z) (fuel : nat) (t : Z) : M unit :=
  match fuel with
  | O => undef
  | S n => if t =? mt then '(_, _, t') <- rd_skip ;; skip_mt mt n t' else ret tt
  end.
(** file/8/src/ctor.hpp:81-91 *)
Fixpoint skip_8 (fuel : nat) (d : sdiv) : M sdiv :=
  match fuel with
  | O => undef
  | S n => if smf d =? 8 then
             b <- get_pos ;; skip_mt (smt d) (S (S (length b))) (smt d) ;;;
             d' <- rd_sdiv ;; skip_8 n d'
           else ret d
  end.
(** file/Base/src/verifyFEND.hpp:1-34: throws for SEND, HEAD, MEND and TEND *)
Definition verify_fend (d : sdiv) : bool :=
  is_fend d || negb (is_send d || is_head d || is_mend d || is_tend d).
(** Material/src/read.hpp:11-43: the file numbers known to Material *)
Definition known_mf (mf : Z) : bool :=
  ((1 <=? mf) && (mf <=? 10)) || ((12 <=? mf) && (mf <=? 15)) || (mf =? 23)
  || ((26 <=? mf) && (mf <=? 28)) || ((30 <=? mf) && (mf <=? 35)) || (mf =? 40).

Section Classes.
  (** the section classes, and the one readSection uses for ( MF, MT ):
      file/Type/src/readSection.hpp:1-10, file/1/src/readSection.hpp:1-24,
      file/2, file/7, file/8, file/32 likewise *)
  Variable code : Type.
  Variable body : code -> Type.
  Variable kind : forall c, skind (body c).
  Variable class_of : Z -> Z -> option code.

  (** a section of any class *)
  (** file/Base.hpp:1-152 *)
  Definition ysec : Type := { c : code & sect (body c) }.
  (** file/Base.hpp:1-152 *)
  Definition y_mt (x : ysec) : Z := s_mt (projT2 x).
  (** file/Type/src/readSection.hpp:1-10 *)
  Definition rd_any (mf : Z) (d : sdiv) : M ysec :=
    match class_of mf (smt d) with
    | Some c => x <- Sections.rd_section (kind c) d (smat d) ;; ret (existT _ c x)
    | None => throw EStd
    end.
  (** file/Base/src/print.hpp:1-18 *)
  Definition pr_any (x : ysec) (mat mf : Z) : pout := pr_section (kind (projT1 x)) (projT2 x) mat mf.

  (** ** file::Type< MF >: file/Base.hpp:14-147 *)
  Record yfile := mkyfile { yf_mf : Z; yf_secs : list (Z * ysec) }.
  (** from a vector of sections: file/Base/src/ctor.hpp:14-15 *)
  Definition make_yfile (mf : Z) (l : list ysec) : out yfile :=
    obind (fill y_mt l) (fun m => Val (mkyfile mf m)).
  (** file/Base/src/ctor.hpp:27-36, file/Base/src/read.hpp:1-16.  At the end of the loop the
      division is a FEND, so verifyFEND does nothing. *)
  Definition rd_yfile_base (mf : Z) (d : sdiv) : M yfile :=
    on_err (b <- get_pos ;; l <- div_loop is_fend (rd_any mf) (S (S (length b))) d ;;
            m <- lift (fill y_mt l) ;; ret (mkyfile mf m)) h_std.
  (** file::Type< MF >( division, begin, end, lineNumber ): file 30
      (file/NotImplementedYet.hpp:56-73, no sections) and file 8
      (file/8/src/ctor.hpp:60-101: a file that does not begin with 454, 457 or 459
      is skipped) are special *)
  Definition rd_yfile (mf : Z) (d : sdiv) : M yfile :=
    if mf =? 30 then
      (if smf d =? 30 then b <- get_pos ;; skip_mf 30 (S (S (length b))) (smf d) else ret tt) ;;; ret (mkyfile 30 [])
    else if (mf =? 8) && negb ((smt d =? 454) || (smt d =? 457) || (smt d =? 459)) then
      on_err (b <- get_pos ;; d' <- skip_8 (S (S (length b))) d ;; require (verify_fend d') ;;; ret (mkyfile 8 [])) h_std
    else rd_yfile_base mf d.
  (** file/Base/src/print.hpp:9-18; file/NotImplementedYet.hpp:34-35 *)
  Definition pr_yfile (f : yfile) (mat : Z) : pout :=
    if yf_mf f =? 30 then Val []
    else oconcat (fun p => pr_any (snd p) mat (yf_mf f)) (yf_secs f) +++ pr_FEND mat.
  (** file/Base.hpp:99-143 *)
  Definition yfile_has (f : yfile) (mt : Z) : bool := mhas mt (yf_secs f).
  (** file/Base.hpp:119-133 *)
  Definition yfile_section (f : yfile) (mt : Z) : out ysec := at_ mt (yf_secs f).
  (** file/Base.hpp:45-48 *)
  Definition yfile_MTs (f : yfile) : list ysec := map snd (yf_secs f).

  (** ** Material: Material.hpp:38-307 *)
  Record ymat := mkymat { ym_mat : Z; ym_files : list (Z * yfile) }.
  (** Material/src/ctor.hpp:6-7 *)
  Definition make_ymat (mat : Z) (l : list yfile) : out ymat :=
    obind (fill yf_mf l) (fun m => Val (mkymat mat m)).
  (** Material/src/read.hpp:11-44 *)
  Definition rd_any_file (d : sdiv) : M yfile :=
    if known_mf (smf d) then rd_yfile (smf d) d else throw EStd.
  (** Material/src/ctor.hpp:16-49, Material/src/verifyMEND.hpp:1-11.  The MAT number is that of the
      first division; it is not compared with the others. *)
  Definition rd_ymat (d : sdiv) : M ymat :=
    on_err (b <- get_pos ;; l <- div_loop is_mend rd_any_file (S (S (length b))) d ;;
            m <- lift (fill yf_mf l) ;; ret (mkymat (smat d) m)) h_std.
  (** Material/src/print.hpp:8-17 *)
  Definition pr_ymat (m : ymat) : pout :=
    oconcat (fun p => pr_yfile (snd p) (ym_mat m)) (ym_files m) +++ Val (pr_sdiv MEND).
  (** Material.hpp:174-299; file 30 has no sections *)
  Definition ymat_hasMF (m : ymat) (mf : Z) : bool := mhas mf (ym_files m).
  (** Material.hpp:196-203 *)
  Definition ymat_hasMFMT (m : ymat) (mf mt : Z) : bool :=
    match mfind mf (ym_files m) with Some f => yfile_has f mt | None => false end.
  (** Material.hpp:219-233 *)
  Definition ymat_file (m : ymat) (mf : Z) : out yfile := at_ mf (ym_files m).
  (** Material.hpp:254-285 *)
  Definition ymat_section (m : ymat) (mf mt : Z) : out ysec :=
    obind (ymat_file m mf) (fun f => if yf_mf f =? 30 then Throw EStd else yfile_section f mt).

  (** ** Tape: Tape.hpp:20-121 *)
  Record ytape := mkytape { yt_id : tpid; yt_mats : list ymat }.
  (** Tape/src/ctor.hpp:6-10, Tape/src/verifySize.hpp:1-10; int size *)
  Definition make_ytape (i : tpid) (l : list ymat) : out ytape :=
    if i32 (Z.of_nat (length l)) =? 0 then Throw EStd else Val (mkytape i l).
  (** Tape/src/readMaterials.hpp:10-26 *)
  Definition not_tend (d : sdiv) : bool := smat d =? -1.
  (** Tape/src/ctor.hpp:1-52 *)
  Definition rd_ymats (fuel : nat) : M (list ymat) :=
    d <- rd_sdiv ;; div_loop not_tend rd_ymat fuel d.
  (** Tape/src/ctor.hpp:26-52 *)
  Definition rd_ytape : M ytape :=
    on_err (i <- rd_tpid ;; b <- get_pos ;; l <- rd_ymats (S (S (length b))) ;; lift (make_ytape i l)) h_std.
  (** Tape/src/print.hpp:1-7 *)
  Definition pr_ytape (t : ytape) : pout :=
    Val (pr_tpid (yt_id t) 0 0 0) +++ oconcat pr_ymat (yt_mats t) +++ Val (pr_sdiv TEND).
  (** Tape.hpp:81-113 *)
  Definition ytape_material (t : ytape) (mat : Z) : list ymat := filter (fun m => ym_mat m =? mat) (yt_mats t).
  (** Tape.hpp:102-105 *)
  Definition ytape_has (t : ytape) (mat : Z) : bool := (0 <? Z.of_nat (length (ytape_material t mat))).

  (** ** between the tree and the typed classes *)
  (** a division followed by the constructor: tree/File/src/parse.hpp:9-24,
      tree/Material/src/parse.hpp:6-20 *)
  Definition parse_yfile (mf : Z) : M yfile := d <- rd_sdiv ;; rd_yfile mf d.
  (** tree/Material/src/parse.hpp:1-23 *)
  Definition parse_ymat : M ymat := d <- rd_sdiv ;; rd_ymat d.
  (** not code: the outcome of a reading function *)
  Definition run {A} (m : M A) (t : text) (ln : Z) : out A :=
    match m (mkst t ln) with Ok a _ => Val a | Err e _ => Throw e | UB => Undef end.
  (** tree/File/src/parse.hpp:6-15 *)
  Definition file_parse (mf : Z) (f : tfile) : out yfile :=
    obind (file_content f) (fun t => run (parse_yfile mf) t 1).
  (** tree/Material/src/parse.hpp:1-23 *)
  Definition mat_parse (m : tmat) : out ymat :=
    obind (mat_content m) (fun t => run parse_ymat t 1).
  (** tree/toFile.hpp:19-36, tree/toMaterial.hpp:18-35 *)
  Definition res_out {A} (r : res A) : out A :=
    match r with Ok a _ => Val a | Err e _ => Throw e | UB => Undef end.
  (** tree/toFile.hpp:19-36 *)
  Definition to_file (f : yfile) (mat : Z) : out tfile :=
    obind (pr_yfile f mat) (fun t => res_out (index_file t)).
  (** tree/toMaterial.hpp:18-35 *)
  Definition to_mat (m : ymat) : out tmat := obind (pr_ymat m) (fun t => res_out (index_mat t)).
End Classes.
Arguments mkyfile {code body}. Arguments yf_mf {code body}. Arguments yf_secs {code body}.
Arguments mkymat {code body}. Arguments ym_mat {code body}. Arguments ym_files {code body}.
Arguments mkytape {code body}. Arguments yt_id {code body}. Arguments yt_mats {code body}.
Arguments y_mt {code body}. Arguments yfile_has {code body}. Arguments yfile_section {code body}. Arguments yfile_MTs {code body}.
Arguments make_yfile {code body}. Arguments make_ymat {code body}. Arguments make_ytape {code body}.
Arguments ymat_hasMF {code body}. Arguments ymat_hasMFMT {code body}. Arguments ymat_file {code body}. Arguments ymat_section {code body}.
Arguments ytape_material {code body}. Arguments ytape_has {code body}.
Arguments rd_any {code body}. Arguments pr_any {code body}. Arguments rd_yfile_base {code body}. Arguments rd_yfile {code body}.
Arguments pr_yfile {code body}. Arguments rd_any_file {code body}. Arguments rd_ymat {code body}. Arguments pr_ymat {code body}.
Arguments rd_ymats {code body}. Arguments rd_ytape {code body}. Arguments pr_ytape {code body}.
Arguments parse_yfile {code body}. Arguments parse_ymat {code body}. Arguments file_parse {code body}. Arguments mat_parse {code body}.
Arguments to_file {code body}. Arguments to_mat {code body}.
