(** Tree.v -- the syntax tree: tree::Section, tree::File, tree::Material,
    tree::Tape.  Paths are relative to /repo/src/ENDFtk/tree. *)
From Verif Require Import Base Disco Records.
Open Scope Z_scope.

(** ** std::map< int, T > and std::multimap< int, T >
    as lists of key-value pairs in iteration order *)
Section Maps.
  Context {A : Type}.
  (** not code: std::map and std::multimap as sorted lists, as used by tree/File.hpp:30-32, tree/Material.hpp:29-30, tree/Tape.hpp:38-39 *)
  Fixpoint mfind (k : Z) (l : list (Z * A)) : option A :=
    match l with
    | [] => None
    | (k', v) :: l' => if k =? k' then Some v else mfind k l'
    end.
  (** not code: std::map and std::multimap as sorted lists, as used by tree/File.hpp:30-32, tree/Material.hpp:29-30, tree/Tape.hpp:38-39 *)
  Definition mhas (k : Z) (l : list (Z * A)) : bool :=
    match mfind k l with Some _ => true | None => false end.
  (** std::map::emplace: nothing happens if the key is present *)
  (** not code: std::map and std::multimap as sorted lists, as used by tree/File.hpp:30-32, tree/Material.hpp:29-30, tree/Tape.hpp:38-39 *)
  Fixpoint memplace (k : Z) (v : A) (l : list (Z * A)) : list (Z * A) :=
    match l with
    | [] => [(k, v)]
    | (k', v') :: l' => if k <? k' then (k, v) :: l
                        else if k =? k' then l
                        else (k', v') :: memplace k v l'
    end.
  (** map::erase( find( k ) ), multimap::erase( k ) *)
  (** not code: std::map and std::multimap as sorted lists, as used by tree/File.hpp:30-32, tree/Material.hpp:29-30, tree/Tape.hpp:38-39 *)
  Definition mrem (k : Z) (l : list (Z * A)) : list (Z * A) :=
    filter (fun p => negb (fst p =? k)) l.
  (** std::multimap::emplace: after the elements with an equal key *)
  (** not code: std::map and std::multimap as sorted lists, as used by tree/File.hpp:30-32, tree/Material.hpp:29-30, tree/Tape.hpp:38-39 *)
  Fixpoint mmput (k : Z) (v : A) (l : list (Z * A)) : list (Z * A) :=
    match l with
    | [] => [(k, v)]
    | (k', v') :: l' => if k <? k' then (k, v) :: l else (k', v') :: mmput k v l'
    end.
  (** multimap::equal_range *)
  (** not code: std::map and std::multimap as sorted lists, as used by tree/File.hpp:30-32, tree/Material.hpp:29-30, tree/Tape.hpp:38-39 *)
  Definition mmrange (k : Z) (l : list (Z * A)) : list A :=
    map snd (filter (fun p => fst p =? k) l).
  (** modification of the value stored under k (through the reference at( k )) *)
  (** not code: std::map and std::multimap as sorted lists, as used by tree/File.hpp:30-32, tree/Material.hpp:29-30, tree/Tape.hpp:38-39 *)
  Fixpoint mupd (k : Z) (f : A -> A) (l : list (Z * A)) : list (Z * A) :=
    match l with
    | [] => []
    | (k', v) :: l' => if k =? k' then (k', f v) :: l' else (k', v) :: mupd k f l'
    end.
End Maps.

(** ** The classes *)
Record tsec := mktsec { ts_mat : Z; ts_mf : Z; ts_mt : Z; ts_text : text }.  (* tree/Section.hpp:26-29 *)
Record tfile := mktfile { tf_mat : Z; tf_mf : Z; tf_secs : list (Z * tsec) }. (* tree/File.hpp:30-32 *)
Record tmat := mktmat { tm_mat : Z; tm_files : list (Z * tfile) }.           (* tree/Material.hpp:29-30 *)
Record ttape := mkttape { tt_tpid : option tpid; tt_mats : list (Z * tmat) }. (* tree/Tape.hpp:38-39 *)

(** ** Reading positions: the text from [position] to [end] *)
(** not code: iterators into the text, as in tree/Section/src/findEnd.hpp:1-15 *)
Definition get_pos : M text := fun s => Ok (buf s) s.
(** not code: iterators into the text, as in tree/Section/src/findEnd.hpp:1-15 *)
Definition set_pos (b : text) : M unit := fun s => Ok tt (mkst b (line s)).
(** position >= end *)
(** not code: iterators into the text, as in tree/Section/src/findEnd.hpp:1-15 *)
Definition at_end : M bool := fun s => Ok (match buf s with [] => true | _ => false end) s.

(** tree/Section/src/findEnd.hpp:1-15.  The fuel stands for "while"; it is the length
    of the text, and running out of it is reported as UB. *)
Fixpoint find_end (fuel : nat) : M unit :=
  match fuel with
  | O => undef
  | S f => '(_, _, t) <- rd_skip ;;
           if t =? 0 then ret tt
           else e <- at_end ;; if e then throw EStd else find_end f
  end.
(** std::string( begin, position ) *)
(** not code: iterators into the text, as in tree/Section/src/findEnd.hpp:1-15 *)
Definition upto (b p : text) : text := firstn (length b - length p) b.
(** tree/Section/src/ctor.hpp:1-37 *)
Definition rd_section (head : sdiv) (begin : text) : M tsec :=
  on_err (b <- get_pos ;; find_end (S (length b)) ;;; p <- get_pos ;;
          ret (mktsec (smat head) (smf head) (smt head) (upto begin p))) h_std.

(** the inner while of tree/File/src/createMap.hpp:44-53, tree/Material/src/createMap.hpp:44-53
    and tree/Tape/src/createMap.hpp:22-30: skip redundant end records *)
Fixpoint skip_divs (isend : sdiv -> bool) (fuel : nat) (begin : text) (d : sdiv)
  : M (text * sdiv) :=
  match fuel with
  | O => undef
  | S f => if isend d
           then b <- get_pos ;; d' <- rd_sdiv ;; e <- at_end ;;
                if e then ret (b, d') else skip_divs isend f b d'
           else ret (begin, d)
  end.
(** "division = StructureDivision( position, ... ); while ..." *)
(** tree/File/src/createMap.hpp:44-53 *)
Definition next_div (isend : sdiv -> bool) : M (text * sdiv) :=
  b <- get_pos ;; d <- rd_sdiv ;; skip_divs isend (S (length b)) b d.

(** tree/File/src/createMap.hpp:20-64 and tree/Material/src/createMap.hpp:20-64, which only
    differ in the element class, the key, the loop condition and the end records *)
Section Level.
  Context {X : Type}.
  Variable inner : sdiv -> text -> M X.   (* constructor of the element *)
  Variable key : sdiv -> Z.               (* MT or MF *)
  Variable same : sdiv -> bool.           (* loop condition *)
  Variable isend : sdiv -> bool.          (* isSend or isFend *)
  Variable closing : sdiv -> bool.        (* isFend or isMend *)
  (** tree/File/src/createMap.hpp:20-64, tree/Material/src/createMap.hpp:20-64 *)
  Fixpoint level_loop (fuel : nat) (begin : text) (d : sdiv) (acc : list (Z * X))
    : M (list (Z * X)) :=
    match fuel with
    | O => undef
    | S f =>
      if same d then
        require (negb (mhas (key d) acc)) ;;;
        x <- inner d begin ;;
        e <- at_end ;; require (negb e) ;;;
        '(b, d') <- next_div isend ;;
        level_loop f b d' (memplace (key d) x acc)
      else if closing d then ret acc
      else set_pos begin ;;; ret acc
    end.
  (** tree/File/src/createMap.hpp:12-19: --lineNumber; position = begin; ... *)
  Definition rd_level (begin : text) : M (list (Z * X)) :=
    dec_line ;;; set_pos begin ;;; d <- rd_sdiv ;;
    level_loop (S (length begin)) begin d [].
End Level.

(** tree/File/src/ctor.hpp:20-30 *)
Definition rd_file (head : sdiv) (begin : text) : M tfile :=
  on_err (l <- rd_level rd_section smt (fun d => is_head d && (smf d =? smf head))
                        is_send is_fend begin ;;
          ret (mktfile (smat head) (smf head) l)) h_std.
(** tree/Material/src/ctor.hpp:19-29 *)
Definition rd_mat (head : sdiv) (begin : text) : M tmat :=
  on_err (l <- rd_level rd_file smf (fun d => is_head d && (smat d =? smat head))
                        is_fend is_mend begin ;;
          ret (mktmat (smat head) l)) h_std.

(** tree/Tape/src/createMap.hpp:1-38 *)
Fixpoint tape_loop (fuel : nat) (begin : text) (d : sdiv) (acc : list (Z * tmat))
  : M (list (Z * tmat)) :=
  match fuel with
  | O => undef
  | S f =>
    if is_head d then
      x <- rd_mat d begin ;;
      '(b, d') <- next_div is_mend ;;
      tape_loop f b d' (mmput (smat d) x acc)
    else require (is_tend d) ;;; ret acc
  end.
(** tree/Tape/src/ctor.hpp:10-27.  (The position is passed by value: what follows TEND
    is not looked at.) *)
Definition rd_tape : M ttape :=
  on_err (t <- rd_tpid ;; b <- get_pos ;; d <- rd_sdiv ;;
          l <- tape_loop (S (length b)) b d [] ;;
          ret (mkttape (Some t) l)) h_std.
(** tree/Tape/src/ctor.hpp:1-27 *)
Definition index_tape (t : text) : res ttape := rd_tape (mkst t 0).
(** a File / Material / Section made from the beginning of a text, as in
    tree/toFile.hpp:20-36, tree/toMaterial.hpp:18-35 *)
Definition index_file (t : text) : res tfile := (h <- rd_sdiv ;; rd_file h t) (mkst t 0).
(** tree/toMaterial.hpp:18-35 *)
Definition index_mat (t : text) : res tmat := (h <- rd_sdiv ;; rd_mat h t) (mkst t 0).
(** tree/toSection.hpp:1-33 *)
Definition index_sec (t : text) : res tsec := (h <- rd_sdiv ;; rd_section h t) (mkst t 0).

(** ** content() *)
(** tree/File.hpp:163-176, tree/Material.hpp:207-221 *)
Definition oconcat {A} (f : A -> pout) (l : list A) : pout :=
  fold_right (fun x r => f x +++ r) (Val []) l.
(** "if ( content.size() )" *)
(** tree/File.hpp:163-176, tree/Material.hpp:207-221 *)
Definition close (body : pout) (fin : pout) : pout :=
  obind body (fun c => match c with [] => Val [] | _ => obind fin (fun e => Val (c ++ e)) end).
(** tree/File.hpp:163-176 *)
Definition file_content (f : tfile) : pout :=
  close (Val (flat_map (fun p => ts_text (snd p)) (tf_secs f))) (pr_FEND (tf_mat f)).
(** tree/Material.hpp:207-221 *)
Definition mat_content (m : tmat) : pout :=
  close (oconcat (fun p => file_content (snd p)) (tm_files m)) (Val (pr_sdiv MEND)).
(** tree/Tape.hpp:159-178: the TPID is printed with MAT = MF = MT = 0 *)
Definition tape_content (t : ttape) : pout :=
  close (Val (match tt_tpid t with Some i => pr_tpid i 0 0 0 | None => [] end)
         +++ oconcat (fun p => mat_content (snd p)) (tt_mats t)) (Val (pr_sdiv TEND)).

(** ** Lookups *)
(** tree/Section.hpp:79-83: unsigned int *)
Definition count_nl (t : text) : Z := Z.of_nat (length (filter (Ascii.eqb LF) t)).
(** tree/Section.hpp:79-83 *)
Definition sec_NC (s : tsec) : Z := u32 (count_nl (ts_text s) - 1).
(** tree/File/src/section.hpp:8-19; std::map::at *)
Definition at_ {A} (k : Z) (l : list (Z * A)) : out A :=
  match mfind k l with Some v => Val v | None => Throw EOor end.
(** tree/File/src/section.hpp:6-19 *)
Definition file_section (f : tfile) (mt : Z) : out tsec := at_ mt (tf_secs f).
Definition file_has (f : tfile) (mt : Z) : bool := mhas mt (tf_secs f).         (* tree/File.hpp:94-97 *)
Definition mat_file (m : tmat) (mf : Z) : out tfile := at_ mf (tm_files m).     (* tree/Material/src/file.hpp:1-33 *)
Definition mat_section (m : tmat) (mf mt : Z) : out tsec :=                     (* tree/Material.hpp:82-85 *)
  obind (mat_file m mf) (fun f => file_section f mt).
Definition mat_hasMF (m : tmat) (mf : Z) : bool := mhas mf (tm_files m).        (* tree/Material.hpp:126 *)
Definition mat_hasMFMT (m : tmat) (mf mt : Z) : bool :=                         (* tree/Material.hpp:143-146 *)
  match mfind mf (tm_files m) with Some f => file_has f mt | None => false end.
(** tree/Material.hpp:55-58 *)
Definition file_numbers (m : tmat) : list Z := map fst (tm_files m).
(** tree/File.hpp:67-70 *)
Definition section_numbers (f : tfile) : list Z := map fst (tf_secs f).
(** tree/Tape.hpp:80-82, 99-101; tree/Tape/src/material.hpp:8-22 *)
Definition tape_number (t : ttape) (mat : Z) : Z := Z.of_nat (length (mmrange mat (tt_mats t))).
(** tree/Tape.hpp:99-102 *)
Definition tape_has (t : ttape) (mat : Z) : bool := negb (tape_number t mat =? 0).
(** tree/Tape/src/material.hpp:10-24 *)
Definition tape_material (t : ttape) (mat : Z) : out (list tmat) :=
  if tape_has t mat then Val (mmrange mat (tt_mats t)) else Throw EOor.
(** tree/Tape.hpp:190-195: keys, sorted, unique *)
Fixpoint unique (l : list Z) : list Z :=
  match l with
  | a :: (b :: _) as l' => if a =? b then unique l' else a :: unique l'
  | _ => l
  end.
(** tree/Tape.hpp:190-195 *)
Definition material_numbers (t : ttape) : list Z := unique (map fst (tt_mats t)).

(** ** Edits: the object afterwards and the exception, if one is thrown *)
(** not code: the object after an edit and the exception, if any *)
Definition edit (A : Type) := A -> A * option exn.

(** tree/File/src/remove.hpp:6-12 *)
Definition file_remove (mt : Z) (f : tfile) : tfile :=
  mktfile (tf_mat f) (tf_mf f) (mrem mt (tf_secs f)).
(** tree/File/src/insertOrReplace.hpp:10-24 *)
Definition file_put (s : tsec) : edit tfile := fun f =>
  if negb (tf_mat f =? ts_mat s) || negb (tf_mf f =? ts_mf s) then (f, Some EStd)
  else (mktfile (tf_mat f) (tf_mf f) (memplace (ts_mt s) s (mrem (ts_mt s) (tf_secs f))), None).
(** tree/File/src/insert.hpp:10-25 *)
Definition file_insert (s : tsec) : edit tfile := fun f =>
  if file_has f (ts_mt s) then (f, Some EStd) else file_put s f.

(** this->MF( mf ).edit( ... ) *)
(** tree/Material/src/insert.hpp:1-83, tree/Material/src/file.hpp:1-33 *)
Definition in_file (mf : Z) (e : edit tfile) : edit tmat := fun m =>
  match mfind mf (tm_files m) with
  | None => (m, Some EOor)
  | Some f => let (f', x) := e f in
              (mktmat (tm_mat m) (mupd mf (fun _ => f') (tm_files m)), x)
  end.
(** "if ( !this->hasMF( mf ) ) files_.emplace( mf, File( MAT, mf ) )" *)
(** tree/Material/src/insertOrReplace.hpp:1-80 *)
Definition ensure_file (mf : Z) (m : tmat) : tmat :=
  if mat_hasMF m mf then m
  else mktmat (tm_mat m) (memplace mf (mktfile (tm_mat m) mf []) (tm_files m)).
(** tree/Material/src/insert.hpp:10-20, tree/Material/src/insertOrReplace.hpp:10-18 *)
Definition mat_insert_sec (s : tsec) : edit tmat := fun m =>
  in_file (ts_mf s) (file_insert s) (ensure_file (ts_mf s) m).
(** tree/Material/src/insertOrReplace.hpp:1-80 *)
Definition mat_put_sec (s : tsec) : edit tmat := fun m =>
  in_file (ts_mf s) (file_put s) (ensure_file (ts_mf s) m).
(** tree/Material/src/remove.hpp:6-28 *)
Definition mat_remove (mf : Z) (m : tmat) : tmat := mktmat (tm_mat m) (mrem mf (tm_files m)).
(** tree/Material/src/remove.hpp:1-28 *)
Definition mat_remove_sec (mf mt : Z) (m : tmat) : tmat :=
  mktmat (tm_mat m) (mupd mf (file_remove mt) (tm_files m)).
(** tree/Material/src/insertOrReplace.hpp:42-58, tree/Material/src/insert.hpp:45-62 *)
Definition mat_put_file (f : tfile) : edit tmat := fun m =>
  if negb (tm_mat m =? tf_mat f) then (m, Some EStd)
  else (mktmat (tm_mat m) (memplace (tf_mf f) f (mrem (tf_mf f) (tm_files m))), None).
(** tree/Material/src/insert.hpp:1-83 *)
Definition mat_insert_file (f : tfile) : edit tmat := fun m =>
  if mat_hasMF m (tf_mf f) then (m, Some EStd) else mat_put_file f m.

(** tree/Tape/src/insert.hpp:10-13, tree/Tape/src/remove.hpp:6-9, tree/Tape/src/replace.hpp:10-14 *)
Definition tape_insert (m : tmat) (t : ttape) : ttape :=
  mkttape (tt_tpid t) (mmput (tm_mat m) m (tt_mats t)).
(** tree/Tape/src/remove.hpp:6-9 *)
Definition tape_remove (mat : Z) (t : ttape) : ttape :=
  mkttape (tt_tpid t) (mrem mat (tt_mats t)).
(** tree/Tape/src/replace.hpp:10-14 *)
Definition tape_replace (m : tmat) (t : ttape) : ttape :=
  tape_insert m (tape_remove (tm_mat m) t).

(** ** clean() *)
(** the while loop of tree/Section/src/clean.hpp:17-21; [acc] is content_ *)
Fixpoint clean_lines (n : nat) (mat mf mt : Z) (acc : text) (s : st) : text * option exn :=
  match n with
  | O => (acc, None)
  | S n' => match rd_text mat mf mt s with
            | Ok t s' => clean_lines n' mat mf mt (acc ++ pr_text t mat mf mt) s'
            | Err e _ => (acc, Some e)
            | UB => (acc, Some EStd) (* does not happen: only_std_text *)
            end
  end.
(** tree/Section/src/clean.hpp:6-23; int NC = this->NC() *)
Definition sec_clean : edit tsec := fun s =>
  let n := Z.to_nat (i32 (sec_NC s)) in
  let (acc, x) := clean_lines n (ts_mat s) (ts_mf s) (ts_mt s) [] (mkst (ts_text s) 0) in
  match x with
  | Some e => (mktsec (ts_mat s) (ts_mf s) (ts_mt s) acc, Some e)
  | None => match pr_SEND (ts_mat s) (ts_mf s) with
            | Val e => (mktsec (ts_mat s) (ts_mf s) (ts_mt s) (acc ++ e), None)
            | Throw e => (mktsec (ts_mat s) (ts_mf s) (ts_mt s) acc, Some e)
            | Undef => (s, None) (* does not happen: C15_constructors *)
            end
  end.
(** for ( auto& x : values ) x.clean(): stops at the first exception *)
(** tree/File/src/clean.hpp:1-12, tree/Material/src/clean.hpp:1-12, tree/Tape/src/clean.hpp:1-12 *)
Fixpoint clean_all {A} (c : edit A) (l : list (Z * A)) : list (Z * A) * option exn :=
  match l with
  | [] => ([], None)
  | (k, a) :: l' => let (a', x) := c a in
                    match x with
                    | Some e => ((k, a') :: l', Some e)
                    | None => let (l'', y) := clean_all c l' in ((k, a') :: l'', y)
                    end
  end.
(** tree/File/src/clean.hpp:6-12, tree/Material/src/clean.hpp:6-12, tree/Tape/src/clean.hpp:6-12 *)
Definition file_clean : edit tfile := fun f =>
  let (l, x) := clean_all sec_clean (tf_secs f) in (mktfile (tf_mat f) (tf_mf f) l, x).
(** tree/Material/src/clean.hpp:1-12 *)
Definition mat_clean : edit tmat := fun m =>
  let (l, x) := clean_all file_clean (tm_files m) in (mktmat (tm_mat m) l, x).
(** tree/Tape/src/clean.hpp:1-12 *)
Definition tape_clean : edit ttape := fun t =>
  let (l, x) := clean_all mat_clean (tt_mats t) in (mkttape (tt_tpid t) l, x).
