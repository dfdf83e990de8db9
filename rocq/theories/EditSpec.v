(** EditSpec.v -- what a user may expect from the edits of a tree, stated on
    finite maps.  Nothing here depends on how the edits are implemented. *)
From Verif Require Import Base Disco Records Tree Nested.
Open Scope Z_scope.

(** A material as seen through its lookups: its number, the files it has, and the
    section found under each (MF, MT). *)
Record view := mkview { v_mat : Z; v_has : Z -> bool; v_sec : Z -> Z -> option tsec }.
Definition set1 {A} (f : Z -> A) (k : Z) (a : A) : Z -> A := fun x => if x =? k then a else f x.
Definition set2 {A} (f : Z -> Z -> A) (k j : Z) (a : A) : Z -> Z -> A :=
  fun x y => if (x =? k) && (y =? j) then a else f x y.
(** the view [v] is what the lookups of the material [m] show *)
Definition shows (m : tmat) (v : view) : Prop :=
  tm_mat m = v_mat v
  /\ (forall mf, mat_hasMF m mf = v_has v mf)
  /\ (forall mf mt, mat_hasMFMT m mf mt = match v_sec v mf mt with Some _ => true | None => false end)
  /\ (forall mf mt, mat_section m mf mt = match v_sec v mf mt with Some s => Val s | None => Throw EOor end).

(** the edits of a Material: sections and files inserted, inserted-or-replaced,
    removed; and the edits of one of its files through MF( mf ) *)
Inductive mop :=
| InsertSection (s : tsec) | PutSection (s : tsec)
| InsertFile (f : tfile) | PutFile (f : tfile)
| RemoveFile (mf : Z) | RemoveSection (mf mt : Z)
| InFileInsert (mf : Z) (s : tsec) | InFilePut (mf : Z) (s : tsec) | InFileRemove (mf mt : Z).

(** what the program does *)
Definition mop_run (o : mop) : edit tmat :=
  match o with
  | InsertSection s => mat_insert_sec s
  | PutSection s => mat_put_sec s
  | InsertFile f => mat_insert_file f
  | PutFile f => mat_put_file f
  | RemoveFile mf => fun m => (mat_remove mf m, None)
  | RemoveSection mf mt => fun m => (mat_remove_sec mf mt m, None)
  | InFileInsert mf s => in_file mf (file_insert s)
  | InFilePut mf s => in_file mf (file_put s)
  | InFileRemove mf mt => in_file mf (fun f => (file_remove mt f, None))
  end.
(** what is expected: the view afterwards and the exception *)
Definition put_section (s : tsec) (v : view) : view :=
  mkview (v_mat v) (set1 (v_has v) (ts_mf s) true) (set2 (v_sec v) (ts_mf s) (ts_mt s) (Some s)).
Definition file_view (f : tfile) (mt : Z) : option tsec :=
  match file_section f mt with Val s => Some s | _ => None end.
Definition put_file (f : tfile) (v : view) : view :=
  mkview (v_mat v) (set1 (v_has v) (tf_mf f) true) (set1 (v_sec v) (tf_mf f) (file_view f)).
Definition mop_spec (o : mop) (v : view) : view * option exn :=
  match o with
  | InsertSection s | PutSection s =>
      if negb (ts_mat s =? v_mat v)
      (* rejected, but an empty file with this number is there afterwards *)
      then (mkview (v_mat v) (set1 (v_has v) (ts_mf s) true) (v_sec v), Some EStd)
      else match o, v_sec v (ts_mf s) (ts_mt s) with
           | InsertSection _, Some _ => (v, Some EStd)
           | _, _ => (put_section s v, None)
           end
  | InsertFile f => if v_has v (tf_mf f) || negb (tf_mat f =? v_mat v) then (v, Some EStd) else (put_file f v, None)
  | PutFile f => if negb (tf_mat f =? v_mat v) then (v, Some EStd) else (put_file f v, None)
  | RemoveFile mf => (mkview (v_mat v) (set1 (v_has v) mf false) (set1 (v_sec v) mf (fun _ => None)), None)
  | RemoveSection mf mt => (mkview (v_mat v) (v_has v) (set2 (v_sec v) mf mt None), None)
  | InFileInsert mf s | InFilePut mf s =>
      if negb (v_has v mf) then (v, Some EOor)
      else if negb (ts_mat s =? v_mat v) || negb (ts_mf s =? mf) then (v, Some EStd)
      else match o, v_sec v mf (ts_mt s) with
           | InFileInsert _ _, Some _ => (v, Some EStd)
           | _, _ => (put_section s v, None)
           end
  | InFileRemove mf mt => if v_has v mf then (mkview (v_mat v) (v_has v) (set2 (v_sec v) mf mt None), None)
                          else (v, Some EOor)
  end.

(** histories: the exceptions in order and the final state *)
Fixpoint run {O A} (step : O -> A -> A * option exn) (l : list O) (a : A) : A * list (option exn) :=
  match l with
  | [] => (a, [])
  | o :: l' => let (a', x) := step o a in let (a'', xs) := run step l' a' in (a'', x :: xs)
  end.

(** ** The trees a program can obtain *)
(** files: new, indexed from a text, edited *)
Inductive made_file : tfile -> Prop :=
| mf_new mat mf : made_file (mktfile mat mf [])
| mf_index t f s : index_file t = Ok f s -> made_file f
| mf_insert f s : made_file f -> made_file (fst (file_insert s f))
| mf_put f s : made_file f -> made_file (fst (file_put s f))
| mf_remove f mt : made_file f -> made_file (file_remove mt f)
| mf_clean f : made_file f -> made_file (fst (file_clean f))
| mf_clean_section f mt : made_file f -> made_file (fst (in_section mt sec_clean f)).
Definition op_ok (o : mop) : Prop :=
  match o with InsertFile f | PutFile f => made_file f | _ => True end.
(** what can be done to a material: an edit, or the cleaning of the whole, of one file, of one section *)
Inductive medit : tmat -> tmat -> Prop :=
| me_op o m : op_ok o -> medit m (fst (mop_run o m))
| me_clean m : medit m (fst (mat_clean m))
| me_clean_file mf m : medit m (fst (in_file mf file_clean m))
| me_clean_section mf mt m : medit m (fst (in_file mf (in_section mt sec_clean) m)).
(** materials: new, indexed from a text, edited, taken from an indexed tape *)
Inductive made_mat : tmat -> Prop :=
| mm_new mat : made_mat (mktmat mat [])
| mm_index t m s : index_mat t = Ok m s -> made_mat m
| mm_op o m : op_ok o -> made_mat m -> made_mat (fst (mop_run o m))
| mm_edit m m' : made_mat m -> medit m m' -> made_mat m'
| mm_tape t T s k l m : index_tape t = Ok T s -> tape_material T k = Val l -> In m l -> made_mat m.

(** tapes: what is stored is a material number and a material; a material of the
    tape can be replaced in place by an edited one *)
Inductive made_tape : ttape -> Prop :=
| mt_new i : made_tape (mkttape i [])
| mt_index t T s : index_tape t = Ok T s -> made_tape T
| mt_insert m T : made_mat m -> made_tape T -> made_tape (tape_insert m T)
| mt_replace m T : made_mat m -> made_tape T -> made_tape (tape_replace m T)
| mt_remove mat T : made_tape T -> made_tape (tape_remove mat T)
| mt_clean T : made_tape T -> made_tape (fst (tape_clean T))
| mt_edit T a k m m' b : made_tape T -> tt_mats T = a ++ (k, m) :: b -> medit m m' ->
    made_tape (mkttape (tt_tpid T) (a ++ (k, m') :: b)).

(** the edits of a tape, seen as lists of materials for each number *)
Inductive top := TInsert (m : tmat) | TReplace (m : tmat) | TRemove (mat : Z).
Definition top_run (o : top) (T : ttape) : ttape :=
  match o with TInsert m => tape_insert m T | TReplace m => tape_replace m T | TRemove k => tape_remove k T end.
Definition top_spec (o : top) (f : Z -> list tmat) : Z -> list tmat :=
  match o with
  | TInsert m => set1 f (tm_mat m) (f (tm_mat m) ++ [m])
  | TReplace m => set1 f (tm_mat m) [m]
  | TRemove k => set1 f k []
  end.
Definition tape_shows (T : ttape) (f : Z -> list tmat) : Prop :=
  forall mat, tape_number T mat = Z.of_nat (length (f mat))
    /\ tape_has T mat = match f mat with [] => false | _ => true end
    /\ tape_material T mat = match f mat with [] => Throw EOor | l => Val l end.
