(** TypedEdit.v -- typed sections, files and materials put into a tree. *)
From Verif Require Import Base Disco Records Tree Sections Sec451 Typed Classes.
Open Scope Z_scope.

(** not code: the argument of the edit is computed first; if that throws the object is as it was *)
Definition thrown {A B} (o : out A) (b : B) (f : A -> B * option exn) : out (B * option exn) :=
  match o with Val a => Val (f a) | Throw e => Val (b, Some e) | Undef => Undef end.
(** not code: toSection, tree/toSection.hpp:20-29, for a section of any class *)
Definition any_section (x : ysec sclass sbody) (mat : Z) : out tsec := to_section (skind_of (projT1 x)) (projT2 x) mat.
(** tree/File/src/insert.hpp:37-41 *)
Definition file_insert_typed (x : ysec sclass sbody) (f : tfile) : out (tfile * option exn) :=
  thrown (any_section x (tf_mat f)) f (fun s => file_insert s f).
(** tree/File/src/insertOrReplace.hpp:36-40 *)
Definition file_put_typed (x : ysec sclass sbody) (f : tfile) : out (tfile * option exn) :=
  thrown (any_section x (tf_mat f)) f (fun s => file_put s f).
(** tree/Material/src/insert.hpp:37-41 *)
Definition mat_insert_typed (x : ysec sclass sbody) (m : tmat) : out (tmat * option exn) :=
  thrown (any_section x (tm_mat m)) m (fun s => mat_insert_sec s m).
(** tree/Material/src/insertOrReplace.hpp:31-35 *)
Definition mat_put_typed (x : ysec sclass sbody) (m : tmat) : out (tmat * option exn) :=
  thrown (any_section x (tm_mat m)) m (fun s => mat_put_sec s m).
(** tree/Material/src/insert.hpp:79-83 *)
Definition mat_insert_yfile (f : yfile sclass sbody) (m : tmat) : out (tmat * option exn) :=
  thrown (to_file skind_of f (tm_mat m)) m (fun F => mat_insert_file F m).
(** tree/Material/src/insertOrReplace.hpp:76-80 *)
Definition mat_put_yfile (f : yfile sclass sbody) (m : tmat) : out (tmat * option exn) :=
  thrown (to_file skind_of f (tm_mat m)) m (fun F => mat_put_file F m).
(** not code: this->MF( mf ) edited in place, tree/Material/src/file.hpp:1-33 *)
Definition in_file_typed (mf : Z) (e : tfile -> out (tfile * option exn)) (m : tmat) : out (tmat * option exn) :=
  match mfind mf (tm_files m) with
  | None => Val (m, Some EOor)
  | Some f => obind (e f) (fun r => Val (mktmat (tm_mat m) (mupd mf (fun _ => fst r) (tm_files m)), snd r))
  end.
(** tree/Tape/src/insert.hpp:24-27 *)
Definition tape_insert_typed (y : ymat sclass sbody) (T : ttape) : out (ttape * option exn) :=
  thrown (to_mat skind_of y) T (fun m => (tape_insert m T, None)).
(** tree/Tape/src/replace.hpp:25-28 *)
Definition tape_replace_typed (y : ymat sclass sbody) (T : ttape) : out (ttape * option exn) :=
  thrown (to_mat skind_of y) T (fun m => (tape_replace m T, None)).
