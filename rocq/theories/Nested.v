(** Nested.v -- edits through references: tape.material( mat )[ i ], material.file( mf ), file.section( mt ) return references, so that an edit
    of what they return changes the tree. *)
From Verif Require Import Base Disco Records Tree.
Open Scope Z_scope.

(** file.section( mt ).edit( ... ): tree/File/src/section.hpp:6-30; std::out_of_range when there is no such section *)
Definition in_section (mt : Z) (e : edit tsec) : edit tfile := fun f =>
  match mfind mt (tf_secs f) with
  | None => (f, Some EOor)
  | Some s => let (s', x) := e s in (mktfile (tf_mat f) (tf_mf f) (mupd mt (fun _ => s') (tf_secs f)), x)
  end.
(** the element a reference to the i-th material with this number stands for is replaced in the multimap: tree/Tape/src/material.hpp:10-42 *)
Fixpoint mmupd {A} (k : Z) (i : nat) (v : A) (l : list (Z * A)) : list (Z * A) :=
  match l with
  | [] => []
  | (k', w) :: l' => if k =? k' then match i with O => (k', v) :: l' | S j => (k', w) :: mmupd k j v l' end
                     else (k', w) :: mmupd k i v l'
  end.
(** tape.material( mat )[ i ].edit( ... ): tree/Tape/src/material.hpp:10-42; std::out_of_range when there is no such material, undefined
    when the range has no i-th element *)
Definition in_material (mat : Z) (i : nat) (e : edit tmat) (T : ttape) : out (ttape * option exn) :=
  match tape_material T mat with
  | Throw x => Val (T, Some x)
  | Undef => Undef
  | Val l => match nth_error l i with
             | None => Undef
             | Some m => let (m', x) := e m in Val (mkttape (tt_tpid T) (mmupd mat i m' (tt_mats T)), x)
             end
  end.
