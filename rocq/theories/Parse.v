(** Parse.v -- reading a file of the disk and parsing a whole tree. *)
From Verif Require Import Base Disco Records Tree Typed Classes.
Open Scope Z_scope.

(** tree/Tape/src/parse.hpp:6-22: the typed reader on the content of the tree *)
Definition tape_parse (T : ttape) : out (ytape sclass sbody) :=
  obind (tape_content T) (fun t => run (rd_ytape skind_of lib_class) t 1).
(** tree/fromFile.hpp:21-37.  The disk is what the file holds, or nothing if it cannot be opened; a read that is cut short is not modelled. *)
Definition from_file (disk : option text) : out ttape :=
  match disk with None => Throw EStd | Some t => res_out (index_tape t) end.
