(** PyTree.v -- the tree, the strings and the files of the Python module. *)
From Verif Require Import Base Disco Records Tree Sections Sec451 Typed Classes Parse.
Open Scope Z_scope.

(** python/src/tree/Section.python.cpp:78-179: the class chosen by the two switches; [None] is std::runtime_error *)
Definition py_switch (mf mt : Z) : option sclass :=
  match mf with
  | 1 => match mt with 451 => Some K1_451 | 452 => Some K1_452 | 455 => Some K1_455 | 456 => Some K1_456 | 458 => Some K1_458 | 460 => Some K1_460 | _ => None end
  | 2 => match mt with 151 => Some K2_151 | 152 => Some K2_152 | 153 => None | _ => None end
  | 3 => Some K3 | 4 => Some K4 | 5 => Some K5 | 6 => Some K6
  | 7 => match mt with 2 => Some K7_2 | 4 => Some K7_4 | 451 => Some K7_451 | _ => None end
  | 8 => match mt with 454 => Some K8_454 | 457 => Some K8_457 | 459 => Some K8_459 | _ => None end
  | 9 => Some K9 | 10 => Some K10 | 12 => Some K12 | 13 => Some K13 | 14 => Some K14 | 15 => Some K15
  | 23 => Some K23 | 26 => Some K26 | 27 => Some K27 | 28 => Some K28 | 31 => Some K31
  | 32 => match mt with 151 => Some K32_151 | _ => None end
  | 33 => Some K33 | 34 => Some K34 | 35 => Some K35 | 40 => Some K40
  | _ => None
  end.
(** python/src/tree/Section.python.cpp:78-179; MF and MT of the tree section are not read from its text *)
Definition py_section_parse (s : tsec) : out (ysec sclass sbody) :=
  match py_switch (ts_mf s) (ts_mt s) with
  | None => Throw EStd
  | Some c => obind (sec_parse (skind_of c) s) (fun x => Val (existT _ c x))
  end.
(** python/src/tree/File.python.cpp:134-168 *)
Definition py_file_known (mf : Z) : bool :=
  match mf with
  | 1 | 2 | 3 | 4 | 5 | 6 | 7 | 8 | 9 | 10 | 12 | 13 | 14 | 15 | 23 | 26 | 27 | 28 | 31 | 32 | 33 | 34 | 35 | 40 => true
  | _ => false
  end.
(** python/src/tree/File.python.cpp:134-168 *)
Definition py_file_parse (f : tfile) : out (yfile sclass sbody) :=
  if py_file_known (tf_mf f) then file_parse skind_of lib_class (tf_mf f) f else Throw EStd.
(** python/src/tree/Material.python.cpp:177-186 *)
Definition py_mat_parse (m : tmat) : out (ymat sclass sbody) := mat_parse skind_of lib_class m.
(** python/src/tree/Tape.python.cpp:32-41: one material, or a view of them *)
Inductive py_mats := PyOne (m : tmat) | PyMany (l : list tmat).
(** python/src/tree/Tape.python.cpp:32-41: front() of an empty view would be undefined *)
Definition py_material (T : ttape) (mat : Z) : out py_mats :=
  if tape_number T mat =? 1
  then obind (tape_material T mat) (fun l => match l with m :: _ => Val (PyOne m) | [] => Undef end)
  else obind (tape_material T mat) (fun l => Val (PyMany l)).
(** python/src/read.hpp:35-44, python/src/definitions.hpp:223-235 *)
Definition py_section (c : sclass) (t : text) : out (sect (sbody c)) := run (rd_parse (skind_of c)) t 1.
(** python/src/print.hpp:25-40, python/src/definitions.hpp:235-247 *)
Definition py_section_string (x : ysec sclass sbody) (mat mf : Z) : pout := pr_any skind_of x mat mf.
(** python/src/read.hpp:51-61, python/src/definitions.hpp:361-373; [mf] is the class *)
Definition py_file (mf : Z) (t : text) : out (yfile sclass sbody) := run (parse_yfile skind_of lib_class mf) t 1.
(** python/src/print.hpp:42-57, python/src/definitions.hpp:373-384 *)
Definition py_file_string (f : yfile sclass sbody) (mat : Z) : pout := pr_yfile skind_of f mat.
(** python/src/Material.python.cpp:151-170 *)
Definition py_mat (t : text) : out (ymat sclass sbody) := run (parse_ymat skind_of lib_class) t 1.
(** python/src/Material.python.cpp:170-184 *)
Definition py_mat_string (m : ymat sclass sbody) : pout := pr_ymat skind_of m.

(** not code: the files of the disk by name, and the names that can be opened for writing *)
Record disk := mkdisk { d_files : text -> option text; d_open : text -> bool }.
(** python/src/tree/Tape.python.cpp:186-202: the stream opens (and empties) the file first; nothing is reported if that fails *)
Definition py_to_file (T : ttape) (name : text) (d : disk) : disk * out unit :=
  let put t := if d_open d name then mkdisk (fun n => if list_eq_dec Ascii.ascii_dec n name then Some t else d_files d n) (d_open d) else d in
  match tape_content T with
  | Val t => (put t, Val tt)
  | Throw e => (put [], Throw e)
  | Undef => (d, Undef)
  end.
(** python/src/tree/Tape.python.cpp:172-186 *)
Definition py_from_file (name : text) (d : disk) : out ttape := from_file (d_files d name).
