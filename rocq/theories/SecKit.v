(** SecKit.v -- pieces shared by the models of the section classes.
    Paths relative to /repo/src/ENDFtk. *)
From Verif Require Import Base Disco Records Sections.
Open Scope Z_scope.

(** readSequence.hpp:20-40 applied to n, an int; with the arguments in the order
    used below *)
Definition rd_all {C} (rd : Z -> Z -> Z -> M C) (n mat mf mt : Z) : M (list C) :=
  rd_sequence rd mat mf mt n.
(** for ( const auto& entry : ... ) { entry.print( it, MAT, MF, MT ); } *)
(** not code: the loops of print() and NC() over a vector or a std::optional, e.g. section/9/src/print.hpp:7-22 *)
Definition pr_all {C} (pr : C -> Z -> Z -> Z -> text) (l : list C) (mat mf mt : Z) : text :=
  flat_map (fun c => pr c mat mf mt) l.
(** for ( const auto& entry : ... ) { NC += entry.NC(); } *)
(** not code: the loops of print() and NC() over a vector or a std::optional, e.g. section/9/src/print.hpp:7-22 *)
Definition nc_all {C} (nc : C -> Z) (l : list C) : Z := zsum (map nc l).
(** the same for a std::optional *)
(** not code: the loops of print() and NC() over a vector or a std::optional, e.g. section/9/src/print.hpp:7-22 *)
Definition pr_opt {C} (pr : C -> Z -> Z -> Z -> text) (o : option C) (mat mf mt : Z) : text :=
  match o with Some c => pr c mat mf mt | None => [] end.
(** not code: the loops of print() and NC() over a vector or a std::optional, e.g. section/9/src/print.hpp:7-22 *)
Definition nc_opt {C} (nc : C -> Z) (o : option C) : Z := match o with Some c => nc c | None => 0 end.
(** InterpolationSequenceRecord.hpp:89-90: no further validation *)
Definition no_more {C} (l : list C) : bool := true.
(** a container's size() stored in an int *)
(** not code: size() as an int, operator[] and transforms of a view *)
Definition isize {C} (l : list C) : Z := i32 (Z.of_nat (length l)).
(** list()[i], chunk[i]: outside the range is undefined *)
(** not code: size() as an int, operator[] and transforms of a view *)
Definition element (l : list real) (i : nat) : out real := match nth_error l i with Some x => Val x | None => Undef end.
(** the elements of a transform, all of which are looked at *)
(** not code: size() as an int, operator[] and transforms of a view *)
Fixpoint all_val {A} (l : list (out A)) : out (list A) :=
  match l with [] => Val [] | o :: l' => obind o (fun a => obind (all_val l') (fun b => Val (a :: b))) end.
