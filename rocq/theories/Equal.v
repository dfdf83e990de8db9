(** Equal.v -- the comparison operators of the records. *)
From Verif Require Import Base Disco Records.
Open Scope Z_scope.

(** not code: operator== of std::vector *)
Fixpoint eq_list {A} (eqb : A -> A -> bool) (l m : list A) : bool :=
  match l, m with
  | [], [] => true
  | a :: l', b :: m' => eqb a b && eq_list eqb l' m'
  | _, _ => false
  end.
(** record/Base.hpp:94-112, ControlRecord.hpp:101-109: the fields from the first to the last *)
Definition eq_cont (a b : cont) : bool :=
  req (c1 b) (c1 a) && (req (c2 b) (c2 a) && ((l1 b =? l1 a) && ((l2 b =? l2 a) && ((n1 b =? n1 a) && ((n2 b =? n2 a) && true))))).
(** record/Base.hpp:94-112, TextRecord.hpp:52-60 *)
Definition eq_text (a b : text) : bool := eq_list Ascii.eqb b a && true.
(** record/Base.hpp:94-112, DirectoryRecord.hpp:96-104 *)
Definition eq_dir (a b : dir) : bool :=
  (dmf b =? dmf a) && ((dmt b =? dmt a) && ((dnc b =? dnc a) && ((dmod b =? dmod a) && true))).
(** ListRecord.hpp:134-147 *)
Definition eq_listr (a b : listr) : bool :=
  req (lC1 a) (lC1 b) && req (lC2 a) (lC2 b) && (lL1 a =? lL1 b) && (lL2 a =? lL2 b) && (lN2 a =? lN2 b) && eq_list req (lB a) (lB b).
(** record/InterpolationBase.hpp:94-101, InterpolationRecord.hpp:48-56 *)
Definition eq_tab2 (a b : tab2) : bool :=
  req (tC1 a) (tC1 b) && req (tC2 a) (tC2 b) && (tL1 a =? tL1 b) && (tL2 a =? tL2 b) && eq_list Z.eqb (tbnd a) (tbnd b) && eq_list Z.eqb (tint a) (tint b).
(** TabulationRecord.hpp:119-129 *)
Definition eq_tab1 (a b : tab1) : bool := eq_tab2 (tbase a) (tbase b) && eq_list req (tx a) (tx b) && eq_list req (ty a) (ty b).
(** ControlRecord.hpp:111-119, ListRecord.hpp:149-157, TabulationRecord.hpp:131-139, TextRecord.hpp:62-70, DirectoryRecord.hpp:106-114 *)
Definition not_eq {A} (eqb : A -> A -> bool) (a b : A) : bool := negb (eqb a b).
