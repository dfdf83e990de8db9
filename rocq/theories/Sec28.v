(** Sec28.v -- File 28, atomic relaxation data.  Paths relative to /repo/src/ENDFtk/section. *)
From Verif Require Import Base Disco Records Sections SecKit Sec9 Sec6 Sec33 Sec8 Sec7.
Open Scope Z_scope.

(** section/28/SubshellData.hpp:41: NTR() is N2 as unsigned int *)
Definition ss_NTR (l : listr) : Z := u32 (lN2 l).
(** section/28/SubshellData/src/verifySize.hpp:1-12, section/28/SubshellData/src/ctor.hpp:8-12: NPL() and NTR() are passed as int, ( NTR + 1 ) * 6 is computed on int *)
Definition check_subshell (l : listr) : out unit :=
  let! a := int_op (i32 (ss_NTR l) + 1) in
  let! p := int_op (a * 6) in
  ensure (i32 (npl l) =? p).
(** section/28/SubshellData/src/generateList.hpp:1-34, section/28/SubshellData/src/ctor.hpp:26-45; ntr is an unsigned int, vectors of 2^32 or more elements are left out *)
Fixpoint subshell_rows (sj sk : list Z) (e p : list real) : list (list real) :=
  match sj, sk, e, p with
  | a :: sj', b :: sk', x :: e', y :: p' => [of_int a; of_int b; x; y; rzero; rzero] :: subshell_rows sj' sk' e' p'
  | _, _, _, _ => []
  end.
(** section/28/SubshellData/src/ctor.hpp:1-63 *)
Definition make_subshell (subi : Z) (ebi : real) (eln : Z) (sj sk : list Z) (e p : list real) : out listr :=
  let n := length sj in
  if negb (length sk =? n)%nat || negb (length e =? n)%nat || negb (length p =? n)%nat then Throw EStd
  else let l := mklist (of_int subi) rzero 0 0 (Z.of_nat n) (concat ([ebi; of_int eln; rzero; rzero; rzero; rzero] :: subshell_rows sj sk e p)) in
       let! u := check_subshell l in Val l.
(** section/28/SubshellData.hpp:13-17: column( i ) is drop_exactly( 6 + i ) | stride( 6 ); 71,81,91,101 *)
Definition ss_column (i : Z) (l : listr) : out (list real) := let! b := drop_exactly (6 + i) (lB l) in Val (stride 6 b).
(** section/28/SubshellData.hpp:71 *)
Definition ss_SUBJ := ss_column 0.
(** section/28/SubshellData.hpp:81 *)
Definition ss_SUBK := ss_column 1.
(** section/28/SubshellData.hpp:91 *)
Definition ss_ETR := ss_column 2.
(** section/28/SubshellData.hpp:101 *)
Definition ss_FTR := ss_column 3.
(** section/28/SubshellData.hpp:31,51,61: SUBI() and ELN() convert a double to unsigned int; list()[ i ] *)
Definition ss_SUBI (l : listr) : out Z := cast_unsigned (lC1 l).
(** section/28/SubshellData.hpp:51 *)
Definition ss_EBI (l : listr) : out real := element (lB l) 0.
(** section/28/SubshellData.hpp:61 *)
Definition ss_ELN (l : listr) : out Z := let! x := element (lB l) 1 in cast_unsigned x.
(** section/28/SubshellData.hpp:111-122: transitions(), the chunks of six without the first one (drop_exactly( 1 )) *)
Definition ss_transitions (l : listr) : out (list (list real)) :=
  match chunks (length (lB l)) 6 (lB l) with [] => Undef | _ :: cs => Val cs end.
(** section/28/SubshellData/Transition.hpp:21,31,41,51: chunk[ i ] *)
Definition st_SUBJ (c : list real) : out real := element c 0.
(** section/28/SubshellData/Transition.hpp:31 *)
Definition st_SUBK (c : list real) : out real := element c 1.
(** section/28/SubshellData/Transition.hpp:41 *)
Definition st_ETR (c : list real) : out real := element c 2.
(** section/28/SubshellData/Transition.hpp:51 *)
Definition st_FTR (c : list real) : out real := element c 3.
(** section/28/src/ctor.hpp:9-50, section/28/src/print.hpp:7-21, section/28/src/NC.hpp:4-12 *)
Definition sec_28 : skind (list listr) :=
  mkskind 28 None true false false (fun h => rd_all (rd_checked check_subshell) (n1 (sbase h)))
    (fun l => (0, 0, Z.of_nat (length l), 0)) (pr_all pr_list) (nc_all nc_list).
