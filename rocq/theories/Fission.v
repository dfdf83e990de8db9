(** Fission.v -- model of the objects of MF1 MT458 that a user makes and looks at
    (section/1/458): the nine components by name, in the three representations. *)
From Verif Require Import Base Disco Records Sections SecKit Sec1 Sec9 Sec33 Sec2.
Open Scope Z_scope.

(** std::array< double, 2 >: a value and its uncertainty *)
(** not code: std::array< double, 2 > as used by section/1/458/ThermalPointComponents/src/ctor.hpp:27-60 *)
Definition both (p : real * real) : list real := [fst p; snd p].
(** not code: range-v3 stride on any element type *)
Fixpoint each {A} (k i : nat) (l : list A) : list A :=
  match l with
  | [] => []
  | a :: l' => match i with O => a :: each k (k - 1) l' | Datatypes.S j => each k j l' end
  end.
(** not code: operator[] of a random access view *)
Definition at_index {A} (l : list A) (i : nat) : out A := match nth_error l i with Some a => Val a | None => Undef end.

(** ** thermal point values *)
(** section/1/458/ThermalPointComponents/src/ctor.hpp:27-60 *)
Definition make_thermal_point (efr enp end_ egp egd eb enu er et : real * real) : out listr :=
  let l := mklist rzero rzero 0 0 9 (concat (map both [efr; enp; end_; egp; egd; eb; enu; er; et])) in
  if thermal_ok l then Val l else Throw EStd.
(** section/1/458/ThermalPointComponents.hpp:58-61: list() | chunk( 2 ) *)
Definition tp_E (l : listr) : list (list real) := chunk_rows 2 l.
(** section/1/458/ThermalPointComponents.hpp:75 *)
Definition tp_EFR (l : listr) : out (list real) := at_index (tp_E l) 0.
(** section/1/458/ThermalPointComponents.hpp:87 *)
Definition tp_ENP (l : listr) : out (list real) := at_index (tp_E l) 1.
(** section/1/458/ThermalPointComponents.hpp:99 *)
Definition tp_END (l : listr) : out (list real) := at_index (tp_E l) 2.
(** section/1/458/ThermalPointComponents.hpp:110 *)
Definition tp_EGP (l : listr) : out (list real) := at_index (tp_E l) 3.
(** section/1/458/ThermalPointComponents.hpp:120 *)
Definition tp_EGD (l : listr) : out (list real) := at_index (tp_E l) 4.
(** section/1/458/ThermalPointComponents.hpp:130 *)
Definition tp_EB (l : listr) : out (list real) := at_index (tp_E l) 5.
(** section/1/458/ThermalPointComponents.hpp:140 *)
Definition tp_ENU (l : listr) : out (list real) := at_index (tp_E l) 6.
(** section/1/458/ThermalPointComponents.hpp:151 *)
Definition tp_ER (l : listr) : out (list real) := at_index (tp_E l) 7.
(** section/1/458/ThermalPointComponents.hpp:162 *)
Definition tp_ET (l : listr) : out (list real) := at_index (tp_E l) 8.

(** ** polynomials *)
(** section/1/458/PolynomialComponents/src/generateList.hpp:1-57: size is an unsigned int *)
Definition polynomial_list (efr enp end_ egp egd eb enu er et : list (real * real)) : out (list real) :=
  let size := u32 (Z.of_nat (length efr)) in
  if existsb (fun v => negb (Z.of_nat (length v) =? size)) [enp; end_; egp; egd; eb; enu; er; et] then Throw EStd
  else Val (flat_map (fun i => concat (map (fun v => both (nth i v (rzero, rzero))) [efr; enp; end_; egp; egd; eb; enu; er; et])) (seq 0 (Z.to_nat size))).
(** section/1/458/PolynomialComponents/src/ctor.hpp:17-66: nothing is verified; the order is list.size() / 18 - 1 on size_t,
    which becomes -1 as a long when the list is empty *)
Definition make_polynomial9 (efr enp end_ egp egd eb enu er et : list (real * real)) : out listr :=
  obind (polynomial_list efr enp end_ egp egd eb enu er et) (fun b => Val (mklist rzero rzero 0 (Z.of_nat (length b) / 18 - 1) (Z.of_nat (length b) / 2) b)).
(** section/1/458/PolynomialComponents/src/createRangeFromIndex.hpp:1-7: chunk( 2 ) | drop_exactly( i ) | stride( 9 ) *)
Definition poly_range (i : nat) (l : listr) : out (list (list real)) :=
  let c := chunk_rows 2 l in if (length c <? i)%nat then Undef else Val (each 9 0 (skipn i c)).
(** section/1/458/PolynomialComponents.hpp:37 *)
Definition poly_NPLY (l : listr) : Z := i32 (lL2 l).
(** section/1/458/PolynomialComponents.hpp:60-66 *)
Definition poly_E (l : listr) : out (list (list (list real))) := all_val (map (fun i => poly_range i l) (seq 0 9)).
(** section/1/458/PolynomialComponents.hpp:80 *)
Definition poly_EFR : listr -> out (list (list real)) := poly_range 0.
(** section/1/458/PolynomialComponents.hpp:92 *)
Definition poly_ENP : listr -> out (list (list real)) := poly_range 1.
(** section/1/458/PolynomialComponents.hpp:104 *)
Definition poly_END : listr -> out (list (list real)) := poly_range 2.
(** section/1/458/PolynomialComponents.hpp:115 *)
Definition poly_EGP : listr -> out (list (list real)) := poly_range 3.
(** section/1/458/PolynomialComponents.hpp:125 *)
Definition poly_EGD : listr -> out (list (list real)) := poly_range 4.
(** section/1/458/PolynomialComponents.hpp:135 *)
Definition poly_EB : listr -> out (list (list real)) := poly_range 5.
(** section/1/458/PolynomialComponents.hpp:145 *)
Definition poly_ENU : listr -> out (list (list real)) := poly_range 6.
(** section/1/458/PolynomialComponents.hpp:156 *)
Definition poly_ER : listr -> out (list (list real)) := poly_range 7.
(** section/1/458/PolynomialComponents.hpp:167 *)
Definition poly_ET : listr -> out (list (list real)) := poly_range 8.

(** ** tables *)
(** not code: std::get< k > on the array of nine optional tables, section/1/458/TabulatedComponents.hpp:77-80 *)
Definition table_at (k : nat) (q : fission_q) : option tab1 := match q with Tabulated _ _ r => nth k r None | _ => None end.
(** section/1/458/TabulatedComponents.hpp:85-88 *)
Definition tabulatedEFR : fission_q -> option tab1 := table_at 0.
(** section/1/458/TabulatedComponents.hpp:101-104 *)
Definition tabulatedENP : fission_q -> option tab1 := table_at 1.
(** section/1/458/TabulatedComponents.hpp:117-120 *)
Definition tabulatedEND : fission_q -> option tab1 := table_at 2.
(** section/1/458/TabulatedComponents.hpp:133-136 *)
Definition tabulatedEGP : fission_q -> option tab1 := table_at 3.
(** section/1/458/TabulatedComponents.hpp:149-152 *)
Definition tabulatedEGD : fission_q -> option tab1 := table_at 4.
(** section/1/458/TabulatedComponents.hpp:165-168 *)
Definition tabulatedEB : fission_q -> option tab1 := table_at 5.
(** section/1/458/TabulatedComponents.hpp:181-184 *)
Definition tabulatedENU : fission_q -> option tab1 := table_at 6.
(** section/1/458/TabulatedComponents.hpp:197-200 *)
Definition tabulatedER : fission_q -> option tab1 := table_at 7.
(** section/1/458/TabulatedComponents.hpp:213-216 *)
Definition tabulatedET : fission_q -> option tab1 := table_at 8.

(** ** the section *)
(** section/1/458/src/ctor.hpp:16-17 *)
Definition make458 (za : Z) (awr : real) (q : fission_q) : out (sect fission_q) := make_section false za awr 458 q.
(** section/1/458.hpp:91-93: NPLY() of the representation *)
Definition NPLY (q : fission_q) : Z := match q with Polynomial l => poly_NPLY l | _ => 0 end.
