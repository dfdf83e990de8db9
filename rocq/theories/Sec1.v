(** Sec1.v -- the sections of File 1 other than 451, and Files 3, 23, 27.
    Paths relative to /repo/src/ENDFtk/section.

    Simplification: when a constructor fails, which of several failing checks is
    reported first and how much text was consumed before is not modelled for
    section 1/455 (there the fields are read before the checks on the HEAD).
    Readers that name their MF and MT numbers in the code (1, 458 and so on) take
    them as arguments here; k_mf, k_fix and k_own supply the same numbers. *)
From Verif Require Import Base Disco Records Sections.
Open Scope Z_scope.

(** ** Files 3, 23 and 27: one table
    section/3.hpp:26-116 with section/3/src/ctor.hpp:1-78, section/3/src/print.hpp:1-17; section/23.hpp:1-136, section/27.hpp:1-126 the same *)
Definition sec_tab (mf : Z) : skind tab1 :=
  mkskind mf None true true true (fun _ => rd_tab1) (fun _ => (0, 0, 0, 0)) pr_tab1 nc_tab1.
(** section/3.hpp:1-149 *)
Definition sec_3 : skind tab1 := sec_tab 3.
(** section/23.hpp:1-136 *)
Definition sec_23 : skind tab1 := sec_tab 23.
(** section/27.hpp:1-126 *)
Definition sec_27 : skind tab1 := sec_tab 27.

(** ** multiplicities: section/1/PolynomialMultiplicity.hpp:23-64, section/1/TabulatedMultiplicity.hpp:23-72 *)
Inductive mult := PolynomialMultiplicity (l : listr) | TabulatedMultiplicity (t : tab1).
(** LNU(): section/1/PolynomialMultiplicity.hpp:35, section/1/TabulatedMultiplicity.hpp:35 *)
Definition LNU (m : mult) : Z := match m with PolynomialMultiplicity _ => 1 | TabulatedMultiplicity _ => 2 end.
(** section/1/readMultiplicity.hpp:18-35; the parameter LNU is an int *)
Definition rd_mult (lnu mat mf mt : Z) : M mult :=
  if i32 lnu =? 1 then l <- rd_list mat mf mt ;; ret (PolynomialMultiplicity l)
  else if i32 lnu =? 2 then t <- rd_tab1 mat mf mt ;; ret (TabulatedMultiplicity t)
  else throw EStd.
(** section/1/452/src/print.hpp:1-19, section/1/452.hpp:70-72 *)
Definition pr_mult (m : mult) (mat mf mt : Z) : text :=
  match m with PolynomialMultiplicity l => pr_list l mat mf mt | TabulatedMultiplicity t => pr_tab1 t mat mf mt end.
(** section/1/452/src/print.hpp:1-19, section/1/452.hpp:70-72 *)
Definition nc_mult (m : mult) : Z :=
  match m with PolynomialMultiplicity l => nc_list l | TabulatedMultiplicity t => nc_tab1 t end.

(** section/1/452/src/ctor.hpp:30-44, section/1/452/src/print.hpp:10-19, section/1/452.hpp:70-79; 1/456 likewise.
    The records are read with the MT number of the HEAD. *)
Definition sec_nubar (mt : Z) : skind mult :=
  mkskind 1 (Some mt) false true false (fun h => rd_mult (l2 (sbase h))) (fun m => (0, LNU m, 0, 0)) pr_mult nc_mult.
(** section/1/452.hpp:1-92 *)
Definition sec_452 : skind mult := sec_nubar 452.
(** section/1/456.hpp:1-96 *)
Definition sec_456 : skind mult := sec_nubar 456.

(** ** 1/455: delayed neutrons *)
(** section/1/455/DecayConstants/src/verifySize.hpp:1-11; the parameter is an int *)
Definition decay_ok (l : listr) : bool := negb (i32 (npl l) =? 0) && Z.even (i32 (npl l)).
(** section/1/455/DecayConstants/src/ctor.hpp:32-41 *)
Definition rd_decay (mat mf mt : Z) : M listr :=
  l <- rd_list mat mf mt ;; require (decay_ok l) ;;; ret l.
(** section/1/455/DecayConstants/src/generateList.hpp:1-27 and section/1/455/DecayConstants/src/ctor.hpp:14-23 *)
Fixpoint interleave {A} (xs ys : list A) : list A :=
  match xs, ys with x :: xs', y :: ys' => x :: y :: interleave xs' ys' | _, _ => [] end.
(** section/1/455/DecayConstants/src/ctor.hpp:1-42 *)
Definition make_decay (energy : real) (constants abundances : list real) : out listr :=
  if (length constants =? 0)%nat then Throw EStd
  else if negb (length constants =? length abundances)%nat then Throw EStd
  else Val (mklist rzero energy 0 0 0 (interleave constants abundances)).
(** getters, section/1/455/DecayConstants.hpp:33-66: NNF, lambdas, alphas (views::stride) *)
Definition nnf (l : listr) : Z := i32 (npl l / 2).
(** not code: views::stride( 2 ), section/1/455/DecayConstants.hpp:33-66 *)
Fixpoint every_other {A} (l : list A) : list A :=
  match l with x :: _ :: l' => x :: every_other l' | [x] => [x] | [] => [] end.
(** section/1/455/DecayConstants.hpp:44-47 *)
Definition lambdas (l : listr) : list real := every_other (lB l).
(** section/1/455/DecayConstants.hpp:60-64 *)
Definition alphas (l : listr) : list real := every_other (skipn 1 (lB l)).
(** section/1/455/EnergyDependentConstants/src/verify.hpp:1-15 *)
Definition same_nnf (ls : list listr) : bool :=
  match ls with [] => true | l0 :: _ => forallb (fun l => nnf l =? nnf l0) ls end.

(** section/1/455.hpp:1-128 *)
Inductive decay := EnergyIndependent (l : listr) | EnergyDependent (q : iseq listr).
(** section/1/455/EnergyDependentConstants.hpp:23 *)
Definition LDG (d : decay) : Z := match d with EnergyIndependent _ => 0 | EnergyDependent _ => 1 end.
(** InterpolationSequenceRecord.hpp:89-90: no further validation *)
Definition no_check {C} (l : list C) : bool := true.
(** section/1/455/src/readDecayConstantData.hpp:1-21,
    section/1/455/EnergyIndependentConstants/src/ctor.hpp:31-45,
    section/1/455/EnergyDependentConstants/src/ctor.hpp:42-60 *)
Definition rd_decay_data (ldg mat mf mt : Z) : M decay :=
  if i32 ldg =? 0 then l <- rd_list mat mf mt ;; ret (EnergyIndependent l)
  else if i32 ldg =? 1 then
    q <- rd_iseq no_check rd_decay mat mf mt ;; require (same_nnf (isrec q)) ;;; ret (EnergyDependent q)
  else throw EStd.
(** section/1/455/src/print.hpp:1-22 *)
Definition pr_decay (d : decay) (mat mf mt : Z) : text :=
  match d with EnergyIndependent l => pr_list l mat mf mt | EnergyDependent q => pr_iseq pr_list q mat mf mt end.
(** section/1/455.hpp:103-108 *)
Definition nc_decay (d : decay) : Z :=
  match d with EnergyIndependent l => nc_list l | EnergyDependent q => nc_iseq nc_list q end.
(** section/1/455/src/ctor.hpp:20-64, section/1/455/src/print.hpp:10-22, section/1/455.hpp:1-128.  MAT and MF of the HEAD
    are not checked. *)
Definition sec_455 : skind (decay * mult) :=
  mkskind 1 (Some 455) true false false
    (fun h mat mf mt => d <- rd_decay_data (l1 (sbase h)) mat mf mt ;;
                        m <- rd_mult (l2 (sbase h)) mat mf mt ;; ret (d, m))
    (fun b => (LDG (fst b), LNU (snd b), 0, 0))
    (fun b mat mf mt => pr_decay (fst b) mat mf mt ++ pr_mult (snd b) mat mf mt)
    (fun b => nc_decay (fst b) + nc_mult (snd b)).

(** ** 1/458: energy release due to fission *)
(** section/1/458/TabulatedComponents.hpp:13-228: number of tables, thermal point values, nine optional tables *)
Inductive fission_q :=
  ThermalPoint (l : listr) | Polynomial (l : listr)
| Tabulated (nfc : Z) (l : listr) (comps : list (option tab1)).
(** section/1/458/TabulatedComponents.hpp:39 *)
Definition LFC (q : fission_q) : Z := match q with Tabulated _ _ _ => 1 | _ => 0 end.
(** section/1/458/TabulatedComponents.hpp:59 *)
Definition NFC (q : fission_q) : Z := match q with Tabulated n _ _ => n | _ => 0 end.
(** section/1/458/ThermalPointComponents/src/verify.hpp:1-10, section/1/458/ThermalPointComponents/src/ctor.hpp:66-79 *)
Definition thermal_ok (l : listr) : bool := i32 (npl l) =? 18.
(** section/1/458/ThermalPointComponents/src/ctor.hpp:1-79 *)
Definition rd_thermal (mat mf mt : Z) : M listr :=
  l <- rd_list mat mf mt ;; require (thermal_ok l) ;;; ret l.
(** section/1/458/EnergyReleaseComponent/src/verify.hpp:1-17, section/1/458/EnergyReleaseComponent/src/ctor.hpp:11-15,54-65 *)
Definition component_ok (t : tab1) : bool :=
  let ldrv := i32 (tL1 (tbase t)) in let ifc := i32 (tL2 (tbase t)) in
  ((ldrv =? 1) || (ldrv =? 2)) && ((1 <=? ifc) && (ifc <=? 9)).
(** section/1/458/EnergyReleaseComponent/src/ctor.hpp:1-65 *)
Definition rd_component (mat mf mt : Z) : M tab1 :=
  t <- rd_tab1 mat mf mt ;; require (component_ok t) ;;; ret t.
(** records[ IFC - 1 ] = component, if it is empty
    (section/1/458/TabulatedComponents/src/readTables.hpp:23-47, section/1/458/TabulatedComponents/src/generateTables.hpp:14-37) *)
Fixpoint place (n : nat) (c : tab1) (recs : list (option tab1)) : option (list (option tab1)) :=
  match n, recs with
  | O, None :: r => Some (Some c :: r)
  | S n', x :: r => option_map (cons x) (place n' c r)
  | _, _ => None
  end.
(** section/1/458/TabulatedComponents/src/readTables.hpp:1-53, section/1/458/TabulatedComponents/src/generateTables.hpp:1-41 *)
Definition slot (c : tab1) : nat := Z.to_nat (i32 (tL2 (tbase c)) - 1).
(** section/1/458/TabulatedComponents/src/ctor.hpp:1-87 *)
Fixpoint rd_tables (n : nat) (recs : list (option tab1)) (mat mf mt : Z) : M (list (option tab1)) :=
  match n with
  | O => ret recs
  | S n' => c <- rd_component mat mf mt ;;
            match place (slot c) c recs with
            | Some recs' => rd_tables n' recs' mat mf mt
            | None => throw EStd
            end
  end.
(** section/1/458/TabulatedComponents/src/readTables.hpp:1-53, section/1/458/TabulatedComponents/src/generateTables.hpp:1-41 *)
Fixpoint place_all (cs : list tab1) (recs : list (option tab1)) : out (list (option tab1)) :=
  match cs with
  | [] => Val recs
  | c :: cs' => match place (slot c) c recs with Some r => place_all cs' r | None => Throw EStd end
  end.
(** the constructor from components: section/1/458/TabulatedComponents/src/ctor.hpp:29-37 *)
Definition make_tabulated (l : listr) (cs : list tab1) : out fission_q :=
  if (length cs =? 0)%nat then Throw EStd
  else obind (place_all cs (repeat None 9)) (fun r => Val (Tabulated (Z.of_nat (length cs)) l r)).
(** section/1/458/src/readFissionEnergyReleaseData.hpp:1-42, with
    section/1/458/PolynomialComponents/src/ctor.hpp:11-15, section/1/458/PolynomialComponents/src/verify.hpp:1-11 and
    section/1/458/TabulatedComponents/src/ctor.hpp:39-87.  Simplification: the int product
    (NPLY+1)*18 is exact here (it overflows only for lists of 2^31 values). *)
Definition rd_fission_q (lfc nfc mat mf mt : Z) : M fission_q :=
  if i32 lfc =? 0 then
    l <- rd_list mat mf mt ;;
    require (npl l =? (lL2 l + 1) * 18) ;;;
    if lL2 l =? 0 then require (thermal_ok l) ;;; ret (ThermalPoint l)
    else require (i32 (npl l) =? (i32 (lL2 l) + 1) * 18) ;;; ret (Polynomial l)
  else if i32 lfc =? 1 then
    l <- rd_thermal mat mf mt ;;
    require (negb (i32 nfc <? 0)) ;;;
    r <- rd_tables (Z.to_nat (i32 nfc)) (repeat None 9) mat mf mt ;;
    ret (Tabulated (i32 nfc) l r)
  else throw EStd.
(** section/1/458/TabulatedComponents/src/print.hpp:10-18, section/1/458/TabulatedComponents/src/NC.hpp:4-11 *)
Definition somes {A} (l : list (option A)) : list A := flat_map (fun o => match o with Some a => [a] | None => [] end) l.
(** section/1/458/TabulatedComponents/src/print.hpp:1-18 *)
Definition pr_fission_q (q : fission_q) (mat mf mt : Z) : text :=
  match q with
  | ThermalPoint l | Polynomial l => pr_list l mat mf mt
  | Tabulated _ l r => pr_list l mat mf mt ++ flat_map (fun c => pr_tab1 c mat mf mt) (somes r)
  end.
(** section/1/458/TabulatedComponents/src/NC.hpp:1-11 *)
Definition nc_fission_q (q : fission_q) : Z :=
  match q with
  | ThermalPoint l | Polynomial l => nc_list l
  | Tabulated _ l r => nc_list l + zsum (map nc_tab1 (somes r))
  end.
(** section/1/458/src/ctor.hpp:28-47, section/1/458/src/print.hpp:10-19, section/1/458.hpp:1-133 *)
Definition sec_458 : skind fission_q :=
  mkskind 1 (Some 458) true true false (fun h => rd_fission_q (l2 (sbase h)) (n2 (sbase h)))
    (fun q => (0, LFC q, 0, NFC q)) pr_fission_q nc_fission_q.

(** ** 1/460: delayed photons *)
(** section/1/460.hpp:1-112 *)
Inductive photons := DiscretePhotons (l : list tab1) | ContinuousPhotons (l : listr).
(** section/1/460.hpp:1-112 *)
Definition LO (p : photons) : Z := match p with DiscretePhotons _ => 1 | ContinuousPhotons _ => 2 end.
(** NG(): section/1/460/DiscretePhotons.hpp:35 (int of size_t), section/1/460/ContinuousPhotons.hpp:38 *)
Definition NG (p : photons) : Z := match p with DiscretePhotons l => i32 (Z.of_nat (length l)) | ContinuousPhotons _ => 0 end.
(** section/1/460/src/readPhotonData.hpp:1-23, section/1/460/DiscretePhotons/src/ctor.hpp:12-52,
    section/1/460/DiscretePhotons/src/verifySize.hpp:1-11, section/1/460/ContinuousPhotons/src/ctor.hpp:36-51, section/1/460/ContinuousPhotons/src/verifySize.hpp:1-11 *)
Definition rd_photons (lo ng mat mf mt : Z) : M photons :=
  if i32 lo =? 1 then
    l <- rd_sequence rd_tab1 mat mf mt (i32 ng) ;;
    require (negb (i32 (Z.of_nat (length l)) <=? 0)) ;;; ret (DiscretePhotons l)
  else if i32 lo =? 2 then
    l <- rd_list mat mf mt ;; require (negb (i32 (npl l) <=? 0)) ;;; ret (ContinuousPhotons l)
  else throw EStd.
(** section/1/460/src/print.hpp:1-19 *)
Definition pr_photons (p : photons) (mat mf mt : Z) : text :=
  match p with
  | DiscretePhotons l => flat_map (fun c => pr_tab1 c mat mf mt) l
  | ContinuousPhotons l => pr_list l mat mf mt
  end.
(** section/1/460.hpp:90-92 *)
Definition nc_photons (p : photons) : Z :=
  match p with DiscretePhotons l => zsum (map nc_tab1 l) | ContinuousPhotons l => nc_list l end.
(** section/1/460/src/ctor.hpp:28-47, section/1/460/src/print.hpp:10-19, section/1/460.hpp:1-112 *)
Definition sec_460 : skind photons :=
  mkskind 1 (Some 460) true true false (fun h => rd_photons (l1 (sbase h)) (n1 (sbase h)))
    (fun p => (LO p, 0, NG p, 0)) pr_photons nc_photons.
