(** Sec8.v -- File 8: fission yields (454, 459) and radioactive decay data (457).
    Paths relative to /repo/src/ENDFtk/section/8.

    Simplification: the fields are read before the HEAD is checked; when both fail the
    model reports the HEAD.  All failures are std::exception. *)
From Verif Require Import Base Disco Records Sections SecKit Sec9 Sec6 Sec33.
Open Scope Z_scope.

(** ** fission yields *)
(** section/8/FissionYieldData/src/verifySize.hpp:1-12, on int; section/8/FissionYieldData/src/ctor.hpp:6-10 *)
Definition check_yield (l : listr) : out unit :=
  let! p := int_op (4 * i32 (lN2 l)) in ensure (i32 (npl l) =? p).
(** section/8/FissionYieldData/src/generateList.hpp:18-26 *)
Fixpoint rows4 (ids states : list Z) (ys : list (real * real)) : list real :=
  match ids, states, ys with
  | i :: ids', s :: states', (y, dy) :: ys' => of_int i :: of_int s :: y :: dy :: rows4 ids' states' ys'
  | _, _, _ => []
  end.
(** section/8/FissionYieldData/src/ctor.hpp:25-39, section/8/FissionYieldData/src/generateList.hpp:1-16 (nfp is an unsigned int) *)
Definition make_yield (ids states : list Z) (ys : list (real * real)) (energy : real) (interpolation : Z) : out listr :=
  let nfp := u32 (Z.of_nat (length ids)) in
  if negb (Z.of_nat (length states) =? nfp) || negb (Z.of_nat (length ys) =? nfp) then Throw EStd
  else let l := mklist energy rzero interpolation 0 (Z.of_nat (length ids)) (rows4 ids states ys) in
       let! u := check_yield l in Val l.
(** section/8/FissionYieldData.hpp:34-118: I(), LE(), E(), NFP(), ZAFP(), FPS(), Y() (the chunks of two after
    the first two numbers, every second one) *)
Definition fy_I (l : listr) : Z := i32 (lL1 l).
(** section/8/FissionYieldData.hpp:63 *)
Definition fy_LE (l : listr) : bool := fy_I l =? 0.
(** section/8/FissionYieldData.hpp:83 *)
Definition fy_NFP (l : listr) : Z := i32 (lN2 l).
(** section/8/FissionYieldData.hpp:34-38 *)
Definition fy_column (i : Z) (l : listr) : out (list real) := let! b := drop_exactly i (lB l) in Val (stride 4 b).
(** section/8/FissionYieldData.hpp:93 *)
Definition fy_ZAFP : listr -> out (list real) := fy_column 0.
(** section/8/FissionYieldData.hpp:103 *)
Definition fy_FPS : listr -> out (list real) := fy_column 1.
(** not code: views::stride( 2 ), section/8/FissionYieldData.hpp:113-118 *)
Fixpoint every_other {A} (l : list A) : list A :=
  match l with [] => [] | [x] => [x] | x :: _ :: l' => x :: every_other l' end.
(** section/8/FissionYieldData.hpp:113-118 *)
Definition fy_Y (l : listr) : out (list (list real)) :=
  let! b := drop_exactly 2 (lB l) in Val (every_other (chunks (length b) 2 b)).
(** section/8/FissionYieldData.hpp:128-136, section/8/FissionYieldData/FissionProduct.hpp:21-44: the chunks of four; ZAFP() and FPS() convert
    the number to unsigned int, undefined outside its range *)
Definition cast_unsigned (x : real) : out Z :=
  let z := trunc x in if (0 <=? z) && (z <? 4294967296) then Val z else Undef.
(** section/8/FissionYieldData.hpp:128-136 *)
Definition fission_products (l : listr) : list (list real) := chunks (length (lB l)) 4 (lB l).
(** section/8/FissionYieldData/FissionProduct.hpp:21 *)
Definition fp_ZAFP (c : list real) : out Z := cast_unsigned (nth 0 c rzero).
(** section/8/FissionYieldData/FissionProduct.hpp:31 *)
Definition fp_FPS (c : list real) : out Z := cast_unsigned (nth 1 c rzero).
(** section/8/FissionYieldData/FissionProduct.hpp:41-44 *)
Definition fp_Y (c : list real) : real * real := (nth 2 c rzero, nth 3 c rzero).
(** section/8/454/src/generateFissionYields.hpp:1-59 (size and nfp are unsigned int; the interpolation is passed as an int) *)
Definition yields_at (ys : list (list (real * real))) (i : nat) : list (real * real) := map (fun y => nth i y (rzero, rzero)) ys.
(** section/8/454/src/generateFissionYields.hpp:1-59 *)
Definition interp_at (ne : Z) (ints : list Z) (i : nat) : Z := i32 (match i with O => ne - 1 | S j => nth j ints 0 end).
(** section/8/454/src/ctor.hpp:1-100 *)
Definition make_yields (ids states : list Z) (es : list real) (ints : list Z) (ys : list (list (real * real))) : out (list listr) :=
  let size := u32 (Z.of_nat (length es)) in
  let nfp := u32 (Z.of_nat (length ids)) in
  if negb (size =? Z.of_nat (length ints) + 1) then Throw EStd
  else if negb (nfp =? Z.of_nat (length states)) || negb (nfp =? Z.of_nat (length ys)) then Throw EStd
  else if negb (forallb (fun y => Z.of_nat (length y) =? size) ys) then Throw EStd
  else all_val (map (fun i => make_yield ids states (yields_at ys i) (nth i es rzero) (interp_at (Z.of_nat (length es)) ints i)) (seq 0 (Z.to_nat size))).
(** section/8/454/src/ctor.hpp:86-100, section/8/459/src/ctor.hpp:86-100, section/8/454/src/print.hpp:11-19 (shared), section/8/454/src/NC.hpp:4-9.
    section/8/454.hpp:1-96: LE() of the section is data_.size() == 1 *)
Definition sec_yields (mt : Z) : skind (list listr) :=
  mkskind 8 (Some mt) true false false (fun h => rd_all (rd_checked check_yield) (l1 (sbase h)))
    (fun l => (Z.of_nat (length l), 0, 0, 0)) (pr_all pr_list) (nc_all nc_list).
(** section/8/454.hpp:1-96 *)
Definition sec_8_454 : skind (list listr) := sec_yields 454.
(** section/8/459.hpp:1-101 *)
Definition sec_8_459 : skind (list listr) := sec_yields 459.

(** ** decay data *)
(** section/8/457/AverageDecayEnergies.hpp:1-118: NCE() is NPL() / 2 on long, returned as int;
    section/8/457/AverageDecayEnergies/src/verifyNC.hpp:1-11, section/8/457/AverageDecayEnergies/src/ctor.hpp:1-64 *)
Definition NCE (l : listr) : Z := i32 (Z.quot (npl l) 2).
(** section/8/457/AverageDecayEnergies/src/verifyNC.hpp:1-11 *)
Definition check_energies (l : listr) : out unit := ensure ((NCE l =? 3) || (NCE l =? 17)).
(** section/8/457/AverageDecayEnergies/src/ctor.hpp:1-64 *)
Definition join_pairs (es : list (real * real)) : list real := flat_map (fun e => [fst e; snd e]) es.
(** section/8/457/AverageDecayEnergies/src/ctor.hpp:1-64 *)
Definition make_energies (halflife : real * real) (es : list (real * real)) : out listr :=
  let l := mklist (fst halflife) (snd halflife) 0 0 0 (join_pairs es) in let! u := check_energies l in Val l.
(** section/8/457/AverageDecayEnergies/src/ctor.hpp:1-64 *)
Definition zeros6 : list real := [rzero; rzero; rzero; rzero; rzero; rzero].
(** the default constructor *)
(** section/8/457/AverageDecayEnergies/src/ctor.hpp:1-64 *)
Definition stable_energies : listr := mklist rzero rzero 0 0 0 zeros6.
(** decayEnergies(): the chunks of two *)
(** section/8/457/AverageDecayEnergies.hpp:66 *)
Definition decay_energies (l : listr) : list (list real) := chunks (length (lB l)) 2 (lB l).
(** section/8/457/DecayModes/src/verifyNDK.hpp:1-26, on int; section/8/457/DecayModes/src/ctor.hpp:1-71, section/8/457/DecayModes/src/generateList.hpp:1-14; section/8/457/DecayMode.hpp:1-67 *)
Definition NDK (l : listr) : Z := i32 (lN2 l).
(** section/8/457/DecayModes/src/verifyNDK.hpp:1-26 *)
Definition check_modes (l : listr) : out unit :=
  if NDK l =? 0 then ensure (i32 (npl l) =? 6)
  else let! p := int_op (6 * NDK l) in ensure (i32 (npl l) =? p).
(** section/8/457/DecayMode.hpp:1-67 *)
Record mode := mkmode { m_rtyp : real; m_rfs : real; m_q : real * real; m_br : real * real }.
(** section/8/457/DecayModes/src/generateList.hpp:1-14 *)
Definition mode_row (m : mode) : list real := [m_rtyp m; m_rfs m; fst (m_q m); snd (m_q m); fst (m_br m); snd (m_br m)].
(** section/8/457/DecayModes/src/ctor.hpp:1-71 *)
Definition make_modes (spin parity : real) (ms : list mode) : out listr :=
  let l := mklist spin parity 0 0 (Z.of_nat (length ms)) (flat_map mode_row ms) in let! u := check_modes l in Val l.
(** section/8/457/DecayModes/src/ctor.hpp:1-71 *)
Definition stable_modes (spin parity : real) : listr := mklist spin parity 0 0 0 zeros6.
(** section/8/457/DecayModes.hpp:58-66: decayModes(), from the chunks of six *)
Definition mode_of (c : list real) : mode :=
  mkmode (nth 0 c rzero) (nth 1 c rzero) (nth 2 c rzero, nth 3 c rzero) (nth 4 c rzero, nth 5 c rzero).
(** section/8/457/DecayModes.hpp:58-66 *)
Definition decay_modes (l : listr) : list mode := map mode_of (chunks (length (lB l)) 6 (lB l)).
(** section/8/457/DiscreteSpectrum/src/verifyNT.hpp:1-11, section/8/457/DiscreteSpectrum/src/ctor.hpp:10-82, section/8/457/DiscreteSpectrum/src/generateList.hpp:1-26 *)
Definition check_discrete (l : listr) : out unit :=
  let nt := i32 (npl l) in ensure ((nt =? 4) || (nt =? 6) || (nt =? 12)).
(** section/8/457/DiscreteSpectrum/src/ctor.hpp:1-104 *)
Definition make_discrete (e : real * real) (values : list real) : out listr :=
  let l := mklist (fst e) (snd e) 0 0 0 values in let! u := check_discrete l in Val l.
(** section/8/457/DiscreteSpectrum/src/ctor.hpp:1-104 *)
Definition make_discrete4 (chain : real) (e ri : real * real) (type : real) : out listr :=
  make_discrete e [chain; type; fst ri; snd ri].
(** section/8/457/DiscreteSpectrum/src/ctor.hpp:1-104 *)
Definition make_discrete6 (chain : real) (e ri : real * real) (type : real) (ris : real * real) : out listr :=
  make_discrete e [chain; type; fst ri; snd ri; fst ris; snd ris].
(** section/8/457/DiscreteSpectrum/src/ctor.hpp:1-104 *)
Definition make_discrete12 (chain : real) (e ri : real * real) (type : real) (ris ricc rick ricl : real * real) : out listr :=
  make_discrete e [chain; type; fst ri; snd ri; fst ris; snd ris; fst ricc; snd ricc; fst rick; snd rick; fst ricl; snd ricl].
(** section/8/457/DiscreteSpectrum.hpp:37-120, section/8/457/DiscreteSpectrum/src/returnArray.hpp:1-9 *)
Definition return_array (i : nat) (l : listr) : out (real * real) :=
  if Z.of_nat i <? i32 (npl l) then let! a := element (lB l) i in let! b := element (lB l) (S i) in Val (a, b) else Val (rzero, rzero).
(** section/8/457/DiscreteSpectrum.hpp:37 *)
Definition ds_RTYP (l : listr) : out real := element (lB l) 0.
(** section/8/457/DiscreteSpectrum.hpp:71 *)
Definition ds_TYPE (l : listr) : out real := element (lB l) 1.
(** section/8/457/DiscreteSpectrum.hpp:47-51 *)
Definition ds_ER (l : listr) : real * real := (lC1 l, lC2 l).
(** section/8/457/DiscreteSpectrum.hpp:61 *)
Definition ds_RI := return_array 2.
(** section/8/457/DiscreteSpectrum.hpp:83 *)
Definition ds_RIS := return_array 4.
(** section/8/457/DiscreteSpectrum.hpp:96 *)
Definition ds_RICC := return_array 6.
(** section/8/457/DiscreteSpectrum.hpp:108 *)
Definition ds_RICK := return_array 8.
(** section/8/457/DiscreteSpectrum.hpp:120 *)
Definition ds_RICL := return_array 10.

(** section/8/457/DecaySpectrum.hpp:18-20 *)
Record spectrum8 := mkspec8 { sp_data : listr; sp_discrete : list listr; sp_cont : option tab1 }.
(** section/8/457/DecaySpectrum.hpp:49 *)
Definition LCON (l : listr) : Z := i32 (lL1 l).
(** section/8/457/DecaySpectrum/src/readContinuous.hpp:1-13; 457/ContinuousSpectrum: a TAB1 record *)
Definition rd_continuous (l : listr) (mat mf mt : Z) : M (option tab1) :=
  if LCON l =? 0 then ret None else t <- rd_tab1 mat mf mt ;; ret (Some t).
(** section/8/457/DecaySpectrum/src/verifyDiscreteSize.hpp:1-9, section/8/457/DecaySpectrum/src/verifyLCOV.hpp:1-9 *)
Definition discrete_ok (x : spectrum8) : bool := negb ((LCON (sp_data x) =? 2) && (isize (sp_discrete x) =? 0)).
(** section/8/457/DecaySpectrum/src/verifyLCOV.hpp:1-9 *)
Definition lcov_ok (x : spectrum8) : bool := i32 (lL2 (sp_data x)) =? 0.
(** section/8/457/DecaySpectrum/src/ctor.hpp:84-129; NER() is read from the LIST record *)
Definition rd_spectrum8 (mat mf mt : Z) : M spectrum8 :=
  l <- rd_list mat mf mt ;;
  ds <- rd_all (rd_checked check_discrete) (lN2 l) mat mf mt ;;
  c <- rd_continuous l mat mf mt ;;
  let x := mkspec8 l ds c in
  require (discrete_ok x) ;;; require (lcov_ok x) ;;; ret x.
(** section/8/457/DecaySpectrum/src/print.hpp:11-16, section/8/457/DecaySpectrum/src/NC.hpp:4-9 *)
Definition pr_spectrum8 (x : spectrum8) (mat mf mt : Z) : text :=
  pr_list (sp_data x) mat mf mt ++ pr_all pr_list (sp_discrete x) mat mf mt ++ pr_opt pr_tab1 (sp_cont x) mat mf mt.
(** section/8/457/DecaySpectrum/src/NC.hpp:1-9 *)
Definition nc_spectrum8 (x : spectrum8) : Z :=
  nc_list (sp_data x) + nc_all nc_list (sp_discrete x) + nc_opt nc_tab1 (sp_cont x).
(** the constructors from parts: section/8/457/DecaySpectrum/src/ctor.hpp:1-80 *)
Definition make_spec8 (x : spectrum8) : out spectrum8 := if discrete_ok x then Val x else Throw EStd.
(** section/8/457/DecaySpectrum/src/ctor.hpp:1-129 *)
Definition spec_data (lcon : Z) (type : real) (n : Z) (dnorm energy cnorm : real * real) : listr :=
  mklist rzero type lcon 0 n [fst dnorm; snd dnorm; fst energy; snd energy; fst cnorm; snd cnorm].
(** section/8/457/DecaySpectrum/src/ctor.hpp:1-129 *)
Definition zero2 : real * real := (rzero, rzero).
(** section/8/457/DecaySpectrum/src/ctor.hpp:1-129 *)
Definition make_spec_discrete (type : real) (dnorm energy : real * real) (ds : list listr) : out spectrum8 :=
  make_spec8 (mkspec8 (spec_data 0 type (Z.of_nat (length ds)) dnorm energy zero2) ds None).
(** section/8/457/DecaySpectrum/src/ctor.hpp:1-129 *)
Definition make_spec_continuous (type : real) (cnorm energy : real * real) (c : tab1) : out spectrum8 :=
  make_spec8 (mkspec8 (spec_data 1 type 0 zero2 energy cnorm) [] (Some c)).
(** section/8/457/DecaySpectrum/src/ctor.hpp:1-129 *)
Definition make_spec_both (type : real) (dnorm cnorm energy : real * real) (ds : list listr) (c : tab1) : out spectrum8 :=
  make_spec8 (mkspec8 (spec_data 2 type (Z.of_nat (length ds)) dnorm energy cnorm) ds (Some c)).
(** section/8/457/DecaySpectrum.hpp:38-111: STYP(), and FD(), ERAV(), FC() (list elements: undefined when missing) *)
Definition sp_pair (i : nat) (x : spectrum8) : out (real * real) :=
  match nth_error (lB (sp_data x)) i, nth_error (lB (sp_data x)) (S i) with Some a, Some b => Val (a, b) | _, _ => Undef end.
(** section/8/457/DecaySpectrum.hpp:38 *)
Definition sp_STYP (x : spectrum8) : real := lC2 (sp_data x).
(** section/8/457/DecaySpectrum.hpp:79-83 *)
Definition sp_FD := sp_pair 0.
(** section/8/457/DecaySpectrum.hpp:107-111 *)
Definition sp_ERAV := sp_pair 2.
(** section/8/457/DecaySpectrum.hpp:93-97 *)
Definition sp_FC := sp_pair 4.
(** section/8/457/DecaySpectrum.hpp:69 *)
Definition sp_NER (x : spectrum8) : Z := i32 (lN2 (sp_data x)).

(** section/8/457.hpp:41-47; nst_ is modes.NDK() == 0 in every constructor: section/8/457/src/ctor.hpp:19-22, :40 *)
Record decay8 := mkdecay8 { d_lis : Z; d_liso : Z; d_energies : listr; d_modes : listr; d_spectra : list spectrum8 }.
(** section/8/457/src/ctor.hpp:19-40 *)
Definition d_nst (d : decay8) : bool := NDK (d_modes d) =? 0.
(** section/8/457/src/ctor.hpp:47-100: lis and liso pass through int *)
Definition rd_decay8 (lis liso nsp mat mf mt : Z) : M decay8 :=
  e <- rd_checked check_energies mat mf mt ;;
  m <- rd_checked check_modes mat mf mt ;;
  ss <- rd_all rd_spectrum8 nsp mat mf mt ;;
  ret (mkdecay8 (u32 (i32 lis)) (u32 (i32 liso)) e m ss).
(** section/8/457/src/print.hpp:11-19, section/8/457/src/NC.hpp:4-10; NSP() is an unsigned int *)
Definition pr_decay8 (d : decay8) (mat mf mt : Z) : text :=
  pr_list (d_energies d) mat mf mt ++ pr_list (d_modes d) mat mf mt ++ pr_all pr_spectrum8 (d_spectra d) mat mf mt.
(** section/8/457/src/NC.hpp:1-10 *)
Definition nc_decay8 (d : decay8) : Z := nc_list (d_energies d) + nc_list (d_modes d) + nc_all nc_spectrum8 (d_spectra d).
(** section/8/457.hpp:1-168 *)
Definition sec_8_457 : skind decay8 :=
  mkskind 8 (Some 457) true false false (fun h => rd_decay8 (l1 (sbase h)) (l2 (sbase h)) (n2 (sbase h)))
    (fun d => (d_lis d, d_liso d, if d_nst d then 1 else 0, u32 (Z.of_nat (length (d_spectra d))))) pr_decay8 nc_decay8.
(** the constructor of a stable nuclide: section/8/457/src/ctor.hpp:19-22 (lis and liso are int) *)
Definition stable_decay8 (lis liso : Z) (spin parity : real) : decay8 :=
  mkdecay8 (u32 lis) (u32 liso) stable_energies (stable_modes spin parity) [].
(** section/8/457/src/ctor.hpp:1-100 *)
Definition make_decay8 (lis liso : Z) (e m : listr) (ss : list spectrum8) : decay8 := mkdecay8 (u32 lis) (u32 liso) e m ss.
