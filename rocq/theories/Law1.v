(** Law1.v -- model of the records of MF6 LAW = 1 that a user makes and looks at: TabulatedDistribution
    (LANG = 11 to 15) and ThermalScatteringData (LANG = 3). *)
From Verif Require Import Base Disco Records Sections SecKit Sec9 Sec6 Sec33 Sec2.
Open Scope Z_scope.

(** section/6/ContinuumEnergyAngle/TabulatedDistribution/src/checkLANG.hpp:1-13 *)
Definition lang_tab (lang : Z) : bool := (lang =? 11) || (lang =? 12) || (lang =? 13) || (lang =? 14) || (lang =? 15).
(** section/6/ContinuumEnergyAngle/TabulatedDistribution/src/generateList.hpp:20-45 *)
Fixpoint tab_rows (half : Z) (es f0s : list real) (mus fs : list (list real)) : out (list real) :=
  match es, f0s, mus, fs with
  | e :: es', f :: f0s', m :: mus', p :: fs' =>
      if negb (is_sorted rlt m) then Throw EStd
      else if negb (length m =? length p)%nat || negb (Z.of_nat (length m) =? half) then Throw EStd
      else let! r := tab_rows half es' f0s' mus' fs' in Val ((e :: f :: interleave2 m p) ++ r)
  | _, _, _, _ => Val []
  end.
(** section/6/ContinuumEnergyAngle/TabulatedDistribution/src/ctor.hpp:13-51, section/6/ContinuumEnergyAngle/TabulatedDistribution/src/generateList.hpp:1-47: na becomes an unsigned int;
    the check of LANG comes after the checks of the base class *)
Definition make_tabd1 (lang : Z) (energy : real) (nd na : Z) (es f0s : list real) (mus fs : list (list real)) : out listr :=
  if negb (length es =? length f0s)%nat || negb (length es =? length mus)%nat || negb (length es =? length fs)%nat then Throw EStd
  else let! b := tab_rows (u32 na / 2) es f0s mus fs in
       let l := mklist rzero energy nd na (Z.of_nat (length es)) b in
       let! u := base1 l in if lang_tab lang then Val l else Throw EStd.
(** section/6/ContinuumEnergyAngle/TabulatedDistribution.hpp:58-64: chunk( 2 + NA ), in each drop( 2 ) | stride( 2 ) *)
Definition td_MU (l : listr) : list (list real) := map (fun c => stride 2 (skipn 2 c)) (chunk_rows (Z.to_nat (2 + lL2 l)) l).
(** section/6/ContinuumEnergyAngle/TabulatedDistribution.hpp:74-80: chunk( 2 + NA ), in each drop( 3 ) | stride( 2 ) *)
Definition td_F (l : listr) : list (list real) := map (fun c => stride 2 (skipn 3 c)) (chunk_rows (Z.to_nat (2 + lL2 l)) l).

(** ** ThermalScatteringData *)
(** section/6/ContinuumEnergyAngle/ThermalScatteringData/src/ctor.hpp:26-28: nothing is checked *)
Definition make_thermal1 (energy : real) (n2 : Z) (data : list real) : listr := mklist rzero energy 0 0 n2 data.
(** section/6/ContinuumEnergyAngle/ThermalScatteringData/src/ctor.hpp:36-38, section/6/ContinuumEnergyAngle/ThermalScatteringData/src/generateList.hpp:1-7 *)
Definition make_thermal_cosines (energy : real) (cosines : list real) : listr :=
  mklist rzero energy 0 0 (Z.of_nat (length cosines) + 2) (energy :: of_int 1 :: cosines).
(** section/6/ContinuumEnergyAngle/ThermalScatteringData.hpp:57: an int divided by a long *)
Definition th_NEP (l : listr) : out Z := if lN2 l =? 0 then Undef else Val (i32 (Z.quot (i32 (npl l)) (lN2 l))).
(** section/6/ContinuumEnergyAngle/ThermalScatteringData.hpp:67: front() of an empty list is undefined *)
Definition th_LTT (l : listr) : out Z := match lB l with [] => Undef | x :: _ => Val (if req x (lC2 l) then 6 else 5) end.
(** section/6/ContinuumEnergyAngle/ThermalScatteringData.hpp:72-75: a stride that is not positive is undefined *)
Definition th_EP (l : listr) : out (list real) := if lN2 l <=? 0 then Undef else Val (stride (Z.to_nat (lN2 l)) (lB l)).
(** section/6/ContinuumEnergyAngle/ThermalScatteringData.hpp:85-89 *)
Definition th_PP (l : listr) : out (list real) :=
  if lN2 l <=? 0 then Undef else let! b := drop_exactly 1 (lB l) in Val (stride (Z.to_nat (lN2 l)) b).
(** section/6/ContinuumEnergyAngle/ThermalScatteringData.hpp:94-101: in each chunk of N2 numbers drop_exactly( 2 ) *)
Definition th_MU (l : listr) : out (list (list real)) :=
  if lN2 l <=? 0 then Undef else all_val (map (drop_exactly 2) (chunk_rows (Z.to_nat (lN2 l)) l)).
