(** Views.v -- the objects for one resonance or one spin, made from the chunks of a list record.
    Paths relative to /repo/src/ENDFtk/section.  The subtraction of doubles is a parameter [sub]:
    the theorems hold for every function in its place. *)
From Verif Require Import Base Disco Records Sections SecKit Sec9 Sec6 Sec33 Sec8 Sec7 Sec2 Sec32.
Open Scope Z_scope.

(** ** File 2 *)
(** section/2/151/BreitWignerReichMooreLValueBase.hpp:48-51; section/2/151/BreitWignerLValue.hpp:111-119, section/2/151/ReichMooreLValue.hpp:85-93: resonances() *)
Definition lv_resonances : listr -> list (list real) := chunk_rows 6.
(** section/2/151/BreitWignerLValue/Resonance.hpp:22-84 *)
Definition BW_ER (c : list real) : out real := element c 0.
(** section/2/151/BreitWignerLValue/Resonance.hpp:31 *)
Definition BW_AJ (c : list real) : out real := element c 1.
(** section/2/151/BreitWignerLValue/Resonance.hpp:41 *)
Definition BW_GT (c : list real) : out real := element c 2.
(** section/2/151/BreitWignerLValue/Resonance.hpp:51 *)
Definition BW_GN (c : list real) : out real := element c 3.
(** section/2/151/BreitWignerLValue/Resonance.hpp:61 *)
Definition BW_GG (c : list real) : out real := element c 4.
(** section/2/151/BreitWignerLValue/Resonance.hpp:71 *)
Definition BW_GF (c : list real) : out real := element c 5.
(** section/2/151/BreitWignerLValue/Resonance.hpp:81-84 *)
Definition BW_GX (sub : real -> real -> real) (c : list real) : out real :=
  let! t := BW_GT c in let! n := BW_GN c in let! g := BW_GG c in let! f := BW_GF c in Val (sub (sub (sub t n) g) f).
(** section/2/151/ReichMooreLValue/Resonance.hpp:22-72 *)
Definition RM_ER (c : list real) : out real := element c 0.
(** section/2/151/ReichMooreLValue/Resonance.hpp:31 *)
Definition RM_AJ (c : list real) : out real := element c 1.
(** section/2/151/ReichMooreLValue/Resonance.hpp:41 *)
Definition RM_GN (c : list real) : out real := element c 2.
(** section/2/151/ReichMooreLValue/Resonance.hpp:51 *)
Definition RM_GG (c : list real) : out real := element c 3.
(** section/2/151/ReichMooreLValue/Resonance.hpp:61 *)
Definition RM_GFA (c : list real) : out real := element c 4.
(** section/2/151/ReichMooreLValue/Resonance.hpp:71 *)
Definition RM_GFB (c : list real) : out real := element c 5.
(** section/2/151/BreitWignerLValue.hpp:93-104: zip_with over the four columns *)
Fixpoint zip4 (f : real -> real -> real -> real -> real) (a b c d : list real) : list real :=
  match a, b, c, d with
  | x :: a', y :: b', z :: c', w :: d' => f x y z w :: zip4 f a' b' c' d'
  | _, _, _, _ => []
  end.
(** section/2/151/BreitWignerLValue.hpp:95-101 *)
Definition bw_GX (sub : real -> real -> real) (l : listr) : out (list real) :=
  let! t := bw_GT l in let! n := bw_GN l in let! g := bw_GG l in let! f := bw_GF l in
  Val (zip4 (fun t n g f => sub (sub (sub t n) g) f) t n g f).
(** section/2/151/UnresolvedEnergyIndependent/LValue.hpp:54-62; section/2/151/UnresolvedEnergyIndependent/JValue.hpp:24-115 *)
Definition ui_jvalues : listr -> list (list real) := chunk_rows 6.
(** section/2/151/UnresolvedEnergyIndependent/JValue.hpp:37 *)
Definition UI_D (c : list real) : out real := element c 0.
(** section/2/151/UnresolvedEnergyIndependent/JValue.hpp:27 *)
Definition UI_AJ (c : list real) : out real := element c 1.
(** section/2/151/UnresolvedEnergyIndependent/JValue.hpp:47 *)
Definition UI_AMUN (c : list real) : out Z := let! x := element c 2 in int_op (trunc x).
(** section/2/151/UnresolvedEnergyIndependent/JValue.hpp:90 *)
Definition UI_GN (c : list real) : out real := element c 3.
(** section/2/151/UnresolvedEnergyIndependent/JValue.hpp:100 *)
Definition UI_GG (c : list real) : out real := element c 4.
(** section/2/151/UnresolvedEnergyIndependent/JValue.hpp:57 *)
Definition UI_AMUG (c : list real) : Z := 0.
(** section/2/151/UnresolvedEnergyIndependent/JValue.hpp:67 *)
Definition UI_AMUF (c : list real) : Z := 0.
(** section/2/151/UnresolvedEnergyIndependent/JValue.hpp:77 *)
Definition UI_AMUX (c : list real) : Z := 0.
(** section/2/151/UnresolvedEnergyIndependent/JValue.hpp:110 *)
Definition UI_GF (c : list real) : out real := Val rzero.
(** section/2/151/UnresolvedEnergyIndependent/JValue.hpp:120 *)
Definition UI_GX (c : list real) : out real := Val rzero.

(** ** File 32 *)
(** section/32/151/LimitedBreitWignerLValue/Resonance.hpp:22-182, of the resonances [ll_resonances] *)
Definition LL_ER (c : list real) : out real := element c 0.
(** section/32/151/LimitedBreitWignerLValue/Resonance.hpp:32 *)
Definition LL_AJ (c : list real) : out real := element c 1.
(** section/32/151/LimitedBreitWignerLValue/Resonance.hpp:42 *)
Definition LL_GT (c : list real) : out real := element c 2.
(** section/32/151/LimitedBreitWignerLValue/Resonance.hpp:52 *)
Definition LL_GN (c : list real) : out real := element c 3.
(** section/32/151/LimitedBreitWignerLValue/Resonance.hpp:62 *)
Definition LL_GG (c : list real) : out real := element c 4.
(** section/32/151/LimitedBreitWignerLValue/Resonance.hpp:72 *)
Definition LL_GF (c : list real) : out real := element c 5.
(** section/32/151/LimitedBreitWignerLValue/Resonance.hpp:82 *)
Definition LL_DE2 (c : list real) : out real := element c 6.
(** section/32/151/LimitedBreitWignerLValue/Resonance.hpp:92 *)
Definition LL_DN2 (c : list real) : out real := element c 7.
(** section/32/151/LimitedBreitWignerLValue/Resonance.hpp:102 *)
Definition LL_DNDG (c : list real) : out real := element c 8.
(** section/32/151/LimitedBreitWignerLValue/Resonance.hpp:112 *)
Definition LL_DG2 (c : list real) : out real := element c 9.
(** section/32/151/LimitedBreitWignerLValue/Resonance.hpp:122 *)
Definition LL_DNDF (c : list real) : out real := element c 10.
(** section/32/151/LimitedBreitWignerLValue/Resonance.hpp:132 *)
Definition LL_DGDF (c : list real) : out real := element c 11.
(** section/32/151/LimitedBreitWignerLValue/Resonance.hpp:142 *)
Definition LL_DF2 (c : list real) : out real := element c 12.
(** section/32/151/LimitedBreitWignerLValue/Resonance.hpp:152 *)
Definition LL_DJDN (c : list real) : out real := element c 13.
(** section/32/151/LimitedBreitWignerLValue/Resonance.hpp:162 *)
Definition LL_DJDG (c : list real) : out real := element c 14.
(** section/32/151/LimitedBreitWignerLValue/Resonance.hpp:172 *)
Definition LL_DJDF (c : list real) : out real := element c 15.
(** section/32/151/LimitedBreitWignerLValue/Resonance.hpp:182 *)
Definition LL_DJ2 (c : list real) : out real := element c 16.
(** section/32/151/CompactBreitWignerUncertainties/Resonance.hpp:22-112, of the resonances [cu_resonances] *)
Definition CB_ER (c : list real) : out real := element c 0.
(** section/32/151/CompactBreitWignerUncertainties/Resonance.hpp:32 *)
Definition CB_AJ (c : list real) : out real := element c 1.
(** section/32/151/CompactBreitWignerUncertainties/Resonance.hpp:42 *)
Definition CB_GT (c : list real) : out real := element c 2.
(** section/32/151/CompactBreitWignerUncertainties/Resonance.hpp:52 *)
Definition CB_GN (c : list real) : out real := element c 3.
(** section/32/151/CompactBreitWignerUncertainties/Resonance.hpp:62 *)
Definition CB_GG (c : list real) : out real := element c 4.
(** section/32/151/CompactBreitWignerUncertainties/Resonance.hpp:72 *)
Definition CB_GF (c : list real) : out real := element c 5.
(** section/32/151/CompactBreitWignerUncertainties/Resonance.hpp:82 *)
Definition CB_DER (c : list real) : out real := element c 6.
(** section/32/151/CompactBreitWignerUncertainties/Resonance.hpp:92 *)
Definition CB_DGN (c : list real) : out real := element c 9.
(** section/32/151/CompactBreitWignerUncertainties/Resonance.hpp:102 *)
Definition CB_DGG (c : list real) : out real := element c 10.
(** section/32/151/CompactBreitWignerUncertainties/Resonance.hpp:112 *)
Definition CB_DGF (c : list real) : out real := element c 11.
(** section/32/151/CompactReichMooreUncertainties/Resonance.hpp:22-122, of the resonances [cu_resonances] *)
Definition CR_ER (c : list real) : out real := element c 0.
(** section/32/151/CompactReichMooreUncertainties/Resonance.hpp:32 *)
Definition CR_AJ (c : list real) : out real := element c 1.
(** section/32/151/CompactReichMooreUncertainties/Resonance.hpp:42 *)
Definition CR_GN (c : list real) : out real := element c 2.
(** section/32/151/CompactReichMooreUncertainties/Resonance.hpp:52 *)
Definition CR_GG (c : list real) : out real := element c 3.
(** section/32/151/CompactReichMooreUncertainties/Resonance.hpp:62 *)
Definition CR_GFA (c : list real) : out real := element c 4.
(** section/32/151/CompactReichMooreUncertainties/Resonance.hpp:72 *)
Definition CR_GFB (c : list real) : out real := element c 5.
(** section/32/151/CompactReichMooreUncertainties/Resonance.hpp:82 *)
Definition CR_DER (c : list real) : out real := element c 6.
(** section/32/151/CompactReichMooreUncertainties/Resonance.hpp:92 *)
Definition CR_DGN (c : list real) : out real := element c 8.
(** section/32/151/CompactReichMooreUncertainties/Resonance.hpp:102 *)
Definition CR_DGG (c : list real) : out real := element c 9.
(** section/32/151/CompactReichMooreUncertainties/Resonance.hpp:112 *)
Definition CR_DGFA (c : list real) : out real := element c 10.
(** section/32/151/CompactReichMooreUncertainties/Resonance.hpp:122 *)
Definition CR_DGFB (c : list real) : out real := element c 11.
(** section/32/151/ShortRangeBreitWignerReichMooreBlockBase.hpp:50-54; section/32/151/ShortRangeBreitWignerBlock.hpp:71-79 and
    section/32/151/ShortRangeReichMooreBlock.hpp:71-79 make of the chunks the Resonance objects of File 2 *)
Definition sh_resonances (l : listr) : out (list (list real)) :=
  let! n := int_op (6 * i32 (lN2 l)) in
  let! b := take_exactly n (lB l) in Val (chunks (length b) 6 b).
(** section/32/151/UnresolvedRelativeCovariances/LValue.hpp:54-62, section/32/151/UnresolvedRelativeCovariances/JValue.hpp:24-77 *)
Definition ul_jvalues : listr -> list (list real) := chunk_rows 6.
(** section/32/151/UnresolvedRelativeCovariances/JValue.hpp:31 *)
Definition UL_D (c : list real) : out real := element c 0.
(** section/32/151/UnresolvedRelativeCovariances/JValue.hpp:21 *)
Definition UL_AJ (c : list real) : out real := element c 1.
(** section/32/151/UnresolvedRelativeCovariances/JValue.hpp:41 *)
Definition UL_GNO (c : list real) : out real := element c 2.
(** section/32/151/UnresolvedRelativeCovariances/JValue.hpp:51 *)
Definition UL_GG (c : list real) : out real := element c 3.
(** section/32/151/UnresolvedRelativeCovariances/JValue.hpp:61 *)
Definition UL_GF (c : list real) : out real := element c 4.
(** section/32/151/UnresolvedRelativeCovariances/JValue.hpp:71 *)
Definition UL_GX (c : list real) : out real := element c 5.
