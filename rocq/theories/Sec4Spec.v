(** Sec4Spec.v -- what representable and consistent mean for Files 4 and 5. *)
From Verif Require Import Base Disco Records RealRound RealProofs Spec SecSpec Sec4.
Open Scope Z_scope.

(** two numbers with the same value *)
Definition same_real (a b : real) : Prop := real_le a b /\ real_le b a.
(** the last Legendre incident energy is the first tabulated one *)
Definition joined (q : iseq listr) (r : iseq tab1) : Prop :=
  exists ls l t ts, isrec q = ls ++ [l] /\ isrec r = t :: ts /\ same_real (lC2 l) (tC2 (tbase t)).
Definition rep_dist4 (d : dist4) : Prop :=
  match d with
  | Isotropic4 => True
  | Legendre4 q => rep_seq endf_list q
  | Tabulated4 q => rep_seq rep_tab1 q
  | Mixed4 q r => rep_seq endf_list q /\ rep_seq rep_tab1 r
  end.
Definition inv_dist4 (d : dist4) : Prop :=
  match d with
  | Isotropic4 => True
  | Legendre4 q => inv_seq any any q
  | Tabulated4 q => inv_seq inv_tab1 any q
  | Mixed4 q r => (inv_seq any any q /\ inv_seq inv_tab1 any r) /\ joined q r
  end.
Definition rep_body4 (b : body4) : Prop := rep_dist4 (dist_of4 b).
Definition inv_body4 (b : body4) : Prop := int32 (lct4 b) /\ inv_dist4 (dist_of4 b).

(** File 5: a probability whose LF is that of the spectrum *)
Definition rep_dist5 (d : dist5) : Prop :=
  match d with
  | TabulatedSpectrum q => rep_seq rep_tab1 q
  | GeneralEvaporation a b | Watt a b => rep_tab1 a /\ rep_tab1 b
  | MaxwellianFission t | Evaporation t | MadlandNix t => rep_tab1 t
  end.
Definition inv_dist5 (d : dist5) : Prop :=
  match d with
  | TabulatedSpectrum q => inv_seq inv_tab1 any q
  | GeneralEvaporation a b | Watt a b => inv_tab1 a /\ inv_tab1 b
  | MaxwellianFission t | Evaporation t | MadlandNix t => inv_tab1 t
  end.
Definition rep_p5 (p : partial5) : Prop := rep_tab1 (p5_prob p) /\ rep_dist5 (p5_dist p).
Definition inv_p5 (p : partial5) : Prop :=
  inv_tab1 (p5_prob p) /\ as_int (tL2 (tbase (p5_prob p))) (LF5 (p5_dist p)) /\ inv_dist5 (p5_dist p).
