(** Sec1Spec.v -- what representable and consistent mean for the sections of
    File 1.  [rep_...]: the numbers fit their columns and the counts are below
    2^31; [inv_...]: what every constructor guarantees. *)
From Verif Require Import Base Disco Records RealRound RealProofs Spec SecSpec Sec1.
Open Scope Z_scope.

Definition rep_mult (m : mult) : Prop :=
  match m with PolynomialMultiplicity l => endf_list l | TabulatedMultiplicity t => rep_tab1 t end.
Definition inv_mult (m : mult) : Prop :=
  match m with PolynomialMultiplicity _ => True | TabulatedMultiplicity t => inv_tab1 t end.

(** decay constants: a non-empty list of pairs, the same number at every energy *)
Definition inv_decay (l : listr) : Prop :=
  exists n, as_int (len (lB l)) n /\ n <> 0 /\ exists p, n = 2 * p.
(** the number of precursor families, as an int *)
Definition families (l : listr) : Z := i32 (len (lB l) / 2).
Definition rep_decay_data (d : decay) : Prop :=
  match d with
  | EnergyIndependent l => endf_list l
  | EnergyDependent q => rep_seq endf_list q
  end.
Definition inv_decay_data (d : decay) : Prop :=
  match d with
  | EnergyIndependent _ => True
  | EnergyDependent q =>
      inv_seq inv_decay (fun ls => forall l l', In l ls -> In l' ls -> families l = families l') q
  end.

Definition count {A} (l : list (option A)) : Z := len (somes l).
(** nine optional tables, the table in slot i (from 1) having IFC = i and LDRV 1 or 2 *)
Definition inv_tables (r : list (option tab1)) : Prop :=
  length r = 9%nat /\ forall i t, nth_error r i = Some (Some t) ->
    inv_tab1 t /\ as_int (tL2 (tbase t)) (Z.of_nat i + 1)
    /\ (as_int (tL1 (tbase t)) 1 \/ as_int (tL1 (tbase t)) 2).
Definition rep_fission_q (q : fission_q) : Prop :=
  match q with
  | ThermalPoint l | Polynomial l => endf_list l /\ len (lB l) < 2 ^ 31
  | Tabulated _ l r => endf_list l /\ Forall rep_tab1 (somes r)
  end.
Definition inv_fission_q (q : fission_q) : Prop :=
  match q with
  | ThermalPoint l => lL2 l = 0 /\ len (lB l) = 18
  | Polynomial l => lL2 l <> 0 /\ len (lB l) = (lL2 l + 1) * 18
  | Tabulated n l r => as_int (len (lB l)) 18 /\ inv_tables r /\ n = count r
  end.

Definition rep_photons (p : photons) : Prop :=
  match p with
  | DiscretePhotons l => Forall rep_tab1 l
  | ContinuousPhotons l => endf_list l
  end.
Definition inv_photons (p : photons) : Prop :=
  match p with
  | DiscretePhotons l => Forall inv_tab1 l /\ 0 < len l < 2 ^ 31
  | ContinuousPhotons l => exists n, as_int (len (lB l)) n /\ 0 < n
  end.
