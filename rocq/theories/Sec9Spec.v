(** Sec9Spec.v -- what representable and consistent mean for the sections of
    Files 9, 10, 12 to 15 and 28.  [rep_...]: the numbers fit their columns and the
    counts are below 2^31; [inv_...]: what reading guarantees. *)
From Verif Require Import Base Disco Records RealRound RealProofs Spec SecSpec Sec9.
Open Scope Z_scope.

(** a level number and a table per product *)
Definition rep_levels (b : levels) : Prop := Forall rep_tab1 (lv_products b).
Definition inv_levels (b : levels) : Prop :=
  int32 (lv_lis b) /\ Forall inv_tab1 (lv_products b) /\ len (lv_products b) < 2 ^ 31.

(** one table per photon, and the total if and only if there is not exactly one photon *)
Definition rep_multiplicities (m : multiplicities) : Prop :=
  (forall t, mu_total m = Some t -> rep_tab1 t) /\ Forall rep_tab1 (mu_partials m).
Definition inv_multiplicities (m : multiplicities) : Prop :=
  0 < len (mu_partials m) < 2 ^ 31 /\ Forall inv_tab1 (mu_partials m)
  /\ (len (mu_partials m) = 1 -> mu_total m = None)
  /\ (len (mu_partials m) <> 1 -> exists t, mu_total m = Some t /\ inv_tab1 t).
(** two or three numbers for each of the NT transitions, rounded down *)
Definition inv_transitions (l : listr) : Prop :=
  lN2 l <> 0 /\ (as_int (Z.quot (len (lB l)) (lN2 l)) 2 \/ as_int (Z.quot (len (lB l)) (lN2 l)) 3).
Definition rep_production (p : production) : Prop :=
  match p with Multiplicities m => rep_multiplicities m | TransitionProbabilities l => endf_list l end.
Definition inv_production (p : production) : Prop :=
  match p with Multiplicities m => inv_multiplicities m | TransitionProbabilities l => inv_transitions l end.

(** a probability with LF = 1 and the spectra *)
Definition rep_p15 (p : partial15) : Prop := rep_tab1 (p15_prob p) /\ rep_seq rep_tab1 (p15_spec p).
Definition inv_p15 (p : partial15) : Prop :=
  inv_tab1 (p15_prob p) /\ as_int (tL2 (tbase (p15_prob p))) 1 /\ inv_seq inv_tab1 any (p15_spec p).
(** at least one entry *)
Definition some_of {A} (inv : A -> Prop) (l : list A) : Prop := Forall inv l /\ 0 < len l < 2 ^ 31.
Definition many_of {A} (inv : A -> Prop) (l : list A) : Prop := Forall inv l /\ len l < 2 ^ 31.

(** isotropic photons first, then distributions of one kind *)
Definition rep_photon14 (p : photon14) : Prop :=
  match p with
  | Isotropic14 eg es => endf_real eg /\ endf_real es
  | Legendre14 q => rep_seq endf_list q
  | Tabulated14 q => rep_seq rep_tab1 q
  end.
Definition inv_photon14 (p : photon14) : Prop :=
  match p with
  | Isotropic14 _ _ => True
  | Legendre14 q => inv_seq any any q
  | Tabulated14 q => inv_seq inv_tab1 any q
  end.
Definition rep_body14 (b : body14) : Prop := Forall rep_photon14 (photons_of b) /\ len (photons_of b) < 2 ^ 31.
Definition inv_body14 (b : body14) : Prop :=
  Forall inv_photon14 (photons_of b)
  /\ (exists iso ani k, photons_of b = iso ++ ani
        /\ Forall (fun p => LTT_photon p = 0) iso /\ Forall (fun p => LTT_photon p = k) ani /\ (k = 1 \/ k = 2))
  /\ match b with AllIsotropic nk => int32 nk | Photons _ _ => True end.
