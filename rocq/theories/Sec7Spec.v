(** Sec7Spec.v -- what representable and consistent mean for File 7. *)
From Verif Require Import Base Disco Records RealRound RealProofs Spec SecSpec Sec9Spec Sec4Spec Sec6 Sec6Spec Sec7.
Open Scope Z_scope.

(** a table for the first temperature, then a LIST record for each of the other LT ones *)
Definition rep_series (x : series) : Prop := rep_tab1 (se_first x) /\ Forall endf_list (se_more x).
Definition inv_series (x : series) : Prop := inv_tab1 (se_first x) /\ as_int (tL1 (tbase (se_first x))) (len (se_more x)).
(** as many values as energies *)
Definition inv_coherent (x : series) : Prop :=
  inv_series x /\ Forall (fun l => as_int (len (tx (se_first x))) (len (lB l))) (se_more x).
Definition rep_elastic (e : elastic) : Prop :=
  match e with Coherent x => rep_series x | Incoherent t => rep_tab1 t | Mixed x t => rep_series x /\ rep_tab1 t end.
Definition inv_elastic (e : elastic) : Prop :=
  match e with Coherent x => inv_coherent x | Incoherent t => inv_tab1 t | Mixed x t => inv_coherent x /\ inv_tab1 t end.

(** 0 to 3 non-principal scatterers, six numbers for each scatterer, LLN is 0 or 1 *)
Definition inv_constants (l : listr) : Prop :=
  0 <= lN2 l <= 3 /\ as_int (len (lB l)) (6 * (lN2 l + 1)) /\ (as_int (lL1 l) 0 \/ as_int (lL1 l) 1).
(** the same beta in every record *)
Definition inv_function (x : series) : Prop :=
  inv_series x /\ Forall (fun l => same_real (lC2 l) (tC2 (tbase (se_first x)))) (se_more x).
Definition rep_inelastic (w : inelastic) : Prop := match w with Analytical => True | Tabulated q => rep_seq rep_series q end.
Definition inv_inelastic (w : inelastic) : Prop := match w with Analytical => True | Tabulated q => inv_seq inv_function any q end.
(** the numbers with index 6, 12, 18, ...: the kind of each non-principal scatterer *)
Definition kinds (l : listr) (n : nat) : Prop := n = 0%nat \/ (6 * n < length (lB l))%nat.
Definition kind (l : listr) (i : nat) : real := nth (6 * (i + 1)) (lB l) rzero.
Definition rep_thermal (x : thermal) : Prop :=
  endf_list (th_constants x) /\ rep_inelastic (th_law x) /\ rep_tab1 (th_principal x)
  /\ Forall (fun o => forall t, o = Some t -> rep_tab1 t) (th_secondary x).
(** analytical if and only if the first constant is zero; an effective temperature for exactly the
    non-principal scatterers of kind zero *)
Definition inv_thermal (x : thermal) : Prop :=
  (th_lat x = 0 \/ th_lat x = 1) /\ int32 (th_lasym x) /\ inv_constants (th_constants x)
  /\ (same_real (nth 0 (lB (th_constants x)) rzero) rzero <-> th_law x = Analytical) /\ inv_inelastic (th_law x)
  /\ inv_tab1 (th_principal x)
  /\ Forall (fun o => forall t, o = Some t -> inv_tab1 t) (th_secondary x)
  /\ len (th_secondary x) < 2 ^ 32
  /\ (forall n, (n <= length (th_secondary x))%nat <-> kinds (th_constants x) n)
  /\ (forall i o, nth_error (th_secondary x) i = Some o -> (o = None <-> ~ same_real (kind (th_constants x) i) rzero)).

(** six numbers for each isotope *)
Definition inv_element (l : listr) : Prop := values_are l (fun n => 6 * n).

(** ** texts without undefined behaviour *)
(** the first LIST record announces from 0 to 3 non-principal scatterers; or, as an int, more than 3, or
    a number that is not too small and does not go with the number of values *)
Definition tame_constants (l : listr) : Prop :=
  0 <= lN2 l <= 3 \/ forall n, as_int (lN2 l) n -> 3 < n \/ (int32 (6 * (n + 1)) /\ ~ as_int (len (lB l)) (6 * (n + 1))).
Definition tame74 (text : text) : Prop := forall mat ln l s', rd_list mat 7 4 (mkst text ln) = Ok l s' -> tame_constants l.
Definition tame7451 (mt : Z) (text : text) : Prop :=
  forall mat ln k ls s1 l s2, rd_n (rd_list mat 7 mt) k (mkst text ln) = Ok ls s1 -> rd_list mat 7 mt s1 = Ok l s2 -> small l.
