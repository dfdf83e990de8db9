(** Sec8Spec.v -- what representable and consistent mean for File 8. *)
From Verif Require Import Base Disco Records RealRound RealProofs Spec SecSpec Sec9Spec Sec6 Sec6Spec Sec33Spec Sec8.
Open Scope Z_scope.

(** four numbers for each fission product *)
Definition inv_yield (l : listr) : Prop := values_are l (fun n => 4 * n).
(** 3 or 17 average energies, each with its uncertainty (a last number without uncertainty is ignored) *)
Definition inv_energies (l : listr) : Prop := exists n, as_int (len (lB l) / 2) n /\ (n = 3 \/ n = 17).
(** six numbers for each decay mode; none: six numbers *)
Definition inv_modes (l : listr) : Prop := values_are l (fun n => if n =? 0 then 6 else 6 * n).
(** 4, 6 or 12 numbers *)
Definition inv_discrete (l : listr) : Prop := exists n, as_int (len (lB l)) n /\ (n = 4 \/ n = 6 \/ n = 12).
Definition rep_spectrum8 (x : spectrum8) : Prop :=
  endf_list (sp_data x) /\ Forall endf_list (sp_discrete x) /\ (forall t, sp_cont x = Some t -> rep_tab1 t).
(** LCON: 0 without continuous spectrum, else with; 2 only with some discrete spectrum; no covariances *)
Definition inv_spectrum8 (x : spectrum8) : Prop :=
  as_int (lN2 (sp_data x)) (len (sp_discrete x)) /\ Forall inv_discrete (sp_discrete x)
  /\ (as_int (lL1 (sp_data x)) 0 <-> sp_cont x = None) /\ (forall t, sp_cont x = Some t -> inv_tab1 t)
  /\ (as_int (lL1 (sp_data x)) 2 -> sp_discrete x <> []) /\ as_int (lL2 (sp_data x)) 0.
Definition rep_decay8 (d : decay8) : Prop := endf_list (d_energies d) /\ endf_list (d_modes d) /\ Forall rep_spectrum8 (d_spectra d).
Definition inv_decay8 (d : decay8) : Prop :=
  0 <= d_lis d < 2 ^ 32 /\ 0 <= d_liso d < 2 ^ 32 /\ inv_energies (d_energies d) /\ inv_modes (d_modes d) /\ many_of inv_spectrum8 (d_spectra d).

(** ** texts without undefined behaviour: no LIST record announces more than 2 ^ 28 components *)
Definition tame_yields (mt : Z) (text : text) : Prop :=
  forall mat ln k ls s1 l s2, rd_n (rd_list mat 8 mt) k (mkst text ln) = Ok ls s1 -> rd_list mat 8 mt s1 = Ok l s2 -> small l.
(** ... for decay data the second one *)
Definition tame457 (text : text) : Prop :=
  forall mat ln e s1 l s2, rd_list mat 8 457 (mkst text ln) = Ok e s1 -> rd_list mat 8 457 s1 = Ok l s2 -> small l.
