(** PropAtoms.v -- C50, continued: NAS() and NI() of an element of MF7 MT451, made and read. *)
From Coq Require Import ZifyBool.
From Verif Require Import Base Disco Records Spec SecSpec SecKit Sections Sec7 PropSec7 PropRecords PropRecords3 Codec Sec6Proofs Sec7Spec Sec7Proofs.
Open Scope Z_scope.

(** an element made from values: NAS() is the number of principal atoms given, NI() the number of isotopes *)
Theorem C50_atoms : forall atoms ids states afs ws xs l, int32 atoms -> len ids < 2 ^ 31 -> make_element atoms ids states afs ws xs = Val l ->
  ei_NAS l = atoms /\ ei_NI l = len ids /\ lC1 l = rzero /\ lC2 l = rzero /\ lL2 l = 0.
Proof.
  intros atoms ids st afs ws xs l Ha Hi E. assert (Hl : len ids < 2 ^ 32) by lia. destruct (C50_element _ _ _ _ _ _ _ Hl E) as (_ & _ & _ & _ & _ & A & B & _).
  split; [unfold ei_NAS; rewrite A; now apply i32_id|]. split; [now apply B|].
  unfold make_element in E. cbv zeta in E. destruct (_ || _); [discriminate|]. apply obind_val in E. destruct E as (u & _ & E). injection E as <-. auto.
Qed.
Example C50_example_atoms : exists l, make_element 2 [8016; 8017] [0; 0] [rzero; rzero] [rzero; rzero] [rzero; rzero] = Val l /\ ei_NAS l = 2 /\ ei_NI l = 2.
Proof. eexists. split; [vm_compute; reflexivity|]. split; reflexivity. Qed.

(** an element read from a text: NAS() and NI() are the numbers in columns 23-33 and 56-66 of its first line *)
Theorem C50_atoms_read : forall mat mf mt s l s' a n, Sec6.rd_checked check_element mat mf mt s = Ok l s' ->
  read_int (col 22 11 (nth_line (buf s) 0)) = Some a -> read_int (col 55 11 (nth_line (buf s) 0)) = Some n ->
  (int32 a -> ei_NAS l = a) /\ (int32 n -> ei_NI l = n /\ (len (lB l) < 2 ^ 31 -> len (lB l) = 6 * n)).
Proof.
  intros mat mf mt s l s' a n E Ka Kn. unfold Sec6.rd_checked in E. apply bind_ok in E. destruct E as (l0 & s1 & E & K). apply bind_ok in K. destruct K as (u & s2 & K & R).
  injection R as -> _. destruct (C42_list_columns _ _ _ _ _ _ E) as ((_ & _ & A & _ & N1 & B) & _). rewrite A in Ka. rewrite B in Kn. injection Ka as <-. injection Kn as <-.
  split; [intros H; unfold ei_NAS; now apply i32_id|]. intros H. unfold ei_NI. rewrite i32_id by exact H. split; [reflexivity|].
  unfold lift in K. destruct (check_element l) as [v|e|] eqn:C; [|discriminate K..].
  destruct v. apply check_element_spec in C. destruct C as (nl & nw & C1 & C2 & C3). intros G. apply as_int_get in C1, C2. rewrite i32_id in C1 by exact H.
  rewrite i32_id in C2 by (unfold int32, len in *; lia). lia.
Qed.
