(** Sec28Proofs.v -- specification of a subshell, and the proofs about File 28. *)
From Coq Require Import ZifyBool ZifyNat.
From Verif Require Import Base Disco DiscoProofs Records RecordProofs RecordRT RecordSound Layout RealRound RealProofs Spec Sections SecSpec Codec SectionProofs SecKit CodecKit
  Sec9 Sec9Spec Sec9Proofs Sec6 Sec6Spec Sec6Proofs Sec6Safe Sec33 Sec33Spec Sec33Proofs Sec33Safe Sec8 Sec8Spec Sec8Proofs Sec7 Sec2 Sec2Proofs Sec28.
Open Scope Z_scope.

(** a row of six for the subshell and one for each of the NTR transitions *)
Definition inv_subshell (l : listr) : Prop := values_are l (fun n => 6 * (n + 1)).
(** texts without undefined behaviour: no LIST record announces more than 2 ^ 28 components *)
Definition tame28 (mt : Z) (text : text) : Prop :=
  forall mat ln k ls s1 l s2, rd_n (rd_list mat 28 mt) k (mkst text ln) = Ok ls s1 -> rd_list mat 28 mt s1 = Ok l s2 -> small l.

Lemma check_subshell_spec l : check_subshell l = Val tt <-> inv_subshell l.
Proof.
  unfold check_subshell, inv_subshell, values_are, ss_NTR. replace (i32 (u32 (lN2 l))) with (i32 (lN2 l)) by (symmetry; apply i32_u32). split.
  - intros E. apply obind_val in E as (a & E1 & E). apply obind_val in E as (p & E2 & E). apply int_op_val in E1 as [-> _], E2 as [-> _]. apply ensure_val in E.
    exists (i32 (lN2 l)), (i32 (npl l)). split; [apply as_int_i32|]. split; [apply as_int_i32|lia].
  - intros (n & p & A & B & E). assert (In : int32 p) by apply B. apply as_int_get in A, B. rewrite A. unfold int32 in In. assert (I1 : int32 (n + 1)) by (unfold int32; lia). assert (I2 : int32 ((n + 1) * 6)) by (unfold int32; lia).
    rewrite (proj2 (int_op_val _ _) (conj eq_refl I1)). cbn [obind]. rewrite (proj2 (int_op_val _ _) (conj eq_refl I2)). cbn [obind]. apply ensure_val. unfold npl. fold (len (lB l)). lia.
Qed.
Lemma body_28 : body_cod sec_28 (Forall endf_list) (many_of inv_subshell).
Proof.
  split; [cbn; lia|exact Logic.I| |].
  - intros m R [I1 I2]. cbn. ints4. apply cols32, int32_len, I2.
  - intros h awr _. apply (cod_imp _ _ _ _ _ (cod_all _ _ _ _ _ (n1 (sbase h)) (cod_checked _ _ check_subshell_spec))).
    + intros l [R E] [I1 I2]. unfold head_ints in E. injection E as E1 E2 E3 E4. rewrite E3. fold (len l). rewrite i32_id by (apply int32_len, I2). auto.
    + intros l [F L]. split; [exact F|]. rewrite L. apply i32_pos_bound.
Qed.
Lemma rt_28 : section_rt sec_28 (Forall endf_list) (many_of inv_subshell).
Proof. apply body_section, body_28. Qed.
Lemma safe_28 h mat s : int32 (round_int (c1 (sbase h))) -> tame28 (smt h) (buf s) -> never_other (rd_section sec_28 h mat s).
Proof.
  intros Hz Tm. apply never_section_any; [exact Hz|]. cbn [sec_28 k_read k_mf]. change (k_rmt sec_28 h) with (smt h). change (k_rmat sec_28 h mat) with mat.
  apply never_all. intros k ls s1 L F. apply rd_n_checked in F. apply never_checked. intros l s2 E2. destruct s as [b ln].
  assert (H := Tm mat ln k ls s1 l s2 F E2). apply small_i32 in H. unfold check_subshell, ss_NTR. replace (i32 (u32 (lN2 l))) with (i32 (lN2 l)) by (symmetry; apply i32_u32).
  apply never_op; [unfold int32; lia|]. apply never_op; [unfold int32; lia|]. apply never_ensure.
Qed.
