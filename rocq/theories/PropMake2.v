(** PropMake2.v -- C65: which sections of 1/451 and 2/152 can be made from their parts. *)
From Coq Require Import ZifyBool ZifyNat.
From Verif Require Import Base Disco Records RealRound RealProofs Spec Sections SecSpec Codec SectionProofs SecKit CodecKit PropRecords Sec1 Sec1Spec Sec451 Sec451Spec Sec9 Sec9Spec Sec4 Sec4Spec Sec6 Sec6Spec Sec6Proofs
  Sec33 Sec33Spec Sec33Proofs Sec8 Sec8Spec Sec8Proofs Sec7 Sec7Spec Sec7Proofs PropSec7 Sec2 Sec2Spec Sec2Proofs PropSec2 PropSec33 Sec28 Sec28Proofs Sec32 Sec32Spec Fission Parts PropNamed Classes PropClasses ExKit Make PropMake Sec451Proofs PropSec451.
Open Scope Z_scope.
Lemma skip_skip {A} : forall a b (v : list A), skipn a (skipn b v) = skipn (b + a) v.
Proof. intros a b. revert a. induction b as [|b IH]; intros a v; [reflexivity|]. destruct v as [|x v]; [now rewrite !skipn_nil|]. cbn [skipn Nat.add]. apply IH. Qed.
Lemma five_sized m : forall a b c d e, Forall (fun r => length r = m) a -> Forall (fun r => length r = m) b -> Forall (fun r => length r = m) c -> Forall (fun r => length r = m) d -> Forall (fun r => length r = m) e ->
  Forall (Forall (fun r => length r = m)) (five a b c d e).
Proof.
  induction a as [|x a IH]; intros [|x2 b] [|x3 c] [|x4 d] [|x5 e] A B C D E; try constructor; apply Forall_cons_iff in A, B, C, D, E; [repeat constructor; tauto|apply IH; tauto].
Qed.
Lemma shield_split : forall n m v, length v = (n * (1 + m * 5))%nat -> exists es tot el fi ca cw, length es = n /\ Forall (fun x => length x = n) [tot; el; fi; ca; cw]
  /\ Forall (fun x => Forall (fun r => length r = m) x) [tot; el; fi; ca; cw] /\ v = shield_rows es (five tot el fi ca cw).
Proof.
  induction n as [|n IH]; intros m v L.
  - destruct v; [|discriminate L]. exists [], [], [], [], [], []. repeat (split; [repeat constructor|]). reflexivity.
  - destruct v as [|e v]; [discriminate L|]. cbn [length] in L.
    destruct (IH m (skipn (m * 5) v)) as (es & tot & el & fi & ca & cw & L0 & L1 & L2 & E); [rewrite skipn_length; lia|].
    exists (e :: es), (firstn m v :: tot), (firstn m (skipn m v) :: el), (firstn m (skipn (m + m) v) :: fi), (firstn m (skipn (m + m + m) v) :: ca), (firstn m (skipn (m + m + m + m) v) :: cw).
    fcons L1. fcons L2. split; [cbn; lia|]. split; [repeat constructor; cbn [length]; lia|].
    assert (K : forall k, (k + m <= m * 5)%nat -> length (firstn m (skipn k v)) = m) by (intros k Hk; rewrite firstn_length, skipn_length; lia).
    split. { assert (K0 := K 0%nat ltac:(lia)). cbn [skipn] in K0. repeat (constructor; [constructor; [first [exact K0|apply K; lia]|assumption]|]). constructor. }
    cbn [five shield_rows concat]. rewrite <- E. f_equal. rewrite app_nil_r, <- !app_assoc.
    assert (W : forall k, firstn m (skipn k v) ++ skipn (k + m) v = skipn k v) by (intros k; rewrite <- (firstn_skipn m (skipn k v)) at 2; f_equal; symmetry; apply skip_skip).
    replace (m * 5)%nat with (m + m + m + m + m)%nat by lia. rewrite W, W, W, W. symmetry. apply firstn_skipn.
Qed.
(** a section of MF2/MT152 can be made if C2 of its list is zero and it has five reactions and counts that are not negative *)
Theorem C65_makable_152 : forall za x, let l := sh_data x in inv_152 x -> int32 (lL2 l) -> int32 (lN2 l) -> len (lB l) < 2 ^ 31 ->
  ((exists f o, maker K2_152 f o /\ o za = Val x) <-> lC2 l = rzero /\ lL1 l = 5 /\ 0 <= lL2 l /\ 0 <= lN2 l).
Proof.
  intros za x l V H2 H3 HB. split.
  - subst l. clear V H2 H3 HB. intros (f & o & M & E).
    assert (W : forall c f o, maker c f o -> match c return (Z -> out (sbody c)) -> Prop with K2_152 => fun o => o za = Val x -> lC2 (sh_data x) = rzero /\ lL1 (sh_data x) = 5 /\ 0 <= lL2 (sh_data x) /\ 0 <= lN2 (sh_data x) | _ => fun _ => True end o).
    { clear M E f o. intros c g u N. destruct N; try exact Logic.I; intros F.
      - unfold make_152 in F. apply obind_val in F. destruct F as (bb & _ & F). apply obind_val in F. destruct F as ([] & _ & F). injection F as <-. cbn [sh_data lC2 lL1 lL2 lN2]. repeat split; lia.
      - unfold make_152_infinite in F. destruct (negb _); [discriminate|]. apply obind_val in F. destruct F as ([] & _ & F). injection F as <-. cbn [sh_data lC2 lL1 lL2 lN2]. repeat split; lia. }
    exact (W _ _ _ M E).
  - intros (E1 & E2 & P2 & P3). destruct V as (V1 & V2). assert (V3 := V2). destruct V2 as (nr & ns & nu & nw & A1 & A2 & A3 & A4 & _ & _ & _ & EN). fold l in A1, A2, A3, A4, EN, V3. rewrite E2 in A1.
    apply as_int_get in A1, A2, A3, A4. change (i32 5) with 5 in A1. rewrite i32_id in A2, A3 by assumption. rewrite i32_id in A4 by (assert (Q := len_nonneg (lB l)); unfold int32; lia). subst nr ns nu nw.
    set (m := Z.to_nat (lL2 l)). set (n := Z.to_nat (lN2 l)). assert (LB : length (lB l) = (n * (1 + m * 5) + m)%nat) by (unfold len in EN; unfold n, m; nia).
    destruct (shield_split n m (skipn m (lB l))) as (es & tot & el & fi & ca & cw & L0 & L1 & L2 & E); [rewrite skipn_length; lia|].
    assert (LF : length (firstn m (lB l)) = m) by (rewrite firstn_length; lia).
    do 2 eexists. split; [apply (mk152 (sh_lssf x) (sh_interpolation x) (lC1 l) (firstn m (lB l)) es tot el fi ca cw)|]. cbv beta.
    assert (B : shield_list (firstn m (lB l)) es tot el fi ca cw = Val (lB l)).
    { unfold shield_list. rewrite L0, LF. 
      replace (all_sized _ _) with true; [|symmetry; apply all_sized_spec; [unfold n, int32 in *; lia|exact L1]]. cbn [negb].
      replace (forallb _ _) with true; [rewrite <- E, firstn_skipn; reflexivity|]. symmetry. apply forallb_forall. intros y Hy. apply all_sized_spec; [unfold m, int32 in *; lia|].
      fcons L1. fcons L2. assert (Q := five_sized m tot el fi ca cw ltac:(assumption) ltac:(assumption) ltac:(assumption) ltac:(assumption) ltac:(assumption)). rewrite Forall_forall in Q. exact (Q y Hy). }
    unfold make_152. rewrite B. cbn [obind]. rewrite L0, LF. unfold m, n. rewrite !Z2Nat.id by lia. rewrite <- E1, <- E2. destruct x as [a b [C1 C2 X1 X2 X3 X4]]. unfold l in *. cbn [sh_data sh_lssf sh_interpolation lC1 lC2 lL1 lL2 lN2 lB] in *.
    rewrite (proj2 (check_152_spec _) V3). reflexivity.
Qed.
(** a section of MF1/MT451 can be made if the three fields that have no name are zero *)
Theorem C65_makable_451 : forall za b, inv_descr b -> int32 (n1 (d_c2 b)) -> int32 (n2 (d_c2 b)) -> Forall noLF (d_text b) ->
  ((exists f o, maker K1_451 f o /\ o za = Val b) <-> n1 (d_c0 b) = 0 /\ l2 (d_c1 b) = 0 /\ l2 (d_c2 b) = 0).
Proof.
  intros za b V H1 H2 N. split.
  - intros (f & o & M & E).
    assert (W : forall c f o, maker c f o -> match c return (Z -> out (sbody c)) -> Prop with K1_451 => fun o => o za = Val b -> n1 (d_c0 b) = 0 /\ l2 (d_c1 b) = 0 /\ l2 (d_c2 b) = 0 | _ => fun _ => True end o).
    { intros c g u X. destruct X; try exact Logic.I; intros F. injection F as <-. auto. }
    exact (W _ _ _ M E).
  - destruct b as [lrp lfi nlib nmod [x1 x2 x3 x4 x5 x6] [y1 y2 y3 y4 y5 y6] [z1 z2 z3 z4 z5 z6] ts idx]. cbn [d_c0 d_c1 d_c2 d_text n1 n2 l2] in *. intros (-> & -> & ->). destruct V as (_ & _ & _ & _ & _ & _ & V1 & V2).
    cbn [d_c2 d_text d_index n1 n2] in *. assert (K1 := len_cast _ _ V1). assert (K2 := len_cast _ _ V2). apply as_int_get in V1, V2. rewrite i32_id in V1, V2 by assumption.
    do 2 eexists. split; [apply (mk451 lrp lfi nlib nmod x1 x2 x3 x4 x6 y1 y2 y3 y5 y6 z1 z3 (flat_map (fun l => l ++ [LF]) ts) idx z2)|]. cbv beta.
    assert (S : split_lines (flat_map (fun l => l ++ [LF]) ts) = ts) by (rewrite <- (app_nil_r (flat_map _ ts)), split_lines_text by exact N; apply app_nil_r).
    rewrite S, !i32_id, V1, V2 by (unfold int32, len in *; lia). reflexivity.
Qed.
(** and sections that have something there are read, so they cannot be made *)
Theorem C65_unnamed_451_refuted : exists b, inv_descr b /\ rep_descr b /\ forall f o za, maker K1_451 f o -> o za <> Val b.
Proof.
  pose (b := mkdescr 1 0 4 0 (mkcont r_pi r_one 0 0 7 6) (mkcont r_one r_tiny 1 0 10 8) (mkcont r_pi r_one 0 0 2 3) [x_text1; blanks 66] [mkdir 1 451 9 5; mkdir 3 1 4 0; mkdir 3 2 4 1]).
  destruct C36_example as (_ & _ & R & V). assert (V' : inv_descr b) by exact V. destruct R as (R1 & R2 & R3 & R4 & R5). assert (R' : rep_descr b). { split; [unfold b; cbn [d_c0]; xt|]. split; [exact R2|]. split; [exact R3|]. split; [exact R4|exact R5]. }
  exists b. split; [exact V'|]. split; [exact R'|]. intros f o za M E.
  assert (N : Forall noLF (d_text b)) by (eapply Forall_impl; [|exact R4]; intros t Ht; apply Ht).
  destruct (proj1 (C65_makable_451 za b V' ltac:(cbn; unfold int32; lia) ltac:(cbn; unfold int32; lia) N)) as (K & _); [eauto|discriminate K].
Qed.
(** nor the section of C46's example, which has a number in C2 of its list *)
Theorem C65_unnamed_152_refuted : inv_152 xshield /\ rep_152 xshield /\ forall f o za, maker K2_152 f o -> o za <> Val xshield.
Proof.
  destruct C46_example_152 as (_ & _ & R & V). split; [exact V|]. split; [exact R|]. intros f o za M E.
  destruct (proj1 (C65_makable_152 za xshield V ltac:(cbn; unfold int32; lia) ltac:(cbn; unfold int32; lia) ltac:(vm_compute; reflexivity))) as (K & _); [eauto|discriminate K].
Qed.
Example C65_makable_examples : (exists f o, maker K2_152 f o /\ o 92235 = Val (mkshielding true 5 (mklist r_pi rzero 5 2 1 (lB (sh_data xshield))))) /\ exists f o, maker K1_451 f o /\ o 1001 = Val (s_body x_451).
Proof.
  destruct C46_example_152 as (_ & _ & _ & V). destruct C36_example as (_ & _ & R & W). split.
  - apply C65_makable_152; [exact V|cbn; unfold int32; lia|cbn; unfold int32; lia|vm_compute; reflexivity|]. split; [reflexivity|]. split; [reflexivity|]. split; vm_compute; discriminate.
  - apply C65_makable_451; [exact W|cbn; unfold int32; lia|cbn; unfold int32; lia| |cbn; auto]. destruct R as (_ & _ & _ & R & _). eapply Forall_impl; [|exact R]. intros t Ht. apply Ht.
Qed.
