(** Sec451Proofs.v -- section 1/451 satisfies [section_codec]; strings and lines. *)
From Coq Require Import ZifyBool ZifyNat.
From Verif Require Import Base Disco DiscoProofs Records RecordProofs RecordRT RecordSound Layout
  RealRound RealProofs Spec Normal LineFacts Sections SecSpec Codec SectionProofs Tree Sec451 Sec451Spec.
Open Scope Z_scope.

Lemma len_i32 {A} (l : list A) n : as_int n (len l) -> i32 (Z.of_nat (length l)) = Z.of_nat (length l).
Proof. intros [R _]. apply i32_id. exact R. Qed.
Lemma zsum_ones {A} (l : list A) : zsum (map (fun _ => 1) l) = len l.
Proof. unfold len. induction l as [|a l IH]; [reflexivity|]. cbn [map zsum length]. unfold zsum in *. cbn. lia. Qed.

Lemma codec_451 : section_codec sec_451 rep_descr inv_descr.
Proof.
  apply body_codec.
  - split; [cbn; lia|cbn; lia| |].
    + intros b _ (I1 & I2 & I3 & I4 & _). unfold int32 in *. cbn. unfold in_cols. cbn. lia.
    + intros h awr _.
      assert (Ct : forall n, _) by (intros n; exact (cod_sequence _ _ _ _ _ n cod_text)).
      assert (Cd : forall n, _) by (intros n; exact (cod_sequence _ _ _ _ _ n cod_dir)).
      split; intros mat mf mt.
      * intros b G [(R1 & R2 & R3 & R4 & R5) E] (I1 & I2 & I3 & I4 & I5 & I6 & I7 & I8).
        cbn [k_read k_print k_nc sec_451]. unfold rd_descr, pr_descr, nc_descr, NWD, NXC.
        rewrite (len_i32 _ _ I7), (len_i32 _ _ I8). apply as_int_eq in I7, I8.
        eapply reads_k.
        { eapply reads_bind; [apply (co_reads _ _ _ _ _ cod_cont); auto; exact Logic.I|].
          eapply reads_bind; [apply (co_reads _ _ _ _ _ cod_cont); auto; exact Logic.I|].
          eapply reads_bind; [apply (co_reads _ _ _ _ _ cod_cont); auto; exact Logic.I|].
          eapply reads_require_bind; [lia|]. eapply reads_require_bind; [lia|].
          eapply reads_bind; [apply (co_reads _ _ _ _ _ (Ct _)); auto|].
          { split; [apply Forall_forall; intros; exact Logic.I|]. unfold len in I7. lia. }
          eapply reads_bind_r; [apply (co_reads _ _ _ _ _ (Cd _)); auto|].
          { split; [apply Forall_forall; intros; exact Logic.I|]. unfold len in I8. lia. }
          cbn in E. unfold head_ints in E. injection E as E1 E2 E3 E4. rewrite E1, E2, E3, E4, !i32_id by assumption.
          destruct b. apply reads_ret. }
        { rewrite !zsum_ones. unfold len, nc_cont. lia. }
      * intros b G [(R1 & R2 & R3 & R4 & R5) E] (I1 & I2 & I3 & I4 & I5 & I6 & I7 & I8).
        cbn [k_read k_print k_nc sec_451]. unfold pr_descr, nc_descr, NWD, NXC.
        rewrite (len_i32 _ _ I7), (len_i32 _ _ I8). apply as_int_eq in I7, I8. unfold len in *.
        replace (3 + Z.of_nat (length (d_text b)) + Z.of_nat (length (d_index b)))
          with (nc_cont (d_c0 b) + (nc_cont (d_c1 b) + (nc_cont (d_c2 b) + (zsum (map (fun _ => 1) (d_text b)) + zsum (map (fun _ => 1) (d_index b))))))
          by (rewrite !zsum_ones; unfold nc_cont, len; lia).
        repeat (apply layout_app; [apply (co_layout _ _ _ _ _ cod_cont); auto; exact Logic.I|]). apply layout_app.
        -- apply (co_layout _ _ _ _ _ (Ct (n1 (d_c2 b)))); auto. split; [apply Forall_forall; intros; exact Logic.I|]. lia.
        -- apply (co_layout _ _ _ _ _ (Cd (n2 (d_c2 b)))); auto. split; [apply Forall_forall; intros; exact Logic.I|]. lia.
      * cbn [k_read sec_451]. unfold rd_descr. consumes_tac.
      * cbn [k_read sec_451]. unfold rd_descr.
        eapply post_bind; [apply post_true|intros a0 _]. eapply post_bind; [apply post_true|intros a1 _].
        eapply post_bind; [apply post_true|intros a2 _].
        eapply post_bind; [apply post_require|cbv beta; intros _ E1]. eapply post_bind; [apply post_require|cbv beta; intros _ E2].
        eapply post_bind; [apply (co_post _ _ _ _ _ (Ct (n1 a2)))|cbv beta; intros t [_ L1]].
        eapply post_bind; [apply (co_post _ _ _ _ _ (Cd (n2 a2)))|cbv beta; intros x [_ L2]].
        apply post_ret. unfold inv_descr. cbn [d_lrp d_lfi d_nlib d_nmod d_c2 d_text d_index].
        refine (conj (i32_range _) (conj (i32_range _) (conj (i32_range _) (conj (i32_range _) (conj _ (conj _ (conj _ _))))))).
        1,2: lia. 1,2: apply as_int_eq; unfold len; lia.
  - intros h mat mf mt. cbn [k_read sec_451]. unfold rd_descr. std_tac.
Qed.

(** ** strings and lines *)
Lemma noLF_inv c l : noLF (c :: l) -> LF <> c /\ noLF l.
Proof. unfold noLF. cbn. intros H. split; intros K; apply H; auto. Qed.
Lemma split_line l t : noLF l -> split_lines (l ++ LF :: t) = l :: split_lines t.
Proof.
  induction l as [|c l IH]; intros N; cbn [app split_lines].
  - reflexivity.
  - apply noLF_inv in N. destruct N as [N1 N2]. destruct (Ascii.eqb_spec LF c); [congruence|]. now rewrite IH.
Qed.
Lemma split_last l : noLF l -> l <> [] -> split_lines l = [l].
Proof.
  induction l as [|c l IH]; intros N K; [congruence|]. apply noLF_inv in N. destruct N as [N1 N2]. cbn [split_lines].
  destruct (Ascii.eqb_spec LF c); [congruence|]. destruct l as [|c' l]; [reflexivity|]. rewrite IH by (auto; discriminate). reflexivity.
Qed.
Lemma split_lines_text ls t : Forall noLF ls -> split_lines (flat_map (fun l => l ++ [LF]) ls ++ t) = ls ++ split_lines t.
Proof.
  induction 1 as [|l ls N _ IH]; [reflexivity|]. cbn [flat_map app]. rewrite <- !app_assoc. cbn [app].
  rewrite split_line by exact N. now rewrite IH.
Qed.
Lemma join_text ls : ls <> [] -> join_lines ls ++ [LF] = flat_map (fun l => l ++ [LF]) ls.
Proof.
  induction ls as [|l ls IH]; intros K; [congruence|]. destruct ls as [|l' ls].
  - cbn. now rewrite app_nil_r.
  - change (join_lines (l :: l' :: ls)) with (l ++ LF :: join_lines (l' :: ls)).
    rewrite <- app_assoc. cbn [app]. rewrite IH by discriminate. cbn [flat_map]. now rewrite <- !app_assoc.
Qed.
Lemma split_description ls : ls <> [] -> Forall noLF ls -> split_lines (join_lines ls ++ [LF]) = ls.
Proof.
  intros K N. rewrite join_text by exact K.
  rewrite <- (app_nil_r (flat_map _ ls)), split_lines_text by exact N. apply app_nil_r.
Qed.
