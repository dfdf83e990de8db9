(** PropSec28.v -- C54: File 28, atomic relaxation data. *)
From Coq Require Import ZifyBool ZifyNat.
From Verif Require Import Base Disco DiscoProofs Records RecordProofs RecordRT RecordSound Layout RealRound RealProofs Spec Sections SecSpec Codec SectionProofs SecKit CodecKit PropRecords
  Sec9 Sec9Spec Sec9Proofs Sec6 Sec6Spec Sec6Proofs Sec6Safe Sec33 Sec33Spec Sec33Proofs Sec33Safe Sec8 Sec8Spec Sec8Proofs Sec7 Sec2 Sec2Spec Sec2Proofs Sec28 Sec28Proofs ExKit PropSec6 PropSec33 PropSec8 PropSec7 PropSec2.
Open Scope Z_scope.

Theorem C54_mf28 : section_rt sec_28 (Forall endf_list) (many_of inv_subshell).
Proof. exact rt_28. Qed.
Theorem C54_mf28_safe : forall h mat s, int32 (round_int (c1 (sbase h))) -> tame28 (smt h) (buf s) -> never_other (rd_section sec_28 h mat s).
Proof. exact safe_28. Qed.
Example C54_example_28 : meets sec_28 (Forall endf_list) (many_of inv_subshell)
  (mksect 92000 r_pi 533 [xlist 0 0 1 [r_one; r_pi; r_one; r_one; r_tiny; r_one; r_one; r_one; r_pi; r_tiny; r_one; r_one]]).
Proof.
  unfold meets, many_of; cbn [s_body]. split; [xt|]. split; [xt|]. split; [xt|].
  split; [|xt]. constructor; [|constructor]. exists 1, 12. cbn [xlist lN2 lB]. split; [xt|]. split; [xt|]. reflexivity.
Qed.
(** the size check overflows for a LIST record that announces 2 ^ 30 transitions *)
Definition head28 : sdiv := mksdiv (mkcont r_one r_one 0 0 1 0) 9228 28 533.
Theorem C54_mf28_undefined_reachable : exists h s, int32 (round_int (c1 (sbase h))) /\ rd_section sec_28 h 9228 s = UB.
Proof.
  assert (G : good_tail 9228 28 533) by (split; [|split]; unfold in_cols; cbn; lia).
  exists head28, (mkst (pr_list huge 9228 28 533 ++ []) 0). split; [cbn [head28 sbase c1]; rewrite round_one; split; lia|].
  unfold rd_section. unfold bind at 1, sec_head, head_za32, lift, require, bind at 1. cbv zeta. cbn [head28 sbase c1 c2 smt smat smf]. rewrite round_one. change (rlt r_one rzero) with false.
  match goal with |- ?x = UB => change x with (bind (k_read sec_28 head28 9228 28 533) (fun b => rd_SEND 9228 28 ;;; ret (mksect 1 r_one 533 b)) (mkst (pr_list huge 9228 28 533 ++ []) 0)) end.
  apply bind_ub. cbn [sec_28 k_read]. unfold rd_all, rd_sequence. change (i32 (n1 (sbase head28))) with 1. erewrite bind_step; [|reflexivity]. change (Z.to_nat 1) with 1%nat. cbn [rd_n].
  apply bind_ub. unfold rd_checked. rewrite (bind_step _ _ _ _ _ (co_reads _ _ _ _ _ cod_list 9228 28 533 huge G huge_ok Logic.I [] 0)). reflexivity.
Qed.

(** ** columns and transitions *)
Lemma split_rows (m : nat) : forall n (b : list real), length b = (n * m)%nat -> exists rows, b = concat rows /\ Forall (fun r => length r = m) rows /\ length rows = n.
Proof.
  induction n as [|n IH]; intros b L.
  - exists []. destruct b; [auto|discriminate L].
  - destruct (IH (skipn m b)) as (rows & E & F & N); [rewrite skipn_length; lia|]. exists (firstn m b :: rows). cbn [concat length]. rewrite <- E, firstn_skipn. split; [reflexivity|]. split; [|lia].
    constructor; [rewrite firstn_length; lia|exact F].
Qed.
Lemma ss_column_rows i l r0 rows : (i < 6)%nat -> lB l = concat (r0 :: rows) -> length r0 = 6%nat -> Forall (fun r => length r = 6%nat) rows -> i = 0%nat \/ rows <> [] ->
  ss_column (Z.of_nat i) l = Val (map (fun r => nth i r rzero) rows).
Proof.
  intros Hi E L0 F N. rewrite <- (column_rows i (mklist rzero rzero 0 0 0 (concat rows)) rows eq_refl F Hi N). unfold ss_column, column6, drop_exactly. cbn [lB]. rewrite E. cbn [concat]. rewrite app_length, L0.
  destruct ((Z.of_nat i <? 0) || (Z.of_nat (length (concat rows)) <? Z.of_nat i)) eqn:K.
  - replace ((6 + Z.of_nat i <? 0) || (Z.of_nat (6 + length (concat rows)) <? 6 + Z.of_nat i)) with true by lia. reflexivity.
  - replace ((6 + Z.of_nat i <? 0) || (Z.of_nat (6 + length (concat rows)) <? 6 + Z.of_nat i)) with false by lia. cbn [obind]. f_equal. f_equal.
    replace (Z.to_nat (6 + Z.of_nat i)) with (length r0 + i)%nat by lia. rewrite Nat2Z.id. rewrite skipn_app, skipn_all2 by lia. cbn [app]. f_equal. lia.
Qed.
Lemma ss_transitions_rows l r0 rows : lB l = concat (r0 :: rows) -> length r0 = 6%nat -> Forall (fun r => length r = 6%nat) rows -> ss_transitions l = Val rows.
Proof.
  intros E L0 F. unfold ss_transitions. rewrite E. rewrite chunks_rows; [reflexivity|lia|constructor; assumption|lia].
Qed.
(** the transitions of a subshell are the rows of its columns *)
Theorem C54_transitions : forall l n, (0 < n)%nat -> length (lB l) = (6 * (n + 1))%nat ->
  exists ts js ks es fs, ss_transitions l = Val ts /\ ss_SUBJ l = Val js /\ ss_SUBK l = Val ks /\ ss_ETR l = Val es /\ ss_FTR l = Val fs
    /\ length ts = n /\ length js = n /\ length ks = n /\ length es = n /\ length fs = n
    /\ forall i t, nth_error ts i = Some t -> st_SUBJ t = Val (nth i js rzero) /\ st_SUBK t = Val (nth i ks rzero) /\ st_ETR t = Val (nth i es rzero) /\ st_FTR t = Val (nth i fs rzero).
Proof.
  intros l n Hn L. destruct (split_rows 6 (Datatypes.S n) (lB l)) as ([|r0 rows] & E & F & N); [lia|discriminate N|]. inversion F as [|? ? F0 F1]; subst. injection N as N.
  assert (Ne : rows <> []) by (destruct rows; [cbn in N; lia|discriminate]).
  pose proof (fun i Hi => ss_column_rows i l r0 rows Hi E F0 F1 (or_intror Ne)) as C.
  do 5 eexists. split; [exact (ss_transitions_rows l r0 rows E F0 F1)|]. split; [exact (C 0%nat ltac:(lia))|]. split; [exact (C 1%nat ltac:(lia))|]. split; [exact (C 2%nat ltac:(lia))|]. split; [exact (C 3%nat ltac:(lia))|].
  rewrite !map_length. do 5 (split; [exact N|]). intros i t Ht. assert (Lt : length t = 6%nat) by (rewrite Forall_forall in F1; exact (F1 _ (nth_error_In _ _ Ht))).
  assert (Q : forall k, nth i (map (fun r : list real => nth k r rzero) rows) rzero = nth k t rzero).
  { intros k. apply nth_error_nth. rewrite nth_error_map, Ht. reflexivity. }
  rewrite !Q. destruct t as [|a [|b [|c [|d t]]]]; try discriminate Lt. repeat split.
Qed.
(** ... but with no transitions the library computes SUBJ() only; the other columns are undefined *)
Theorem C54_no_transitions_refuted : forall l, length (lB l) = 6%nat ->
  ss_transitions l = Val [] /\ ss_SUBJ l = Val [] /\ ss_SUBK l = Undef /\ ss_ETR l = Undef /\ ss_FTR l = Undef.
Proof.
  intros l L. assert (E : lB l = concat (lB l :: [])) by (cbn; now rewrite app_nil_r). split; [exact (ss_transitions_rows l (lB l) [] E L (Forall_nil _))|].
  split; [exact (ss_column_rows 0 l (lB l) [] ltac:(lia) E L (Forall_nil _) (or_introl eq_refl))|].
  unfold ss_SUBK, ss_ETR, ss_FTR, ss_column, drop_exactly. rewrite L. repeat split.
Qed.
Example C54_no_transitions_example : exists l, make_subshell 1 r_one 2 [] [] [] [] = Val l /\ inv_subshell l /\ length (lB l) = 6%nat.
Proof. eexists. split; [reflexivity|]. split; [|reflexivity]. exists 0, 6. split; [xt|]. split; [xt|reflexivity]. Qed.
(** the constructor takes exactly four lists of equal length, and the accessors give the parts back *)
Lemma subshell_rows_cols : forall sj sk e p, length sk = length sj -> length e = length sj -> length p = length sj ->
  let r := subshell_rows sj sk e p in
  length r = length sj /\ Forall (fun r => length r = 6%nat) r
  /\ map (fun r => nth 0 r rzero) r = map of_int sj /\ map (fun r => nth 1 r rzero) r = map of_int sk /\ map (fun r => nth 2 r rzero) r = e /\ map (fun r => nth 3 r rzero) r = p.
Proof.
  induction sj as [|a sj IH]; intros [|b sk] [|x e] [|y p] H1 H2 H3; try discriminate; [repeat split; constructor|].
  injection H1 as H1. injection H2 as H2. injection H3 as H3. destruct (IH sk e p H1 H2 H3) as (A & B & C & D & E & F). cbv zeta in *.
  cbn [subshell_rows length map nth]. rewrite A, C, D, E, F. split; [reflexivity|]. split; [constructor; [reflexivity|exact B]|]. repeat split.
Qed.
Theorem C54_subshell : forall subi ebi eln sj sk e p, len sj < 2 ^ 32 -> 0 <= subi < 2 ^ 32 -> 0 <= eln < 2 ^ 32 ->
  (~ (length sk = length sj /\ length e = length sj /\ length p = length sj) -> make_subshell subi ebi eln sj sk e p = Throw EStd)
  /\ (length sk = length sj /\ length e = length sj /\ length p = length sj -> 6 * (len sj + 1) < 2 ^ 31 ->
      exists l, make_subshell subi ebi eln sj sk e p = Val l /\ inv_subshell l /\ ss_SUBI l = Val subi /\ ss_NTR l = len sj /\ ss_EBI l = Val ebi /\ ss_ELN l = Val eln
        /\ ss_SUBJ l = Val (map of_int sj) /\ (sj <> [] -> ss_SUBK l = Val (map of_int sk) /\ ss_ETR l = Val e /\ ss_FTR l = Val p)).
Proof.
  intros subi ebi eln sj sk e p Hs Hi Hl. unfold make_subshell. cbv zeta. split.
  - intros H. destruct (Nat.eqb_spec (length sk) (length sj)), (Nat.eqb_spec (length e) (length sj)), (Nat.eqb_spec (length p) (length sj)); cbn; try reflexivity.
    exfalso. auto.
  - intros (H1 & H2 & H3) Hb. rewrite H1, H2, H3, Nat.eqb_refl. cbn [negb orb].
    destruct (subshell_rows_cols sj sk e p H1 H2 H3) as (A & B & C & D & E & F). cbv zeta in *. set (r0 := [ebi; of_int eln; rzero; rzero; rzero; rzero]).
    set (l := mklist _ _ _ _ _ _). assert (N0 := len_nonneg sj). assert (El : lB l = concat (r0 :: subshell_rows sj sk e p)) by reflexivity.
    assert (Ln : len (lB l) = 6 * (len sj + 1)).
    { rewrite El. unfold len. rewrite (concat_len 6) by (constructor; [reflexivity|exact B]). cbn [length]. unfold len in *. lia. }
    assert (Iv : inv_subshell l).
    { exists (len sj), (6 * (len sj + 1)). change (lN2 l) with (len sj). rewrite Ln. split; [apply as_int_self; unfold int32; lia|]. split; [apply as_int_self; unfold int32; lia|reflexivity]. }
    exists l. rewrite (proj2 (check_subshell_spec l) Iv). cbn [obind]. split; [reflexivity|]. split; [exact Iv|].
    split; [apply cast_unsigned_of, Hi|]. split; [unfold ss_NTR; change (lN2 l) with (len sj); apply u32_id; lia|]. split; [reflexivity|]. split; [unfold ss_ELN; cbn; apply cast_unsigned_of, Hl|].
    split; [unfold ss_SUBJ; change 0 with (Z.of_nat 0); rewrite (ss_column_rows 0 l r0 _ ltac:(lia) El eq_refl B (or_introl eq_refl)); now rewrite C|].
    intros Ne. assert (Nr : subshell_rows sj sk e p <> []) by (intros K; rewrite K in A; destruct sj; [congruence|discriminate A]).
    pose proof (fun i Hj => ss_column_rows i l r0 _ Hj El eq_refl B (or_intror Nr)) as Q.
    split; [|split]; [rewrite <- D; exact (Q 1%nat ltac:(lia))|etransitivity; [exact (Q 2%nat ltac:(lia))|now rewrite E]|etransitivity; [exact (Q 3%nat ltac:(lia))|now rewrite F]].
Qed.
