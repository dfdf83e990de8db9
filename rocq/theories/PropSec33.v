(** PropSec33.v -- C55: the covariance files 31, 33, 34, 35 and 40. *)
From Coq Require Import ZifyBool ZifyNat QArith.
From Verif Require Import Base Disco DiscoProofs Records RecordProofs RecordRT RecordSound Layout Normal LineFacts RealRound RealProofs Spec Sections SecSpec Codec SectionProofs SecKit CodecKit
  PropRecords Sec9 Sec9Spec Sec9Proofs Sec6 Sec6Spec Sec6Proofs Sec6Safe Sec33 Sec33Spec Sec33Proofs Sec33Safe ExKit PropSec6.
Open Scope Z_scope.

Theorem C55_mf31 : section_rt sec_31 (Forall rep_block) (many_of inv_block).
Proof. exact rt_31. Qed.
Theorem C55_mf33 : section_rt sec_33 (rep_flagged rep_block) (inv_flagged inv_block).
Proof. exact rt_33. Qed.
Theorem C55_mf34 : section_rt sec_34 (rep_flagged rep_block34) (inv_flagged inv_block34).
Proof. exact rt_34. Qed.
Theorem C55_mf35 : section_rt sec_35 (Forall endf_list) (many_of inv_square35).
Proof. exact rt_35. Qed.
Theorem C55_mf40 : section_rt sec_40 (rep_flagged rep_level) (inv_flagged inv_level).
Proof. exact rt_40. Qed.
(** in MF34 the blocks of section MT must have the number of Legendre blocks of that section *)
Theorem C55_mf34_fits : forall mt b, inv_block34 b -> made_for mt b <-> fits_section mt b.
Proof. intros mt b (_ & _ & _ & _ & L). now apply made_for_spec. Qed.

(** ** instances *)
Definition xpairs := Pairs (xlist 0 1 2 [r_one; r_pi; r_pi; r_one]).
Definition xpairs4 := Pairs (xlist 1 4 2 [r_one; r_pi; r_pi; r_one]).
Definition xsym := Square (xlist 1 5 3 [r_tiny; r_one; r_pi; r_one; r_pi; r_one]).
Definition xfull := Square (xlist 0 5 3 [r_tiny; r_one; r_pi; r_one; r_pi; r_one; r_tiny]).
Definition xrect := Rect (xlist 0 6 2 [r_tiny; r_one; r_pi; r_one; r_pi; r_one; r_tiny]).
Definition xblock : block := mkblock 5 0 9228 18 [Redundant (xlist 0 0 1 [r_one; r_pi]); Ratio 2 (xlist 9228 18 1 [r_one; r_one; r_tiny; r_one])]
  [xpairs; xpairs4; xsym; xfull; xrect].
Lemma ex_explicits : Forall inv_explicit [xpairs; xpairs4; xsym; xfull; xrect].
Proof.
  repeat (apply Forall_cons || apply Forall_nil); unfold xpairs, xpairs4, xsym, xfull, xrect; cbn [inv_explicit].
  - split; [cbn; lia|]. split; [exists 1, 0; cbn [xlist lL1 lL2]; split; [ai|split; [ai|lia]]|xv 2 4].
  - split; [cbn; lia|]. split; [exists 4, 1; cbn [xlist lL1 lL2]; split; [ai|split; [ai|lia]]|xv 2 4].
  - split; [reflexivity|]. split; [cbn [xlist lL2]; ai|]. exists 1, 3, 6. unfold len. cbn [xlist lL1 lN2 lB length]. split; [ai|split; [ai|split; [ai|]]]. unfold square_ok, int32. lia.
  - split; [reflexivity|]. split; [cbn [xlist lL2]; ai|]. exists 0, 3, 7. unfold len. cbn [xlist lL1 lN2 lB length]. split; [ai|split; [ai|split; [ai|]]]. unfold square_ok, int32. lia.
  - split; [reflexivity|]. split; [cbn [xlist lL2]; ai|]. exists 2, 7. unfold len. cbn [xlist lL1 lN2 lB length]. split; [ai|split; [ai|]]. unfold int32. split; [lia|]. split; [lia|]. split; [lia|]. exists 3. lia.
Qed.
Lemma ex_rep_explicits : Forall rep_explicit [xpairs; xpairs4; xsym; xfull; xrect].
Proof. repeat (apply Forall_cons || apply Forall_nil); unfold rep_explicit; cbn [list_of xpairs xpairs4 xsym xfull xrect]; xt. Qed.
Lemma ex_block : rep_block xblock /\ inv_block xblock.
Proof.
  split.
  - unfold rep_block. cbn [xblock xmf1 xlfs1 b_nc b_ni]. split; [lia|]. split; [lia|]. split; [|apply ex_rep_explicits].
    repeat (apply Forall_cons || apply Forall_nil); unfold rep_derived; cbn [list_ofd]; xt.
  - unfold inv_block. cbn [xblock mat1 mt1 b_nc b_ni]. split; [split; lia|]. split; [split; lia|]. split; (split; [|unfold len; cbn; lia]); [|apply ex_explicits].
    repeat (apply Forall_cons || apply Forall_nil); cbn; lia.
Qed.
Ltac xids := unfold meets; cbn [s_body]; split; [xt|]; split.
Example C55_example_31 : meets sec_31 (Forall rep_block) (many_of inv_block) (mksect 92235 r_pi 452 [xblock; xblock]).
Proof.
  xids; [split; [cbn; lia|exact Logic.I]|]. destruct ex_block. split; [auto|]. split; [auto|unfold len; cbn; lia].
Qed.
Example C55_example_33 : meets sec_33 (rep_flagged rep_block) (inv_flagged inv_block) (mksect 92235 r_pi 18 (851, [xblock; xblock])).
Proof.
  xids; [split; [cbn; lia|exact Logic.I]|]. destruct ex_block. split; [unfold rep_flagged; cbn [snd]; auto|]. split; [cbn; split; lia|]. cbn [snd]. split; [auto|unfold len; cbn; lia].
Qed.
Definition xleg : legblock := mklegblock 1 1 0 [xpairs; xpairs4; xsym; xfull; xrect].
Lemma ex_leg : rep_legblock xleg /\ inv_legblock xleg.
Proof.
  split; [apply ex_rep_explicits|]. unfold inv_legblock. cbn [xleg lg_l lg_l1 lg_lct lg_data]. split; [split; lia|]. split; [split; lia|]. split; [split; lia|].
  split; [apply ex_explicits|unfold len; cbn; lia].
Qed.
Example C55_example_34 : meets sec_34 (rep_flagged rep_block34) (inv_flagged inv_block34)
  (mksect 92235 r_pi 2 (0, [mkblock34 2 2 2 [xleg; xleg; xleg]; mkblock34 51 1 2 [xleg; xleg]])).
Proof.
  destruct ex_leg. xids.
  - split; [cbn; lia|]. unfold allowed. cbn [sec_34 k_for s_mt s_body snd]. repeat (apply Forall_cons || apply Forall_nil); reflexivity.
  - split.
    + unfold rep_flagged. cbn [snd]. constructor; [|constructor; [|constructor]]; unfold rep_block34; cbn [b34_blocks]; repeat (constructor; [assumption|]); constructor.
    + split; [cbn; split; lia|]. cbn [snd]. split; [|unfold len; cbn; lia].
      repeat (apply Forall_cons || apply Forall_nil); unfold inv_block34; cbn [b34_mt1 b34_nl b34_nl1 b34_blocks]; (split; [split; lia|]; split; [split; lia|]; split; [split; lia|]; split; [repeat (constructor; [assumption|]); constructor|unfold len; cbn; lia]).
Qed.
Example C55_example_35 : meets sec_35 (Forall endf_list) (many_of inv_square35)
  (mksect 92235 r_pi 18 [xlist 1 7 3 [r_tiny; r_one; r_pi; r_one; r_pi; r_one]; xlist 1 7 2 [r_tiny; r_one; r_pi]]).
Proof.
  xids; [split; [cbn; lia|exact Logic.I]|]. split; [repeat (apply Forall_cons || apply Forall_nil); xt|]. split; [|unfold len; cbn; lia].
  repeat (apply Forall_cons || apply Forall_nil); (split; [cbn [xlist lL2]; ai|]).
  - exists 3, 6. unfold len. cbn [xlist lN2 lB length]. split; [ai|split; [ai|]]. unfold square_ok, int32. lia.
  - exists 2, 3. unfold len. cbn [xlist lN2 lB length]. split; [ai|split; [ai|]]. unfold square_ok, int32. lia.
Qed.
Example C55_example_40 : meets sec_40 (rep_flagged rep_level) (inv_flagged inv_level)
  (mksect 92235 r_pi 102 (1, [mklevel r_one r_pi 95242 0 [xblock]; mklevel r_one r_tiny 95242 1 [xblock; xblock]])).
Proof.
  destruct ex_block. xids; [split; [cbn; lia|exact Logic.I]|]. split.
  - unfold rep_flagged. cbn [snd]. repeat (apply Forall_cons || apply Forall_nil); unfold rep_level; cbn [lv_qm lv_qi lv_reactions]; (split; [xt|]; split; [xt|auto]).
  - split; [cbn; split; lia|]. cbn [snd]. split; [|unfold len; cbn; lia].
    repeat (apply Forall_cons || apply Forall_nil); unfold inv_level; cbn [lv_izap lv_lfs lv_reactions]; (split; [split; lia|]; split; [split; lia|]; split; [auto|unfold len; cbn; lia]).
Qed.

(** ** undefined behaviour *)
Theorem C55_mf31_safe : forall h mat s, int32 (round_int (c1 (sbase h))) -> tame_cov_section 31 (smat h) (smt h) (buf s) -> never_other (rd_section sec_31 h mat s).
Proof. exact safe_31. Qed.
Theorem C55_mf33_safe : forall h mat s, int32 (round_int (c1 (sbase h))) -> tame_cov_section 33 (smat h) (smt h) (buf s) -> never_other (rd_section sec_33 h mat s).
Proof. exact safe_33. Qed.
Theorem C55_mf34_safe : forall h mat s, int32 (round_int (c1 (sbase h))) -> tame34 (smat h) (smt h) (buf s) -> never_other (rd_section sec_34 h mat s).
Proof. exact safe_34. Qed.
Theorem C55_mf35_safe : forall h mat s, int32 (round_int (c1 (sbase h))) -> tame35 (smat h) (smt h) (buf s) -> never_other (rd_section sec_35 h mat s).
Proof. exact safe_35. Qed.
Theorem C55_mf40_safe : forall h mat s, int32 (round_int (c1 (sbase h))) -> tame40 (smat h) (smt h) (buf s) -> never_other (rd_section sec_40 h mat s).
Proof. exact safe_40. Qed.
(** a covariance matrix of one LIST record *)
Lemma reads_one mf l : 0 <= mf < 100 -> endf_list l -> rd_list 9228 mf 5 (mkst (pr_list l 9228 mf 5) 0) = Ok l (mkst [] (0 + nc_list l)).
Proof.
  intros Hf R. assert (G : good_tail 9228 mf 5) by (split; [|split]; unfold in_cols; cbn; lia).
  assert (E := co_reads _ _ _ _ _ cod_list 9228 mf 5 l G R Logic.I [] 0). rewrite app_nil_r in E. exact E.
Qed.
(** a rectangular matrix announcing no row energies: division by zero *)
Definition bad_rect := xlist 0 6 0 [r_one].
Theorem C55_rectangular_undefined : endf_list bad_rect /\ rd_explicit 9228 33 5 (mkst (pr_list bad_rect 9228 33 5) 0) = UB.
Proof.
  assert (R : endf_list bad_rect) by (unfold bad_rect; xt). split; [exact R|]. unfold rd_explicit. rewrite (bind_step _ _ _ _ _ (reads_one 33 bad_rect ltac:(lia) R)). reflexivity.
Qed.
(** a square matrix announcing 100000 energies: overflow *)
Definition bad_square := xlist 1 5 100000 [r_one].
Theorem C55_square_undefined : endf_list bad_square /\ rd_explicit 9228 33 5 (mkst (pr_list bad_square 9228 33 5) 0) = UB.
Proof.
  assert (R : endf_list bad_square) by (unfold bad_square; xt). split; [exact R|]. unfold rd_explicit. rewrite (bind_step _ _ _ _ _ (reads_one 33 bad_square ltac:(lia) R)). reflexivity.
Qed.
(** a file 34 block announcing 9999999999 orders for both reactions: the number of its Legendre blocks overflows *)
Definition bad_orders := mkcont rzero rzero 0 5 9999999999 9999999999.
Theorem C55_orders_undefined : okcont bad_orders /\ forall mt rest ln, 0 <= mt < 1000 -> rd_block34 mt 9228 34 mt (mkst (pr_cont bad_orders 9228 34 mt ++ rest) ln) = UB.
Proof.
  assert (K : okcont bad_orders). { unfold okcont, bad_orders. cbn [c1 c2 l1 l2 n1 n2]. split; [apply okr_rzero|]. split; [apply okr_rzero|]. repeat split; apply in_cols_fits; try lia; unfold in_cols; cbn; lia. }
  split; [exact K|]. intros mt rest ln H. assert (G : good_tail 9228 34 mt) by (split; [|split]; unfold in_cols; cbn; lia).
  unfold rd_block34. rewrite (bind_step _ _ _ _ _ (reads_cont bad_orders 9228 34 mt K (good_oktail _ _ _ G) rest ln)). unfold count34, bad_orders. cbn [l2 n1 n2]. destruct (mt =? 5); reflexivity.
Qed.
(** ... so a whole section can be: the block announces one LIST record *)
Definition head33 (mf : Z) : sdiv := mksdiv (mkcont r_one r_one 0 0 0 1) 9228 mf 5.
Definition bad33 (mf : Z) (l : listr) : text := pr_cont (mkcont rzero rzero 0 5 0 1) 9228 mf 5 ++ pr_list l 9228 mf 5.
Lemma bad_cont mf rest : 0 <= mf < 100 -> rd_cont 9228 mf 5 (mkst (pr_cont (mkcont rzero rzero 0 5 0 1) 9228 mf 5 ++ rest) 0) = Ok (mkcont rzero rzero 0 5 0 1) (mkst rest (0 + 1)).
Proof.
  intros Hf. assert (G : good_tail 9228 mf 5) by (split; [|split]; unfold in_cols; cbn; lia).
  refine (reads_cont (mkcont rzero rzero 0 5 0 1) 9228 mf 5 _ (good_oktail _ _ _ G) rest 0). apply ok_small_cont; try apply okr_rzero; split; lia.
Qed.
Lemma reads_one' mf l ln : 0 <= mf < 100 -> endf_list l -> rd_list 9228 mf 5 (mkst (pr_list l 9228 mf 5) ln) = Ok l (mkst [] (ln + nc_list l)).
Proof.
  intros Hf R. assert (G : good_tail 9228 mf 5) by (split; [|split]; unfold in_cols; cbn; lia).
  assert (E := co_reads _ _ _ _ _ cod_list 9228 mf 5 l G R Logic.I [] ln). rewrite app_nil_r in E. exact E.
Qed.
Lemma bad_block mf l : 0 <= mf < 100 -> endf_list l -> mk_explicit l = Undef -> rd_block 9228 mf 5 (mkst (bad33 mf l) 0) = UB.
Proof.
  intros Hf R E. unfold bad33, rd_block. rewrite (bind_step _ _ _ _ _ (bad_cont mf _ Hf)). cbn [n1 n2]. change (Z.to_nat (i32 0)) with 0%nat. cbn [rd_n]. erewrite bind_step; [|reflexivity].
  apply bind_ub. unfold rd_all, rd_sequence. change (i32 1) with 1. erewrite bind_step; [|reflexivity]. change (Z.to_nat 1) with 1%nat. cbn [rd_n]. apply bind_ub.
  unfold rd_explicit. rewrite (bind_step _ _ _ _ _ (reads_one' mf l _ Hf R)). rewrite E. reflexivity.
Qed.
Lemma head33_ok {A} mf (f : Z * real -> M A) s : bind (sec_head true true (head33 mf) 9228 mf) f s = f (1, r_one) s.
Proof.
  unfold bind, sec_head, head_za32, lift, require, bind. cbv zeta. cbn [head33 sbase c1 c2 smt smat smf]. rewrite round_one.
  change (rlt r_one rzero) with false. change (5 <? 1) with false. rewrite !Z.eqb_refl. reflexivity.
Qed.
Theorem C55_undefined_reachable : exists h s, int32 (round_int (c1 (sbase h))) /\ rd_section sec_33 h 9228 s = UB.
Proof.
  exists (head33 33), (mkst (bad33 33 bad_rect) 0). split; [cbn [head33 sbase c1]; rewrite round_one; split; lia|].
  unfold rd_section. rewrite (head33_ok 33). apply bind_ub. change (k_rmat sec_33 (head33 33) 9228) with 9228. change (k_rmt sec_33 (head33 33)) with 5.
  cbn [sec_33 k_read k_mf]. apply bind_ub. unfold rd_all, rd_sequence. change (i32 (n2 (sbase (head33 33)))) with 1. erewrite bind_step; [|reflexivity]. change (Z.to_nat 1) with 1%nat. cbn [rd_n].
  apply bind_ub. apply bad_block; [lia|apply C55_rectangular_undefined|reflexivity].
Qed.

(** ** what the constructors from parts store is what the accessors return *)
Lemma take_all l n : n = Z.of_nat (length l) -> take_exactly n l = Val l.
Proof. intros ->. unfold take_exactly. replace (_ || _) with false by lia. now rewrite Nat2Z.id, firstn_all. Qed.
Lemma take_app a b n : n = Z.of_nat (length a) -> take_exactly n (a ++ b) = Val a.
Proof.
  intros ->. unfold take_exactly. rewrite app_length. replace (_ || _) with false by lia. rewrite Nat2Z.id, firstn_app, Nat.sub_diag, firstn_all. cbn [firstn]. now rewrite app_nil_r.
Qed.
Lemma drop_app a b n : n = Z.of_nat (length a) -> drop_exactly n (a ++ b) = Val b.
Proof.
  intros ->. unfold drop_exactly. rewrite app_length. replace (_ || _) with false by lia. rewrite Nat2Z.id, skipn_app, Nat.sub_diag, skipn_all. reflexivity.
Qed.
Lemma drop_one x l : drop_exactly 1 (x :: l) = Val l.
Proof. unfold drop_exactly. cbn [length]. replace (_ || _) with false by lia. reflexivity. Qed.
Lemma tl_inter a b : length a = length b -> a <> [] -> interleave2 a b = hd rzero a :: tl (interleave2 a b).
Proof. destruct a as [|x a], b as [|y b]; cbn; try discriminate; try congruence. Qed.
Lemma i32_fits z : int32 z -> i32 z = z. Proof. apply i32_id. Qed.
(** pairs: the energies and values of both arrays *)
Theorem C55_pairs : forall lb ek fk el fl l, len el < 2 ^ 31 -> make_pairs lb ek fk el fl = Val l ->
  length ek = length fk /\ length el = length fl /\ inv_pairs l /\ EK l = Val ek /\ EL l = Val el
  /\ (ek <> [] -> FK l = Val fk) /\ (el <> [] -> FL l = Val fl).
Proof.
  intros lb ek fk el fl l L E. unfold make_pairs in E. destruct (Nat.eqb_spec (length ek) (length fk)) as [E1|]; [|discriminate].
  destruct (Nat.eqb_spec (length el) (length fl)) as [E2|]; [|discriminate]. cbn [negb] in E. apply obind_val in E. destruct E as ([] & E & K). injection K as <-.
  apply check_pairs_spec in E. split; [exact E1|]. split; [exact E2|]. split; [exact E|].
  set (l := mklist _ _ _ _ _ _). assert (P : pairs_split l = Z.of_nat (length (interleave2 ek fk))).
  { unfold pairs_split, l, npl. cbn [lB lL1]. rewrite app_length, !interleave_len by assumption. rewrite i32_fits by (unfold len, int32 in *; lia).
    replace (Z.of_nat (2 * length ek + 2 * length el)) with ((Z.of_nat (length ek) + Z.of_nat (length el)) * 2) by lia. rewrite Z.quot_mul by lia. lia. }
  unfold EK, FK, EL, FL. cbn [l lB]. rewrite P. rewrite take_app, drop_app by reflexivity. unfold strided. cbn [obind]. rewrite !stride_first by assumption.
  split; [reflexivity|]. split; [reflexivity|]. split; intros N.
  - rewrite (tl_inter ek fk E1 N) at 1. rewrite drop_one. cbn [obind]. now rewrite stride_snd.
  - rewrite (tl_inter el fl E2 N) at 1.
    replace (interleave2 ek fk ++ hd rzero el :: tl (interleave2 el fl)) with ((interleave2 ek fk ++ [hd rzero el]) ++ tl (interleave2 el fl)) by (rewrite <- app_assoc; reflexivity).
    rewrite drop_app by (rewrite app_length; cbn [length]; lia). cbn [obind]. now rewrite stride_snd.
Qed.
(** square matrices, with and without symmetry, and those of MF35 *)
Theorem C55_square : forall ls es vs l, make_square ls es vs = Val l -> inv_square l /\ lL1 l = ls /\ sq_energies l = Val es /\ sq_values l = Val vs.
Proof.
  intros ls es vs l E. unfold make_square in E. apply obind_val in E. destruct E as ([] & E & K). injection K as <-. apply check_square_spec in E.
  split; [exact E|]. split; [reflexivity|]. unfold sq_energies, sq_values. cbn [lN2 lB]. now rewrite take_app, drop_app.
Qed.
Theorem C55_square35 : forall e1 e2 es vs l, make_square35 e1 e2 es vs = Val l -> inv_square35 l /\ lC1 l = e1 /\ lC2 l = e2 /\ sq_energies l = Val es /\ sq_values l = Val vs /\ lL1 l = 1 /\ lL2 l = 7 /\ lN2 l = len es.
Proof.
  intros e1 e2 es vs l E. unfold make_square35 in E. apply obind_val in E. destruct E as ([] & E & K). injection K as <-. apply check_square35_spec in E.
  split; [exact E|]. split; [reflexivity|]. split; [reflexivity|]. unfold sq_energies, sq_values. cbn [lN2 lB lL1 lL2]. rewrite take_app, drop_app by reflexivity. split; [reflexivity|]. split; [reflexivity|]. auto.
Qed.
(** rectangular matrices: the rows and the values; what comes back as column energies is the
    columns and the values *)
Theorem C55_rectangular : forall row col vs l, make_rect row col vs = Val l -> len row < 2 ^ 31 -> len col < 2 ^ 31 -> len vs < 2 ^ 31 ->
  inv_rect l /\ len vs = (len row - 1) * (len col - 1) /\ row_energies l = Val row /\ NEC l = Val (len col) /\ rect_values l = Val vs
  /\ column_energies l = Val (col ++ vs).
Proof.
  intros row col vs l E Lr Lc Lv. unfold make_rect in E. rewrite !isize_len in E by assumption.
  apply obind_val in E. destruct E as (a & E1 & E). apply int_op_val in E1. destruct E1 as [-> _].
  apply obind_val in E. destruct E as (a & E1 & E). apply int_op_val in E1. destruct E1 as [-> _].
  apply obind_val in E. destruct E as (a & E1 & E). apply int_op_val in E1. destruct E1 as [-> _].
  destruct (Z.eqb_spec ((len row - 1) * (len col - 1)) (len vs)) as [P|]; [|discriminate]. cbn [negb] in E.
  apply obind_val in E. destruct E as ([] & E & K). injection K as <-. apply check_rect_spec in E. set (l := mklist _ _ _ _ _ _) in *.
  assert (N : len row <> 0).
  { destruct E as (_ & ner & nt & A & _ & N & _). apply as_int_get in A. cbn [l lN2] in A. fold (len row) in A. rewrite i32_id in A by (apply int32_len; exact Lr). congruence. }
  assert (C : NEC l = Val (len col)).
  { unfold NEC, l, npl. cbn [lN2 lB]. fold (len row). destruct (Z.eqb_spec (len row) 0); [contradiction|]. f_equal. rewrite !app_length.
    replace (Z.of_nat (length row + (length col + length vs)) - 1) with (len col * len row) by (unfold len in *; nia). now rewrite Z.quot_mul. }
  split; [exact E|]. split; [now symmetry|]. unfold row_energies, rect_values, column_energies. rewrite C. cbn [l lN2 lB obind].
  rewrite (take_app row (col ++ vs) _ eq_refl), (drop_app row (col ++ vs) _ eq_refl). split; [reflexivity|]. split; [reflexivity|]. split; [|reflexivity].
  rewrite app_assoc, drop_app; [reflexivity|]. rewrite app_length. unfold len. lia.
Qed.
(** so the column energies are not the ones given *)
Theorem C55_columns_refuted : exists row col vs l, make_rect row col vs = Val l /\ column_energies l <> Val col.
Proof.
  exists [r_tiny; r_one], [r_tiny; r_one; r_pi], [r_one; r_pi], (mklist rzero rzero 0 6 2 ([r_tiny; r_one] ++ [r_tiny; r_one; r_pi] ++ [r_one; r_pi])).
  split; [reflexivity|]. discriminate.
Qed.
Example C55_example_pairs : exists l, make_pairs 4 [r_tiny; r_one] [r_one; r_pi] [r_tiny] [r_one] = Val l.
Proof. eexists. reflexivity. Qed.
Example C55_example_square : exists l, make_square 1 [r_tiny; r_one; r_pi] [r_one; r_pi; r_one] = Val l.
Proof. eexists. reflexivity. Qed.
Example C55_example_square35 : exists l, make_square35 r_tiny r_pi [r_tiny; r_one; r_pi] [r_one; r_pi; r_one] = Val l.
Proof. eexists. reflexivity. Qed.
Example C55_example_rectangular : exists l, make_rect [r_tiny; r_one] [r_tiny; r_one; r_pi] [r_one; r_pi] = Val l.
Proof. eexists. reflexivity. Qed.
(** derived covariances *)
Theorem C55_redundant : forall e1 e2 cs rs d, make_redundant e1 e2 cs rs = Val d ->
  length cs = length rs /\ LTY d = 0 /\ inv_derived d /\ CI d = cs /\ (cs <> [] -> XMTI d = Val (map of_int rs))
  /\ lC1 (list_ofd d) = e1 /\ lC2 (list_ofd d) = e2 /\ lL1 (list_ofd d) = 0 /\ lL2 (list_ofd d) = 0 /\ lN2 (list_ofd d) = len cs.
Proof.
  intros e1 e2 cs rs d E. unfold make_redundant in E. destruct (Nat.eqb_spec (length cs) (length rs)) as [L|]; [|discriminate]. injection E as <-.
  assert (L' : length cs = length (map of_int rs)) by now rewrite map_length.
  split; [exact L|]. split; [reflexivity|]. split; [exact I|]. unfold CI, XMTI. cbn [list_ofd lB]. rewrite stride_first by exact L'. split; [reflexivity|]. split; [|repeat (split; [reflexivity|]); reflexivity]. intros N.
  rewrite (tl_inter cs _ L' N), drop_one. unfold strided. cbn [obind]. now rewrite stride_snd.
Qed.
Theorem C55_ratio : forall lty e1 e2 a b c d es ws x, make_ratio lty e1 e2 a b c d es ws = Val x ->
  length es = length ws /\ LTY x = lty /\ EI x = Val es /\ (es <> [] -> WEI x = Val ws) /\ lL1 (list_ofd x) = a /\ lL2 (list_ofd x) = b.
Proof.
  intros lty e1 e2 a b c d es ws x E. unfold make_ratio in E. destruct (Nat.eqb_spec (length es) (length ws)) as [L|]; [|discriminate]. injection E as <-.
  split; [exact L|]. split; [reflexivity|]. unfold EI, WEI. cbn [list_ofd lB lL1 lL2].
  assert (D2 : drop_exactly 2 (of_int c :: of_int d :: interleave2 es ws) = Val (interleave2 es ws)) by (unfold drop_exactly; cbn [length]; replace (_ || _) with false by lia; reflexivity).
  rewrite D2. unfold strided. cbn [obind]. rewrite stride_first by exact L. split; [reflexivity|]. split; [|auto]. intros N.
  rewrite (tl_inter es ws L N). unfold drop_exactly. cbn [length]. replace (_ || _) with false by lia. change (Z.to_nat 3) with 3%nat. cbn [skipn obind]. now rewrite stride_snd.
Qed.
Example C55_example_redundant : exists d, make_redundant r_tiny r_pi [r_one; r_pi] [1; 102] = Val d.
Proof. eexists. reflexivity. Qed.
Example C55_example_ratio : exists d, make_ratio 2 r_tiny r_pi 9228 18 3 0 [r_one; r_pi] [r_one; r_one] = Val d.
Proof. eexists. reflexivity. Qed.

(** ** what the constructors and readers accept although it is not usable *)
(** a ratio with LTY = 7 can be made; a section holding it does not read back *)
Theorem C55_ratio_refuted : exists d, make_ratio 7 r_tiny r_pi 9228 18 0 0 [r_one] [r_one] = Val d /\ rep_derived d
  /\ forall mat mf mt s x s', rd_derived mat mf mt s = Ok x s' -> x <> d.
Proof.
  exists (Ratio 7 (mklist r_tiny r_pi 9228 18 1 [rzero; rzero; r_one; r_one])). split; [reflexivity|]. split.
  - unfold rep_derived. cbn [list_ofd]. unfold endf_list. cbn [lC1 lC2 lL1 lL2 lN2 lB length]. split; [apply endf_tiny|]. split; [apply endf_pi|].
    split; [split; vm_compute; reflexivity|]. split; [split; vm_compute; reflexivity|]. split; [split; vm_compute; reflexivity|]. split; [split; vm_compute; reflexivity|].
    constructor; [apply endf_rzero|]. constructor; [apply endf_rzero|]. constructor; [apply endf_one|]. constructor; [apply endf_one|]. constructor.
  - intros mat mf mt s x s' E ->. apply (co_post _ _ _ _ _ cod_derived) in E. cbn in E. lia.
Qed.
(** LT may exceed the number of pairs: reading accepts it, the accessor is undefined *)
Theorem C55_pairs_refuted : exists l, endf_list l /\ inv_explicit (Pairs l) /\ EK l = Undef.
Proof.
  exists (xlist 5 3 1 [r_one; r_pi]). split; [xt|]. split; [|reflexivity]. split; [cbn; lia|]. split; [|xv 1 2].
  exists 3, 5. cbn [xlist lL1 lL2]. split; [ai|]. split; [ai|lia].
Qed.
(** a symmetric matrix of order -1 without any value is accepted: its energies are undefined *)
Theorem C55_square_refuted : exists l, inv_explicit (Square l) /\ len (lB l) = 0 /\ sq_energies l = Undef.
Proof.
  exists (xlist 1 5 (-1) []). split; [|split; reflexivity]. split; [reflexivity|]. split; [cbn [xlist lL2]; ai|]. exists 1, (-1), 0. unfold len. cbn [xlist lL1 lN2 lB length].
  split; [ai|]. split; [ai|]. split; [ai|]. unfold square_ok, int32. lia.
Qed.
(** the energy range of an MF35 matrix is returned truncated *)
Theorem C55_E1_refuted : exists l z, make_square35 r_tiny r_pi [r_tiny; r_pi] [r_one] = Val l /\ E1_35 l = Val z /\ ~ (inject_Z z == valQ (lC1 l))%Q.
Proof.
  do 2 eexists. split; [reflexivity|]. split; [vm_compute; reflexivity|]. intros E. apply Qeq_bool_iff in E. vm_compute in E. discriminate E.
Qed.
(** a block announcing a negative number of NC parts is read as having none *)
Theorem C55_negative_count_refuted : exists c, n1 c = -3 /\ forall rest,
  rd_block 9228 33 5 (mkst (pr_cont c 9228 33 5 ++ rest) 0) = Ok (mkblock 0 0 0 5 [] []) (mkst rest 1).
Proof.
  exists (mkcont rzero rzero 0 5 (-3) 0). split; [reflexivity|]. intros rest. assert (G : good_tail 9228 33 5) by (split; [|split]; unfold in_cols; cbn; lia).
  unfold rd_block. erewrite bind_step.
  2:{ refine (reads_cont (mkcont rzero rzero 0 5 (-3) 0) 9228 33 5 _ (good_oktail _ _ _ G) rest 0). apply ok_small_cont; try apply okr_rzero; split; lia. }
  reflexivity.
Qed.
(** in MF34 a block accepted for one section is not readable in another *)
Theorem C55_mf34_refuted : exists b, make_block34 2 2 2 2 [xleg; xleg; xleg] = Val b
  /\ forall mat mf mt s b' s', rd_block34 18 mat mf mt s = Ok b' s' -> b' <> b.
Proof.
  exists (mkblock34 2 2 2 [xleg; xleg; xleg]). split; [reflexivity|]. intros mat mf mt s b' s' E ->. apply post_made34 in E. discriminate E.
Qed.
