(** PropViews.v -- C59: the objects for one resonance and the columns for all of them show the same numbers. *)
From Coq Require Import ZifyBool ZifyNat.
From Verif Require Import Base Disco DiscoProofs Records RecordProofs RecordRT RecordSound Layout Normal LineFacts RealRound RealProofs Spec Sections SecSpec Codec SectionProofs SecKit CodecKit
  PropRecords PropRecords3 Sec9 Sec9Spec Sec9Proofs PropSec9 Sec4Spec Sec4Proofs Sec6 Sec6Spec Sec6Proofs Sec6Safe Sec33 Sec33Spec Sec33Proofs ExKit PropSec6 PropSec33
  Sec8 Sec8Spec Sec8Proofs PropSec8 Sec7 Sec7Spec Sec7Proofs PropSec7 Sec2 Sec2Spec Sec2Proofs PropSec2 PropSec28 Sec32 Sec32Spec Views.
Open Scope Z_scope.

(** ** specification *)
(** a column can be looked at, has one value for each row, and each value is the one the row itself shows *)
Definition shows {A B} (rows : list A) (column : out (list B)) (field : A -> out B) : Prop :=
  exists c, column = Val c /\ Forall2 (fun r x => field r = Val x) rows c.

(** ** proofs *)
Lemma forall2_same {A B C} (f : C -> A) (g : C -> B) (R : A -> B -> Prop) l : (forall x, In x l -> R (f x) (g x)) -> Forall2 R (map f l) (map g l).
Proof. induction l as [|x l IH]; intros H; [constructor|]. cbn [map]. constructor; [apply H; now left|]. apply IH. intros y Hy. apply H. now right. Qed.
(** the rows of a list of n rows *)
Lemma chunk_rows_nth m n l : (0 < m)%nat -> length (lB l) = (n * m)%nat ->
  chunk_rows m l = map (fun i => firstn m (skipn (i * m) (lB l))) (seq 0 n) /\ length (chunk_rows m l) = n.
Proof.
  intros Hm L. destruct (split_rows m n (lB l) L) as (rows & E & F & N). unfold chunk_rows. rewrite E. rewrite (chunks_rows m Hm rows (length (concat rows)) F ltac:(lia)).
  split; [|exact N]. clear E L. subst n. induction F as [|r rows Hr F IH]; [reflexivity|]. cbn [length seq map concat]. f_equal.
  - cbn [Nat.mul skipn]. rewrite firstn_app, Hr, Nat.sub_diag, firstn_O, app_nil_r. rewrite firstn_all2 by lia. reflexivity.
  - rewrite IH at 1. rewrite <- seq_shift, map_map. apply map_ext. intros i. rewrite skipn_app, (skipn_all2 r) by (rewrite Hr; lia). cbn [app]. now replace (Datatypes.S i * m - length r)%nat with (i * m)%nat by (rewrite Hr; lia).
Qed.
Lemma row_element m n l i k : (k < m)%nat -> length (lB l) = (n * m)%nat -> (i < n)%nat ->
  element (firstn m (skipn (i * m) (lB l))) k = Val (nth (i * m + k) (lB l) rzero).
Proof.
  intros Hk L Hi. rewrite element_nth by (rewrite firstn_length, skipn_length; nia). f_equal.
  assert (Q : nth k (firstn m (skipn (i * m) (lB l))) rzero = nth k (skipn (i * m) (lB l)) rzero).
  { rewrite <- (firstn_skipn m (skipn (i * m) (lB l))) at 2. rewrite app_nth1; [reflexivity|]. rewrite firstn_length, skipn_length. nia. }
  rewrite Q. apply nth_skipn.
Qed.
Lemma shows_stride m n k l : (k < m)%nat -> (0 < n)%nat -> length (lB l) = (n * m)%nat ->
  shows (chunk_rows m l) (col_of m (Z.of_nat k) l) (fun c => element c k).
Proof.
  intros Hk Hn L. exists (map (fun i => nth (i * m + k) (lB l) rzero) (seq 0 n)). split; [now apply C46_columns|].
  destruct (chunk_rows_nth m n l ltac:(lia) L) as (-> & _). apply forall2_same. intros i Hi. apply in_seq in Hi. apply (row_element m n l i k Hk L). lia.
Qed.
Lemma shows_chunk m n k l : (k < m)%nat -> length (lB l) = (n * m)%nat -> shows (chunk_rows m l) (chunk_col m k l) (fun c => element c k).
Proof.
  intros Hk L. exists (map (fun i => nth (i * m + k) (lB l) rzero) (seq 0 n)). destruct (chunk_rows_nth m n l ltac:(lia) L) as (R & _). split.
  - unfold chunk_col. rewrite R, map_map. apply all_val_some. apply Forall_forall. intros i Hi. apply in_seq in Hi. apply (row_element m n l i k Hk L). lia.
  - rewrite R. apply forall2_same. intros i Hi. apply in_seq in Hi. apply (row_element m n l i k Hk L). lia.
Qed.
(** an accepted list has whole rows *)
Lemma rows_size m l : 0 < m -> inv_rows m l -> len (lB l) < 2 ^ 31 -> exists n, (0 < n)%nat /\ as_int (lN2 l) (Z.of_nat n) /\ length (lB l) = (n * Z.to_nat m)%nat.
Proof.
  intros Hm (n & Hn & A & B) H. assert (N := len_nonneg (lB l)). apply as_int_get in B. rewrite i32_id in B by (unfold int32; lia). exists (Z.to_nat n).
  rewrite Z2Nat.id by lia. split; [lia|]. split; [exact A|]. unfold len in B. rewrite <- Z2Nat.inj_mul by lia. lia.
Qed.
Lemma independent_size l : inv_independent l -> len (lB l) < 2 ^ 31 -> exists n, as_int (lN2 l) (Z.of_nat n) /\ length (lB l) = (n * 6)%nat.
Proof.
  intros (n & p & A & B & C) H. assert (N := len_nonneg (lB l)). apply as_int_get in B. rewrite i32_id in B by (unfold int32; lia). exists (Z.to_nat n).
  rewrite Z2Nat.id by lia. split; [exact A|]. unfold len in B. lia.
Qed.
(** the sum, column by column and row by row *)
Lemma zip4_rows f n a b c d : zip4 f (map a (seq 0 n)) (map b (seq 0 n)) (map c (seq 0 n)) (map d (seq 0 n)) = map (fun i => f (a i) (b i) (c i) (d i)) (seq 0 n).
Proof. induction (seq 0 n) as [|i s IH]; [reflexivity|]. cbn [map zip4]. now rewrite IH. Qed.

(** ** File 2 *)
(** resolved resonances: one object for each of the NRS resonances, six columns each, and the competitive width *)
Theorem C59_breit_wigner : forall l, inv_lvalue l -> len (lB l) < 2 ^ 31 ->
  as_int (lN2 l) (len (lv_resonances l))
  /\ shows (lv_resonances l) (lv_ER l) BW_ER /\ shows (lv_resonances l) (lv_AJ l) BW_AJ /\ shows (lv_resonances l) (bw_GT l) BW_GT
  /\ shows (lv_resonances l) (bw_GN l) BW_GN /\ shows (lv_resonances l) (bw_GG l) BW_GG /\ shows (lv_resonances l) (bw_GF l) BW_GF
  /\ forall sub, shows (lv_resonances l) (bw_GX sub l) (BW_GX sub).
Proof.
  intros l V H. destruct (rows_size 6 l ltac:(lia) V H) as (n & Hn & A & L). change (Z.to_nat 6) with 6%nat in L.
  destruct (chunk_rows_nth 6 n l ltac:(lia) L) as (R & Ln). split; [unfold len, lv_resonances; rewrite Ln; exact A|].
  assert (C := fun k Hk => shows_stride 6 n k l Hk Hn L).
  split; [exact (C 0%nat ltac:(lia))|]. split; [exact (C 1%nat ltac:(lia))|]. split; [exact (C 2%nat ltac:(lia))|]. split; [exact (C 3%nat ltac:(lia))|].
  split; [exact (C 4%nat ltac:(lia))|]. split; [exact (C 5%nat ltac:(lia))|]. intros sub.
  assert (K := fun k Hk => C46_columns 6 k n l Hk Hn L).
  unfold shows, bw_GX, bw_GT, bw_GN, bw_GG, bw_GF. assert (K2 := K 2%nat ltac:(lia)). assert (K3 := K 3%nat ltac:(lia)). assert (K4 := K 4%nat ltac:(lia)). assert (K5 := K 5%nat ltac:(lia)).
  change (Z.of_nat 2) with 2 in K2. change (Z.of_nat 3) with 3 in K3. change (Z.of_nat 4) with 4 in K4. change (Z.of_nat 5) with 5 in K5. rewrite K2, K3, K4, K5. cbn [obind].
  eexists. split; [reflexivity|]. rewrite zip4_rows. unfold lv_resonances. rewrite R. apply forall2_same. intros i Hi. apply in_seq in Hi.
  unfold BW_GX, BW_GT, BW_GN, BW_GG, BW_GF. rewrite !(row_element 6 n l i) by (lia || exact L). reflexivity.
Qed.
Theorem C59_reich_moore : forall l, inv_lvalue l -> len (lB l) < 2 ^ 31 ->
  as_int (lN2 l) (len (lv_resonances l))
  /\ shows (lv_resonances l) (lv_ER l) RM_ER /\ shows (lv_resonances l) (lv_AJ l) RM_AJ /\ shows (lv_resonances l) (rm_GN l) RM_GN
  /\ shows (lv_resonances l) (rm_GG l) RM_GG /\ shows (lv_resonances l) (rm_GFA l) RM_GFA /\ shows (lv_resonances l) (rm_GFB l) RM_GFB.
Proof.
  intros l V H. destruct (rows_size 6 l ltac:(lia) V H) as (n & Hn & A & L). change (Z.to_nat 6) with 6%nat in L.
  destruct (chunk_rows_nth 6 n l ltac:(lia) L) as (_ & Ln). split; [unfold len, lv_resonances; rewrite Ln; exact A|].
  assert (C := fun k Hk => shows_stride 6 n k l Hk Hn L).
  split; [exact (C 0%nat ltac:(lia))|]. split; [exact (C 1%nat ltac:(lia))|]. split; [exact (C 2%nat ltac:(lia))|]. split; [exact (C 3%nat ltac:(lia))|].
  split; [exact (C 4%nat ltac:(lia))|exact (C 5%nat ltac:(lia))].
Qed.
(** unresolved resonances, case A: the degrees of freedom are whole numbers in the object; those that are not in the file are zero *)
Theorem C59_independent : forall l, inv_independent l -> len (lB l) < 2 ^ 31 ->
  as_int (lN2 l) (len (ui_jvalues l))
  /\ shows (ui_jvalues l) (ui_D l) UI_D /\ shows (ui_jvalues l) (ui_AJ l) UI_AJ /\ shows (ui_jvalues l) (ui_GN l) UI_GN /\ shows (ui_jvalues l) (ui_GG l) UI_GG
  /\ shows (ui_jvalues l) (Val (ui_GF l)) UI_GF /\ shows (ui_jvalues l) (Val (ui_GX l)) UI_GX
  /\ Forall2 (fun r x => x = of_int (UI_AMUG r)) (ui_jvalues l) (ui_AMUG l) /\ Forall2 (fun r x => x = of_int (UI_AMUF r)) (ui_jvalues l) (ui_AMUF l)
  /\ Forall2 (fun r x => x = of_int (UI_AMUX r)) (ui_jvalues l) (ui_AMUX l)
  /\ (Forall (fun r => exists z, UI_AMUN r = Val z) (ui_jvalues l) -> shows (ui_jvalues l) (ui_AMUN l) UI_AMUN).
Proof.
  intros l V H. destruct (independent_size l V H) as (n & A & L).
  destruct (chunk_rows_nth 6 n l ltac:(lia) L) as (R & Ln). split; [unfold len, ui_jvalues; rewrite Ln; exact A|].
  assert (C := fun k Hk => shows_chunk 6 n k l Hk L).
  split; [exact (C 0%nat ltac:(lia))|]. split; [exact (C 1%nat ltac:(lia))|]. split; [exact (C 3%nat ltac:(lia))|]. split; [exact (C 4%nat ltac:(lia))|].
  assert (Z0 : ui_zeroes l = repeat rzero (length (ui_jvalues l))). { unfold ui_zeroes, ui_jvalues. rewrite (as_int_get _ _ A), Ln, Nat2Z.id. reflexivity. }
  assert (Q : forall (P : list real -> real -> Prop), (forall r, P r rzero) -> Forall2 P (ui_jvalues l) (ui_zeroes l)).
  { intros P HP. rewrite Z0. clear - HP. induction (ui_jvalues l) as [|r rs IH]; [constructor|]. cbn [length repeat]. constructor; auto. }
  split; [eexists; split; [reflexivity|apply Q; reflexivity]|]. split; [eexists; split; [reflexivity|apply Q; reflexivity]|].
  split; [apply Q; reflexivity|]. split; [apply Q; reflexivity|]. split; [apply Q; reflexivity|].
  intros F. unfold shows, ui_AMUN. fold (ui_jvalues l). fold UI_AMUN. clear - F. induction F as [|r rs (z & Hz) _ (c & E & K)]; [exists []; split; [reflexivity|constructor]|].
  exists (z :: c). cbn [map all_val]. change (let! x := element r 2 in int_op (trunc x)) with (UI_AMUN r). rewrite Hz. cbn [obind]. unfold UI_AMUN in E |- *. rewrite E. cbn [obind].
  split; [reflexivity|]. constructor; [exact Hz|exact K].
Qed.

(** ** File 32 *)
Theorem C59_limited : forall l, inv_rows 18 l -> len (lB l) < 2 ^ 31 ->
  as_int (lN2 l) (len (ll_resonances l))
  /\ shows (ll_resonances l) (ll_ER l) LL_ER /\ shows (ll_resonances l) (ll_AJ l) LL_AJ /\ shows (ll_resonances l) (ll_GT l) LL_GT /\ shows (ll_resonances l) (ll_GN l) LL_GN
  /\ shows (ll_resonances l) (ll_GG l) LL_GG /\ shows (ll_resonances l) (ll_GF l) LL_GF /\ shows (ll_resonances l) (ll_DE2 l) LL_DE2 /\ shows (ll_resonances l) (ll_DN2 l) LL_DN2
  /\ shows (ll_resonances l) (ll_DNDG l) LL_DNDG /\ shows (ll_resonances l) (ll_DG2 l) LL_DG2 /\ shows (ll_resonances l) (ll_DNDF l) LL_DNDF /\ shows (ll_resonances l) (ll_DGDF l) LL_DGDF
  /\ shows (ll_resonances l) (ll_DF2 l) LL_DF2 /\ shows (ll_resonances l) (ll_DJDN l) LL_DJDN /\ shows (ll_resonances l) (ll_DJDG l) LL_DJDG /\ shows (ll_resonances l) (ll_DJDF l) LL_DJDF
  /\ shows (ll_resonances l) (ll_DJ2 l) LL_DJ2.
Proof.
  intros l V H. destruct (rows_size 18 l ltac:(lia) V H) as (n & Hn & A & L). change (Z.to_nat 18) with 18%nat in L.
  destruct (chunk_rows_nth 18 n l ltac:(lia) L) as (_ & Ln). split; [unfold len; change (ll_resonances l) with (chunk_rows 18 l); rewrite Ln; exact A|].
  assert (C := fun k Hk => shows_stride 18 n k l Hk Hn L).
  split; [exact (C 0%nat ltac:(lia))|]. split; [exact (C 1%nat ltac:(lia))|]. split; [exact (C 2%nat ltac:(lia))|]. split; [exact (C 3%nat ltac:(lia))|].
  split; [exact (C 4%nat ltac:(lia))|]. split; [exact (C 5%nat ltac:(lia))|]. split; [exact (C 6%nat ltac:(lia))|]. split; [exact (C 7%nat ltac:(lia))|].
  split; [exact (C 8%nat ltac:(lia))|]. split; [exact (C 9%nat ltac:(lia))|]. split; [exact (C 10%nat ltac:(lia))|]. split; [exact (C 11%nat ltac:(lia))|].
  split; [exact (C 12%nat ltac:(lia))|]. split; [exact (C 13%nat ltac:(lia))|]. split; [exact (C 14%nat ltac:(lia))|]. split; [exact (C 15%nat ltac:(lia))|exact (C 16%nat ltac:(lia))].
Qed.
Theorem C59_compact : forall l, inv_rows 12 l -> len (lB l) < 2 ^ 31 ->
  as_int (lN2 l) (len (cu_resonances l))
  /\ (shows (cu_resonances l) (cb_ER l) CB_ER /\ shows (cu_resonances l) (cb_AJ l) CB_AJ /\ shows (cu_resonances l) (cb_GT l) CB_GT /\ shows (cu_resonances l) (cb_GN l) CB_GN
    /\ shows (cu_resonances l) (cb_GG l) CB_GG /\ shows (cu_resonances l) (cb_GF l) CB_GF /\ shows (cu_resonances l) (cb_DER l) CB_DER /\ shows (cu_resonances l) (cb_DGN l) CB_DGN
    /\ shows (cu_resonances l) (cb_DGG l) CB_DGG /\ shows (cu_resonances l) (cb_DGF l) CB_DGF)
  /\ (shows (cu_resonances l) (cr_ER l) CR_ER /\ shows (cu_resonances l) (cr_AJ l) CR_AJ /\ shows (cu_resonances l) (cr_GN l) CR_GN /\ shows (cu_resonances l) (cr_GG l) CR_GG
    /\ shows (cu_resonances l) (cr_GFA l) CR_GFA /\ shows (cu_resonances l) (cr_GFB l) CR_GFB /\ shows (cu_resonances l) (cr_DER l) CR_DER /\ shows (cu_resonances l) (cr_DGN l) CR_DGN
    /\ shows (cu_resonances l) (cr_DGG l) CR_DGG /\ shows (cu_resonances l) (cr_DGFA l) CR_DGFA /\ shows (cu_resonances l) (cr_DGFB l) CR_DGFB).
Proof.
  intros l V H. destruct (rows_size 12 l ltac:(lia) V H) as (n & Hn & A & L). change (Z.to_nat 12) with 12%nat in L.
  destruct (chunk_rows_nth 12 n l ltac:(lia) L) as (_ & Ln). split; [unfold len; change (cu_resonances l) with (chunk_rows 12 l); rewrite Ln; exact A|].
  assert (C := fun k Hk => shows_stride 12 n k l Hk Hn L). split.
  - split; [exact (C 0%nat ltac:(lia))|]. split; [exact (C 1%nat ltac:(lia))|]. split; [exact (C 2%nat ltac:(lia))|]. split; [exact (C 3%nat ltac:(lia))|].
    split; [exact (C 4%nat ltac:(lia))|]. split; [exact (C 5%nat ltac:(lia))|]. split; [exact (C 6%nat ltac:(lia))|]. split; [exact (C 9%nat ltac:(lia))|].
    split; [exact (C 10%nat ltac:(lia))|exact (C 11%nat ltac:(lia))].
  - split; [exact (C 0%nat ltac:(lia))|]. split; [exact (C 1%nat ltac:(lia))|]. split; [exact (C 2%nat ltac:(lia))|]. split; [exact (C 3%nat ltac:(lia))|].
    split; [exact (C 4%nat ltac:(lia))|]. split; [exact (C 5%nat ltac:(lia))|]. split; [exact (C 6%nat ltac:(lia))|]. split; [exact (C 8%nat ltac:(lia))|].
    split; [exact (C 9%nat ltac:(lia))|]. split; [exact (C 10%nat ltac:(lia))|exact (C 11%nat ltac:(lia))].
Qed.
(** general covariances: only the first 6 NRB numbers are resonances *)
Theorem C59_short : forall l, inv_short l -> len (lB l) < 2 ^ 31 ->
  exists rows, sh_resonances l = Val rows /\ as_int (lN2 l) (len rows)
  /\ (shows rows (sh_ER l) BW_ER /\ shows rows (sh_AJ l) BW_AJ /\ shows rows (sb_GT l) BW_GT /\ shows rows (sb_GN l) BW_GN /\ shows rows (sb_GG l) BW_GG /\ shows rows (sb_GF l) BW_GF)
  /\ (shows rows (sh_ER l) RM_ER /\ shows rows (sh_AJ l) RM_AJ /\ shows rows (sr_GN l) RM_GN /\ shows rows (sr_GG l) RM_GG /\ shows rows (sr_GFA l) RM_GFA /\ shows rows (sr_GFB l) RM_GFB).
Proof.
  intros l (m & n & p & Hm & Hn & A1 & A2 & A3 & B1 & B2) H. assert (N := len_nonneg (lB l)). apply as_int_get in A3. rewrite i32_id in A3 by (unfold int32; lia). subst p.
  assert (P : 0 <= m * n * (m * n + 1)) by nia. assert (I6 : int_op (6 * i32 (lN2 l)) = Val (6 * n)) by (rewrite (as_int_get _ _ A2); apply int_op_val; split; [reflexivity|unfold int32; lia]).
  set (b := firstn (Z.to_nat (6 * n)) (lB l)).
  assert (Ll : 6 * n <= len (lB l)) by lia. unfold len in Ll.
  assert (T : take_exactly (6 * n) (lB l) = Val b). { unfold take_exactly. destruct (Z.ltb_spec (6 * n) 0); [lia|]. destruct (Z.ltb_spec (Z.of_nat (length (lB l))) (6 * n)); [lia|reflexivity]. }
  assert (Lb : length b = (Z.to_nat n * 6)%nat) by (unfold b; rewrite firstn_length; lia).
  set (y := mklist rzero rzero 0 0 0 b). destruct (chunk_rows_nth 6 (Z.to_nat n) y ltac:(lia) Lb) as (_ & Ln).
  exists (chunk_rows 6 y). split; [unfold sh_resonances; rewrite I6; cbn [obind]; rewrite T; reflexivity|]. split; [unfold len; rewrite Ln, Z2Nat.id by lia; exact A2|].
  assert (C : forall k, (k < 6)%nat -> shows (chunk_rows 6 y) (sh_column (Z.of_nat k) l) (fun c => element c k)).
  { intros k Hk. unfold sh_column. rewrite I6. cbn [obind]. rewrite T. cbn [obind]. exact (shows_stride 6 (Z.to_nat n) k y Hk ltac:(lia) Lb). }
  split; (split; [exact (C 0%nat ltac:(lia))|]; split; [exact (C 1%nat ltac:(lia))|]; split; [exact (C 2%nat ltac:(lia))|]; split; [exact (C 3%nat ltac:(lia))|];
    split; [exact (C 4%nat ltac:(lia))|exact (C 5%nat ltac:(lia))]).
Qed.
Theorem C59_unresolved : forall l, inv_independent l -> len (lB l) < 2 ^ 31 ->
  as_int (lN2 l) (len (ul_jvalues l))
  /\ shows (ul_jvalues l) (ul_D l) UL_D /\ shows (ul_jvalues l) (ul_AJ l) UL_AJ /\ shows (ul_jvalues l) (ul_GNO l) UL_GNO /\ shows (ul_jvalues l) (ul_GG l) UL_GG
  /\ shows (ul_jvalues l) (ul_GF l) UL_GF /\ shows (ul_jvalues l) (ul_GX l) UL_GX.
Proof.
  intros l V H. destruct (independent_size l V H) as (n & A & L).
  destruct (chunk_rows_nth 6 n l ltac:(lia) L) as (R & Ln). split; [unfold len, ul_jvalues; rewrite Ln; exact A|].
  assert (C := fun k Hk => shows_chunk 6 n k l Hk L).
  split; [exact (C 0%nat ltac:(lia))|]. split; [exact (C 1%nat ltac:(lia))|]. split; [exact (C 2%nat ltac:(lia))|]. split; [exact (C 3%nat ltac:(lia))|].
  split; [exact (C 4%nat ltac:(lia))|exact (C 5%nat ltac:(lia))].
Qed.
(** ** File 12 *)
Theorem C59_transitions : forall l k, 0 < lN2 l -> len (lB l) = k * lN2 l -> 2 <= k <= 3 ->
  len (chunked l) = lN2 l /\ shows (chunked l) (tr_E l) TR_E /\ shows (chunked l) (tr_TP l) TR_TP /\ shows (chunked l) (tr_GP l) TR_GP.
Proof.
  intros l k Hn Hl Hk. destruct (C53_transitions_defined l k Hn Hl Hk) as (es & tp & gp & E1 & E2 & E3 & L & _). split; [exact L|].
  assert (Q : forall (f : list real -> out real) c, all_val (map f (chunked l)) = Val c -> shows (chunked l) (all_val (map f (chunked l))) f).
  { intros f c E. exists c. split; [exact E|]. apply all_val_spec in E. clear - E. revert c E. induction (chunked l) as [|r rs IH]; intros c E; inversion E; subst; constructor; auto. }
  split; [exact (Q _ _ E1)|]. split; [exact (Q _ _ E2)|exact (Q _ _ E3)].
Qed.
(** ** File 8: the fission products; the object shows the identifier and the state as whole numbers *)
Theorem C59_fission_products : forall l, inv_yield l -> 0 < len (lB l) < 2 ^ 31 ->
  as_int (lN2 l) (len (fission_products l))
  /\ (exists c, fy_ZAFP l = Val c /\ Forall2 (fun r x => fp_ZAFP r = cast_unsigned x) (fission_products l) c)
  /\ (exists c, fy_FPS l = Val c /\ Forall2 (fun r x => fp_FPS r = cast_unsigned x) (fission_products l) c)
  /\ exists c, fy_Y l = Val c /\ Forall2 (fun r y => y = [fst (fp_Y r); snd (fp_Y r)]) (fission_products l) c.
Proof.
  intros l (n & p & A & B & C) H. assert (N := len_nonneg (lB l)). apply as_int_get in B. rewrite i32_id in B by (unfold int32; lia). rewrite C in B.
  assert (Hn : (0 < Z.to_nat n)%nat) by lia. assert (L : length (lB l) = (Z.to_nat n * 4)%nat) by (unfold len in B; lia).
  destruct (chunk_rows_nth 4 (Z.to_nat n) l ltac:(lia) L) as (R & Ln). change (chunk_rows 4 l) with (fission_products l) in R, Ln. split; [unfold len; rewrite Ln, Z2Nat.id by lia; exact A|].
  assert (K : forall k (f : list real -> out Z), (k < 4)%nat -> (forall c, f c = cast_unsigned (nth k c rzero)) -> exists c, fy_column (Z.of_nat k) l = Val c /\ Forall2 (fun r x => f r = cast_unsigned x) (fission_products l) c).
  { intros k f Hk Hf. destruct (shows_stride 4 (Z.to_nat n) k l Hk Hn L) as (c & E & F). exists c. split; [exact E|]. change (chunk_rows 4 l) with (fission_products l) in F. revert F. apply Forall2_impl'. intros r x Hx. rewrite Hf. f_equal.
    unfold element in Hx. destruct (nth_error r k) as [y|] eqn:Ey; [|discriminate]. injection Hx as <-. now apply nth_error_nth. }
  split; [exact (K 0%nat fp_ZAFP ltac:(lia) (fun c => eq_refl))|]. split; [exact (K 1%nat fp_FPS ltac:(lia) (fun c => eq_refl))|].
  destruct (split_rows 4 (Z.to_nat n) (lB l) L) as (rows & E & F & Lr). exists (map (fun r => [nth 2 r rzero; nth 3 r rzero]) rows). split.
  - assert (H2 : 0 <= 2 <= len (lB l)) by lia. unfold fy_Y. rewrite (proj2 (drop_val 2 (lB l) (skipn 2 (lB l))) (conj H2 eq_refl)). cbn [obind]. f_equal. rewrite E. apply every_even; [exact F|rewrite skipn_length; lia].
  - unfold fission_products. rewrite E, (chunks_rows 4 ltac:(lia) rows (length (concat rows)) F ltac:(lia)). clear. induction rows as [|r rows IH]; [constructor|]. cbn [map]. constructor; [reflexivity|exact IH].
Qed.

(** ** the hypotheses are met: two resonances, with the same numbers seen both ways *)
Definition two_resonances : listr := mklist r_one r_one 0 1 2 (six_one ++ [r_pi; r_pi; r_one; r_pi; r_one; r_pi]).
Example C59_two : inv_lvalue two_resonances /\ len (lB two_resonances) < 2 ^ 31 /\ len (lv_resonances two_resonances) = 2
  /\ bw_GN two_resonances = Val [r_one; r_pi] /\ map BW_GN (lv_resonances two_resonances) = [Val r_one; Val r_pi]
  /\ rm_GN two_resonances = Val [r_tiny; r_one] /\ map RM_GN (lv_resonances two_resonances) = [Val r_tiny; Val r_one].
Proof.
  split; [exists 2; split; [lia|]; split; apply as_int_eq; reflexivity|]. repeat split.
Qed.
Example C59_two_independent : inv_independent two_resonances /\ inv_rows 6 two_resonances /\ Forall (fun r => exists z, UI_AMUN r = Val z) (ui_jvalues two_resonances).
Proof.
  split; [exists 2, 12; split; [|split; [|reflexivity]]; apply as_int_eq; reflexivity|]. split; [exists 2; split; [lia|]; split; apply as_int_eq; reflexivity|].
  repeat constructor; eexists; reflexivity.
Qed.
Example C59_rows_18_12 : exists a b, inv_rows 18 a /\ len (ll_resonances a) = 2 /\ inv_rows 12 b /\ len (cu_resonances b) = 3.
Proof.
  exists (xlist 0 0 2 (repeat r_pi 36)), (xlist 0 0 3 (repeat r_pi 36)). split; [exists 2; split; [lia|]; split; apply as_int_eq; reflexivity|]. split; [reflexivity|].
  split; [exists 3; split; [lia|]; split; apply as_int_eq; reflexivity|reflexivity].
Qed.
