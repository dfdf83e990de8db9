(** Sec32Local.v -- reading File 32 on long lines: the lines of the section only, and nothing else
    matters. *)
From Coq Require Import ZifyBool ZifyNat.
From Verif Require Import Base Disco DiscoProofs Records RecordProofs RecordRT RecordSound Layout
  RealRound RealProofs Spec Normal LineFacts PropRecords3 Sections SecSpec Codec SectionProofs SecKit CodecKit
  Sec9 Sec9Spec Sec9Proofs Sec4Spec Sec4Proofs Sec6 Sec6Spec Sec6Proofs Sec33 Sec33Spec Sec33Proofs Sec8 Sec8Spec Sec8Proofs
  Sec7 Sec7Spec Sec7Proofs Sec2 Sec2Spec Sec2Proofs Sec32 Sec32Corr Sec32Spec Sec32Proofs Sec32Safe SecLong.
Open Scope Z_scope.

Lemma nth_after n : forall t i, nth_line (drop_lines n t) i = nth_line t (n + i).
Proof. induction n as [|n IH]; intros t i; [reflexivity|]. cbn. apply IH. Qed.
Lemma drop_after n : forall t i, drop_lines i (drop_lines n t) = drop_lines (n + i) t.
Proof. induction n as [|n IH]; intros t i; [reflexivity|]. cbn. apply IH. Qed.
(** ** readers that stop at the first short line *)
Definition wcons {A} (P : text -> Prop) (m : M A) : Prop := forall s a s', m s = Ok a s' ->
  (exists ls, splits (buf s) ls (buf s') /\ line s' = line s + Z.of_nat (length ls) /\ Forall P ls /\ same_from ls m a)
  \/ met_short P (buf s).
Lemma wc_consumes {A} P (m : M A) : consumes P m -> wcons P m.
Proof. intros H s a s' E. left. exact (H _ _ _ E). Qed.
Lemma met_after P t ls r : splits t ls r -> Forall P ls -> met_short P r -> met_short P t.
Proof.
  intros S F (i & H & L). exists (length ls + i)%nat. split.
  - intros j Hj. destruct (lt_dec j (length ls)) as [K|K].
    + destruct (nth_error ls j) as [l|] eqn:El; [|apply nth_error_None in El; lia]. erewrite splits_nth by eauto. rewrite Forall_forall in F. apply F. eapply nth_error_In; eauto.
    + specialize (H (j - length ls)%nat ltac:(lia)). rewrite <- (splits_drop _ _ _ S), nth_after in H. replace (length ls + (j - length ls))%nat with j in H by lia. exact H.
  - rewrite <- (splits_drop _ _ _ S) in L. rewrite nth_after, drop_after in L. exact L.
Qed.
Lemma wc_bind {A B} P (m : M A) (f : A -> M B) : wcons P m -> (forall a, wcons P (f a)) -> wcons P (bind m f).
Proof.
  intros H K s b s2 E. apply bind_ok in E. destruct E as (a & s1 & E1 & E2).
  destruct (H _ _ _ E1) as [(l1 & S1 & L1 & F1 & D1)|Sh]; [|right; exact Sh].
  destruct (K a _ _ _ E2) as [(l2 & S2 & L2 & F2 & D2)|Sh]; [|right; eapply met_after; eauto].
  left. exists (l1 ++ l2). split; [eapply splits_app; eauto|]. rewrite app_length, Forall_app. split; [lia|]. split; [auto|].
  intros b' r ln S. apply splits_inv in S. destruct S as (r1 & Sa & Sb). unfold bind. rewrite (D1 _ _ _ Sa), (D2 _ _ _ Sb). rewrite app_length. do 2 f_equal. lia.
Qed.
Lemma wc_on_err {A} P (m : M A) h : wcons P m -> wcons P (on_err m h).
Proof.
  intros H s a s' E. apply on_err_ok in E. destruct (H _ _ _ E) as [(ls & S & L & F & D)|Sh]; [left|right; exact Sh].
  exists ls. split; [exact S|]. split; [exact L|]. split; [exact F|]. intros b r ln K. unfold on_err. now rewrite (D _ _ _ K).
Qed.
Lemma wc_ret {A} P (a : A) : wcons P (ret a). Proof. apply wc_consumes, consumes_ret. Qed.
Lemma wc_lift {A} P (o : out A) : wcons P (lift o). Proof. apply wc_consumes, consumes_lift. Qed.
Lemma wc_require P b : wcons P (require b). Proof. apply wc_consumes, consumes_require. Qed.
Lemma wc_throw {A} P e : wcons P (@throw A e). Proof. apply wc_consumes, consumes_throw. Qed.
Lemma wc_rd_n {A} P (m : M A) n : wcons P m -> wcons P (rd_n m n).
Proof. intros H. induction n as [|n IH]; [apply wc_ret|]. cbn [rd_n]. apply wc_bind; [exact H|intros x]. apply wc_bind; [exact IH|intros l]. apply wc_ret. Qed.
Lemma wc_all {A} P (rd : Z -> Z -> Z -> M A) n mat mf mt : wcons P (rd mat mf mt) -> wcons P (rd_all rd n mat mf mt).
Proof. intros H. unfold rd_all, rd_sequence. cbv zeta. apply wc_bind; [apply wc_require|intros _]. now apply wc_rd_n. Qed.
(** a CONT record that is looked at and read again *)
Lemma wc_peek {B} mat mf mt (f : cont -> M B) : mt <> 0 -> (forall c, wcons (tail_is mat mf mt) (f c)) ->
  (forall c ln b s, f c (mkst [] ln) <> Ok b s) -> wcons (tail_is mat mf mt) (c <- peek_cont mat mf mt ;; f c).
Proof.
  intros Hm H K s b s2 E. apply bind_ok in E. destruct E as (c & s1 & E1 & E2). apply peek_ok in E1. destruct E1 as (-> & s3 & E3).
  destruct (H c _ _ _ E2) as [(ls & S & L & F & D)|Sh]; [left|right; exact Sh]. exists ls. split; [exact S|]. split; [exact L|]. split; [exact F|].
  destruct ls as [|l ls]. { exfalso. apply (K c 0 b (mkst [] 0)). exact (D [] [] 0 eq_refl). }
  intros b' r ln S'. unfold bind, peek_cont.
  destruct (consumes_cont mat mf mt _ _ _ E3) as (lc & Sc & Lc & Fc & Dc).
  assert (lc = [l]).
  { assert (L3 : line s3 = line s + 1).
    { clear - E3. apply on_err_ok in E3. apply bind_ok in E3 as (c0 & s1 & H1 & R). apply bind_ok in R as (u & s2 & H2 & R).
      destruct (inl_any s) as (l & b & _ & I0). destruct (rd_base_cols _ _ _ _ _ I0 H1) as (_ & I1 & L1).
      destruct (verify_cols _ _ _ _ _ _ _ _ I1 H2) as (_ & _ & L2). inversion R; subst. lia. }
    destruct lc as [|l0 [|l1 lc]]; try (cbn [length] in Lc; lia). cbn [splits] in S, Sc. destruct S as (q & N & _), Sc as (q' & N' & _). congruence. }
  subst lc. cbn [splits] in S'. destruct S' as (b1 & N1 & S'). rewrite (Dc b' b1 ln) by (exists b1; split; [exact N1|reflexivity]). apply D. exists b1. auto.
Qed.

(** ** an INTG record *)
Definition linline {A} (o w : nat) (m : M A) : Prop := forall l b s a s', (66 <= length l)%nat -> inl o l b s -> m s = Ok a s' ->
  (inl (o + w) l b s' /\ line s' = line s) /\ forall b' t, inl o l b' t -> exists t', m t = Ok a t' /\ inl (o + w) l b' t' /\ line t' = line t.
Lemma linline_of {A} o w (m : M A) : inline w m -> linline o w m.
Proof. intros H l b s a s' _ I E. exact (H _ _ _ _ _ _ I E). Qed.
Lemma linline_advance o n : (o + n <= 66)%nat -> linline o n (advance n).
Proof.
  intros H l b s a s' L I E. assert (Hl : (o + n <= length l)%nat) by lia. assert (Li := advance_line _ _ _ _ E). assert (I2 := advance_inl _ _ _ _ _ _ _ I Hl E). split; [auto|].
  intros b' t J. assert (P := inl_prefix _ _ _ _ J).
  assert (E' : advance n t = Ok a (mkst (skipn n (buf t)) (line t))).
  { unfold advance. rewrite (proj2 (Nat.leb_le _ _)) by lia. now destruct a. }
  exists (mkst (skipn n (buf t)) (line t)). split; [exact E'|]. split; [exact (advance_inl _ _ _ _ _ _ _ J Hl E')|reflexivity].
Qed.
Lemma linline_bind {A B} o w1 w2 (m : M A) (f : A -> M B) : linline o w1 m -> (forall a, linline (o + w1) w2 (f a)) -> linline o (w1 + w2) (bind m f).
Proof.
  intros H1 H2 l b s x s2 L I E. apply bind_ok in E. destruct E as (a & s1 & E1 & E2). destruct (H1 _ _ _ _ _ L I E1) as [[I1 L1] D1].
  destruct (H2 a _ _ _ _ _ L I1 E2) as [[I2 L2] D2]. rewrite Nat.add_assoc. split; [split; congruence|].
  intros b' t J. destruct (D1 _ _ J) as (t1 & T1 & J1 & M1). destruct (D2 _ _ J1) as (t2 & T2 & J2 & M2). exists t2. unfold bind. rewrite T1. split; [exact T2|]. split; congruence.
Qed.
Lemma linline_rd_n {A} w (m : M A) : inline w m -> forall n, inline (w * n) (rd_n m n).
Proof.
  intros H. induction n as [|n IH]; [rewrite Nat.mul_0_r; apply inline_ret|]. cbn [rd_n]. replace (w * S n)%nat with (w + (w * n + 0))%nat by lia.
  apply inline_bind; [exact H|intros x]. apply inline_bind; [exact IH|intros l]. apply inline_ret.
Qed.
(** a short last line is not one *)
Lemma field_last w : forall t, noLF t -> snd (field w t) = skipn w t.
Proof.
  induction w as [|w IH]; intros t N; [reflexivity|]. destruct t as [|c t]; [reflexivity|]. cbn [field skipn].
  destruct (Ascii.eqb c LF) eqn:E. { exfalso. apply N. left. now apply Ascii.eqb_eq. }
  assert (N' : noLF t) by (intros H; apply N; now right). specialize (IH t N'). now destruct (field w t).
Qed.
Lemma int_last l o w s z s' : noLF l -> buf s = skipn o l -> rd_int w s = Ok z s' -> buf s' = skipn (o + w) l.
Proof.
  intros N B E. unfold rd_int in E. apply bind_ok in E. destruct E as (t & s1 & E1 & E). unfold rd_field in E1.
  assert (F := field_last w (buf s)). rewrite B in F, E1. specialize (F (noLF_skipn _ _ N)). destruct (field w (skipn o l)) as [x y]. injection E1 as _ <-. cbn [snd] in F.
  destruct (read_int t); [|discriminate]. injection E as _ <-. cbn [buf]. rewrite F. symmetry. apply skipn_add.
Qed.
Lemma ints_last l w n : forall o s z s', noLF l -> buf s = skipn o l -> rd_n (rd_int w) n s = Ok z s' -> buf s' = skipn (o + w * n) l.
Proof.
  induction n as [|n IH]; intros o s z s' N B E; cbn [rd_n] in E.
  - injection E as _ <-. rewrite Nat.mul_0_r, Nat.add_0_r. exact B.
  - apply bind_ok in E. destruct E as (x & s1 & E1 & E). apply bind_ok in E. destruct E as (y & s2 & E2 & E). injection E as _ <-.
    rewrite (IH _ _ _ _ N (int_last _ _ _ _ _ _ N B E1) E2). f_equal. lia.
Qed.
Lemma advance_last l o n s u s' : buf s = skipn o l -> advance n s = Ok u s' -> buf s' = skipn (o + n) l.
Proof.
  intros B E. unfold advance in E. destruct (_ <=? _)%nat; [|discriminate]. injection E as _ <-. cbn [buf]. rewrite B. symmetry. apply skipn_add.
Qed.
Lemma intg_last nd mat mf mt l s a s' : mt <> 0 -> (2 <= nd <= 6)%nat -> (length l < 66)%nat -> noLF l -> buf s = l ->
  (i <- rd_int 5 ;; j <- rd_int 5 ;; advance (intg_lead nd) ;;; ks <- rd_n (rd_int (nd + 1)) (intg_cap nd) ;; advance (intg_gap nd) ;;; r <- lift (make_intg (intg_cap nd) (u32 i) (u32 j) (strip0 ks)) ;; verify_tail mat mf mt ;;; ret r) s = Ok a s' -> False.
Proof.
  intros Hm Hn L N B E.
  assert (W : (5 + (5 + (intg_lead nd + ((nd + 1) * intg_cap nd + intg_gap nd))) = 66)%nat) by (destruct nd as [|[|[|[|[|[|[|n]]]]]]]; cbn; lia).
  apply bind_ok in E. destruct E as (i & s1 & E1 & E). apply (int_last l 0) in E1; [|exact N|exact B].
  apply bind_ok in E. destruct E as (j & s2 & E2 & E). apply (int_last l (0 + 5)) in E2; [|exact N|exact E1].
  apply bind_ok in E. destruct E as (u & s3 & E3 & E). eapply advance_last in E3; [|exact E2].
  apply bind_ok in E. destruct E as (ks & s4 & E4 & E). eapply ints_last in E4; [|exact N|exact E3].
  apply bind_ok in E. destruct E as (v & s5 & E5 & E). eapply advance_last in E5; [|exact E4].
  apply bind_ok in E. destruct E as (r & s6 & E6 & E). destruct (make_intg _ _ _ _); cbn [lift] in E6; [|discriminate..]. injection E6 as _ <-.
  apply bind_ok in E. destruct E as (w & s7 & E7 & E).
  assert (I : inl 66 l [] s5). { unfold inl. rewrite E5, !skipn_all2 by lia. reflexivity. }
  destruct (verify_cols _ _ _ _ _ _ _ _ I E7) as ((_ & _ & T) & _). unfold col in T. rewrite skipn_all2 in T by lia. vm_compute in T. congruence.
Qed.
Lemma wc_intg nd mat mf mt : mt <> 0 -> (2 <= nd <= 6)%nat -> wcons (tail_is mat mf mt) (rd_intg nd (intg_cap nd) mat mf mt).
Proof.
  intros Hm Hn. unfold rd_intg. apply wc_on_err. intros s a s' E. destruct (inl_any s) as (l & b & N & I).
  destruct (le_lt_dec 66 (length l)) as [L|L].
  2:{ right. exists 0%nat. split; [intros j Hj; lia|]. cbn [nth_line drop_lines]. rewrite N. split; [exact L|]. cbn [fst]. intros Hl.
      refine (intg_last nd mat mf mt l s a s' Hm Hn L _ Hl E). assert (X := next_line_noLF (buf s)). now rewrite N in X. }
  left.
  assert (W : (5 + (5 + (intg_lead nd + ((nd + 1) * intg_cap nd + intg_gap nd))) = 66 /\ intg_lead nd <= 1)%nat).
  { destruct nd as [|[|[|[|[|[|[|n]]]]]]]; cbn; lia. }
  assert (G : linline 0 66 (i <- rd_int 5 ;; j <- rd_int 5 ;; advance (intg_lead nd) ;;; ks <- rd_n (rd_int (nd + 1)) (intg_cap nd) ;; advance (intg_gap nd) ;;; ret (i, j, ks))).
  { assert (G0 : linline 0 (5 + (5 + (intg_lead nd + ((nd + 1) * intg_cap nd + (intg_gap nd + 0))))) (i <- rd_int 5 ;; j <- rd_int 5 ;; advance (intg_lead nd) ;;; ks <- rd_n (rd_int (nd + 1)) (intg_cap nd) ;; advance (intg_gap nd) ;;; ret (i, j, ks))).
    { apply linline_bind; [apply linline_of, inline_int|intros i]. apply linline_bind; [apply linline_of, inline_int|intros j].
      apply linline_bind; [apply linline_advance; lia|intros u]. apply linline_bind; [apply linline_of, linline_rd_n, inline_int|intros ks].
      apply linline_bind; [apply linline_advance; lia|intros v]. apply linline_of, inline_ret. }
    replace (5 + (5 + (intg_lead nd + ((nd + 1) * intg_cap nd + (intg_gap nd + 0)))))%nat with 66%nat in G0 by lia. exact G0. }
  assert (Q : forall s, (i <- rd_int 5 ;; j <- rd_int 5 ;; advance (intg_lead nd) ;;; ks <- rd_n (rd_int (nd + 1)) (intg_cap nd) ;; advance (intg_gap nd) ;;; r <- lift (make_intg (intg_cap nd) (u32 i) (u32 j) (strip0 ks)) ;; verify_tail mat mf mt ;;; ret r) s
    = (p <- (i <- rd_int 5 ;; j <- rd_int 5 ;; advance (intg_lead nd) ;;; ks <- rd_n (rd_int (nd + 1)) (intg_cap nd) ;; advance (intg_gap nd) ;;; ret (i, j, ks)) ;;
       let '(i, j, ks) := p in r <- lift (make_intg (intg_cap nd) (u32 i) (u32 j) (strip0 ks)) ;; verify_tail mat mf mt ;;; ret r) s).
  { intros q. unfold bind. destruct (rd_int 5 q) as [i q1| |]; [|reflexivity..]. destruct (rd_int 5 q1) as [j q2| |]; [|reflexivity..].
    destruct (advance (intg_lead nd) q2) as [u q3| |]; [|reflexivity..]. destruct (rd_n _ _ q3) as [ks q4| |]; [|reflexivity..]. destruct (advance (intg_gap nd) q4) as [v q5| |]; reflexivity. }
  rewrite Q in E. apply bind_ok in E. destruct E as ([[i j] ks] & s1 & E1 & E). destruct (G _ _ _ _ _ L I E1) as [[I1 L1] D1]. cbn [Nat.add] in I1.
  apply bind_ok in E. destruct E as (r & s2 & E2 & E). destruct (make_intg (intg_cap nd) (u32 i) (u32 j) (strip0 ks)) as [r0| |] eqn:E2'; cbn [lift] in E2; [|discriminate..]. injection E2 as <- <-.
  apply bind_ok in E. destruct E as (v & s3 & E3 & E). injection E as <- <-. destruct (verify_cols _ _ _ _ _ _ _ _ I1 E3) as (K & B & L3).
  exists [l]. cbn [splits]. split; [exists b; subst b; auto|]. split; [cbn [length]; lia|]. split; [constructor; [exact K|constructor]|].
  intros b' r' ln (b1 & N1 & <-). rewrite Q. unfold bind at 1. destruct (D1 b1 (mkst b' ln) N1) as (t1 & T1 & J1 & M1). rewrite T1. cbn [Nat.add] in J1.
  unfold bind. rewrite E2'. cbn [lift]. unfold ret. rewrite (verify_again _ _ _ _ _ _ K J1). cbn [line] in M1. rewrite M1. reflexivity.
Qed.

(** ** the parts of a section *)
Notation WC := (fun mat m => wcons (tail_is mat 32 151) m).
Lemma wc_cod {A} rep inv (rd : Z -> Z -> Z -> M A) pr nc mat mf mt : cod rep inv rd pr nc -> wcons (tail_is mat mf mt) (rd mat mf mt).
Proof. intros H. apply wc_consumes, (co_consumes _ _ _ _ _ H). Qed.
Lemma wc_cont mat mf mt : wcons (tail_is mat mf mt) (rd_cont mat mf mt). Proof. apply wc_consumes, consumes_cont. Qed.
Lemma wc_corr mat mf mt : mt <> 0 -> wcons (tail_is mat mf mt) (rd_corr mat mf mt).
Proof.
  intros Hm. unfold rd_corr. apply wc_bind; [apply wc_cont|intros c]. destruct (digits_ok (u32 (l1 c))) eqn:D.
  - apply wc_bind; [apply wc_require|intros _]. cbv zeta. apply wc_bind; [|intros gs; apply wc_lift]. apply wc_rd_n, wc_intg; [exact Hm|]. unfold digits_ok in D. lia.
  - intros s a s' E. discriminate.
Qed.
Lemma wc_when {A} P (rd : Z -> Z -> Z -> M A) b mat mf mt : wcons P (rd mat mf mt) -> wcons P (rd_when rd b mat mf mt).
Proof. destruct b; intros H; [|apply wc_ret]. unfold rd_when. apply wc_bind; [exact H|intros x; apply wc_ret]. Qed.
Lemma wc_compact {D U} (rdD : Z -> Z -> Z -> M D) (rdU : Z -> Z -> Z -> M U) mat mf mt : mt <> 0 ->
  wcons (tail_is mat mf mt) (rdD mat mf mt) -> wcons (tail_is mat mf mt) (rdU mat mf mt) -> wcons (tail_is mat mf mt) (rd_compact rdD rdU mat mf mt).
Proof.
  intros Hm HD HU. unfold rd_compact. apply wc_bind; [apply wc_cont|intros c]. apply wc_bind; [apply wc_when, HD|intros d].
  apply wc_bind; [exact HU|intros u]. apply wc_bind; [apply wc_corr; exact Hm|intros m]. apply wc_ret.
Qed.
(** nothing to read *)
Definition needs {A} (m : M A) : Prop := forall ln a s, m (mkst [] ln) <> Ok a s.
Lemma needs_bind {A B} (m : M A) (f : A -> M B) : needs m -> needs (bind m f).
Proof. intros H ln b s E. apply bind_ok in E. destruct E as (a & s1 & E & _). exact (H _ _ _ E). Qed.
Lemma needs_throw {A} e : needs (@throw A e). Proof. intros ln a s E. discriminate. Qed.
Lemma needs_cont mat mf mt : mt <> 0 -> needs (rd_cont mat mf mt).
Proof.
  intros H ln a s E. destruct (consumes_cont mat mf mt _ _ _ E) as (ls & S & L & F & D).
  destruct ls as [|l ls].
  - apply on_err_ok in E. apply bind_ok in E as (c0 & s1 & H1 & R). apply bind_ok in R as (u & s2 & H2 & R).
    assert (I0 : inl 0 [] [] (mkst [] ln)) by (apply inl_start; reflexivity). destruct (rd_base_cols _ _ _ _ _ I0 H1) as (_ & I1 & L1).
    destruct (verify_cols _ _ _ _ _ _ _ _ I1 H2) as (_ & _ & L2). inversion R; subst. cbn [length] in L. lia.
  - inversion F as [|? ? K _]; subst. cbn [splits] in S. destruct S as (b & N & _). cbn in N. injection N as <- <-.
    destruct K as (_ & _ & K). vm_compute in K. congruence.
Qed.
Lemma wc_cparams lru lrf mat : wcons (tail_is mat 32 151) (rd_cparams lru lrf mat 32 151).
Proof.
  unfold rd_cparams. apply wc_peek; [lia| |].
  - intros c. unfold rd_cparams_of. destruct (lru =? 1).
    + destruct (i32 (l2 c) =? 0); [|destruct (i32 (l2 c) =? 1); [|destruct (i32 (l2 c) =? 2); [|apply wc_throw]]].
      * destruct (lrf =? 1); [|destruct (lrf =? 2); [|apply wc_throw]]; (apply wc_bind; [eapply wc_cod, cod_limited|intros x; apply wc_ret]).
      * destruct (lrf =? 1); [|destruct (lrf =? 2); [|destruct (lrf =? 3); [|destruct (lrf =? 7); [|apply wc_throw]]]]; (apply wc_bind; [|intros x; apply wc_ret]).
        -- exact (wc_cod _ _ _ _ _ _ _ _ (cod_general _ _ _ _ _ _ _ _ _ _ cod_dap any_all (cod_checked _ _ check_short_spec))).
        -- exact (wc_cod _ _ _ _ _ _ _ _ (cod_general _ _ _ _ _ _ _ _ _ _ cod_dap any_all (cod_checked _ _ check_short_spec))).
        -- exact (wc_cod _ _ _ _ _ _ _ _ (cod_general _ _ _ _ _ _ _ _ _ _ cod_list any_all (cod_checked _ _ check_short_spec))).
        -- exact (wc_cod _ _ _ _ _ _ _ _ (cod_general _ _ _ _ _ _ _ _ _ _ cod_nothing any_all cod_short_rml)).
      * destruct (lrf =? 1); [|destruct (lrf =? 2); [|destruct (lrf =? 3); [|destruct (lrf =? 7); [|apply wc_throw]]]]; (apply wc_bind; [|intros x; apply wc_ret]); (apply wc_compact; [lia| |]).
        -- exact (wc_cod _ _ _ _ _ _ _ _ cod_dap).
        -- exact (wc_cod _ _ _ _ _ _ _ _ (cod_checked _ _ check_uncertainties_spec)).
        -- exact (wc_cod _ _ _ _ _ _ _ _ cod_dap).
        -- exact (wc_cod _ _ _ _ _ _ _ _ (cod_checked _ _ check_uncertainties_spec)).
        -- exact (wc_cod _ _ _ _ _ _ _ _ cod_list).
        -- exact (wc_cod _ _ _ _ _ _ _ _ (cod_checked _ _ check_uncertainties_spec)).
        -- exact (wc_cod _ _ _ _ _ _ _ _ cod_nothing).
        -- exact (wc_cod _ _ _ _ _ _ _ _ cod_rml32).
    + destruct (lru =? 2); [|apply wc_throw]. apply wc_bind; [exact (wc_cod _ _ _ _ _ _ _ _ cod_unres32)|intros x; apply wc_ret].
  - intros c. assert (G : needs (rd_cparams_of lru lrf (i32 (l2 c)) mat 32 151)); [|exact G]. assert (N : needs (rd_cont mat 32 151)) by (apply needs_cont; lia).
    unfold rd_cparams_of, rd_limited, rd_general, rd_compact, rd_unres32. repeat (destruct (_ =? _) in |- *); try apply needs_throw; apply needs_bind, needs_bind, N.
Qed.
Lemma wc_cisotope mat : wcons (tail_is mat 32 151) (rd_cisotope mat 32 151).
Proof.
  unfold rd_cisotope. apply wc_bind; [apply wc_cont|intros c]. apply wc_bind; [apply wc_all|intros rs; apply wc_ret].
  unfold rd_crange. apply wc_bind; [apply wc_cont|intros c']. apply wc_bind; [exact (wc_cod _ _ _ _ _ _ _ _ (cod_cradius (i32 (n1 c'))))|intros o].
  apply wc_bind; [apply wc_cparams|intros p]. apply wc_lift.
Qed.
Lemma wc_32 n mat : wcons (tail_is mat 32 151) (rd_32_151 n mat 32 151).
Proof. unfold rd_32_151. apply wc_bind; [apply wc_all, wc_cisotope|intros l; apply wc_lift]. Qed.
(** the whole section *)
Lemma long_32 : section_long sec_32_151.
Proof.
  intros h mat s x s' E. destruct (section_sound sec_32_151 _ _ body_32 _ _ _ _ _ E) as (_ & s1 & E1 & Q & Lq).
  change (k_mf sec_32_151) with 32 in *. change (k_rmt sec_32_151 h) with 151 in *.
  assert (W : wcons (tail_is (k_rmat sec_32_151 h mat) 32 151) (k_read sec_32_151 h (k_rmat sec_32_151 h mat) 32 151)) by apply wc_32.
  destruct (W _ _ _ E1) as [(l1 & S1 & L1 & F1 & D1)|Sh]; [left|right; exact Sh].
  exists s1. split; [|split; [exact Q|split; [exact Lq|split]]].
  3:{ intros n t ln K. assert (X : n = Z.of_nat (length l1)) by (unfold n; lia). rewrite X in *. rewrite Nat2Z.id.
      apply D1, (splits_same l1 (buf s) (buf s1)); [exact S1|]. intros i Hi. apply K. lia. }
  { exists (length l1). split; [symmetry; eapply splits_drop; eauto|]. split; [exact L1|]. intros i Hi.
    destruct (nth_error l1 i) as [l|] eqn:El; [|apply nth_error_None in El; lia].
    erewrite splits_nth by eauto. rewrite Forall_forall in F1. apply F1. eapply nth_error_In; eauto. }
  cbv zeta. intros t ln K. unfold rd_section in E |- *. change (k_mf sec_32_151) with 32 in *. change (k_rmt sec_32_151 h) with 151 in *.
  apply bind_ok in E. destruct E as ([za awr] & s0 & E0 & E).
  assert (C0 : consumes (fun _ => False) (sec_head (k_chk sec_32_151) false h mat 32)).
  { unfold sec_head. apply consumes_bind; [apply consumes_lift|intros z]. repeat (apply consumes_bind; [apply consumes_require|intros]). apply consumes_ret. }
  destruct (C0 _ _ _ E0) as (l0 & S0 & L0 & F0 & D0). destruct l0 as [|? ?]; [|inversion F0; tauto]. cbn [splits] in S0. cbn [length] in L0.
  assert (s0 = s) by (clear - S0 L0; destruct s as [bs ns], s0 as [b0 k0]; cbn [buf line] in *; f_equal; [congruence|lia]). subst s0.
  apply bind_ok in E. destruct E as (b & s1' & E1' & E). rewrite E1 in E1'. injection E1' as <- <-.
  apply bind_ok in E. destruct E as (u & s2 & E2 & E). injection E as <- <-.
  destruct (consumes_SEND mat 32 _ _ _ E2) as (l2 & S2 & L2 & _ & D2).
  assert (N : Z.to_nat (line s2 - line s) = length (l1 ++ l2)) by (rewrite app_length; lia).
  assert (S : splits t (l1 ++ l2) (drop_lines (length (l1 ++ l2)) t)).
  { apply (splits_same _ (buf s) (buf s2)); [eapply splits_app; eauto|]. intros i Hi. apply K. lia. }
  rewrite N. replace (line s2 - line s) with (Z.of_nat (length (l1 ++ l2))) by lia.
  apply splits_inv in S. destruct S as (r1 & Sa & Sb).
  unfold bind. change (match k_fix sec_32_151 with Some _ => false | None => true end) with false.
  rewrite (D0 t t ln eq_refl). cbn [length]. rewrite (D1 t r1 _ Sa), (D2 _ _ _ Sb). unfold ret. rewrite app_length. do 2 f_equal; lia.
Qed.
