(** PropCut2.v -- C09 and C41: typed files, materials and tapes are read by whole lines; cut between two lines. *)
From Coq Require Import String ZifyBool ZifyNat.
From Verif Require Import Base Disco DiscoProofs Records RecordProofs RecordSound Spec LineFacts Sections SecSpec SectionProofs SecLong
  Tree TreeSpec TreeProofs TreeGrammar Typed PropTree2 TypedSpec TypedProofs PropTyped3 Classes PropClasses PropAgree2 Sec32Local Sec1 PropTrunc PropCut.
Open Scope Z_scope.

(** ** what a reader makes of the first lines does not depend on the rest *)
Definition agree (k : nat) (q t : text) : Prop := (forall i, (i < k)%nat -> nth_line t i = nth_line q i) /\ (k <= lines_in t)%nat.
Lemma lines_drop j t : (lines_in t <= j + lines_in (drop_lines j t))%nat.
Proof.
  revert t. induction j as [|j IH]; intros t; [cbn; lia|]. destruct t as [|c t]; [cbn; lia|]. rewrite lines_in_step by discriminate.
  specialize (IH (snd (next_line (c :: t)))). cbn [drop_lines]. lia.
Qed.
Lemma lines_len t : (lines_in t <= length t)%nat.
Proof. induction t as [|c t IH]; [cbn; lia|]. cbn [lines_in]. destruct (Ascii.eqb c LF); [cbn [length]; lia|]. destruct t; cbn [length] in *; lia. Qed.
Lemma agree_le k j q t : (j <= k)%nat -> agree k q t -> agree j q t.
Proof. intros H (A & B). split; [intros i Hi; apply A; lia|lia]. Qed.
Lemma agree_drop j k q t : agree (j + k) q t -> agree k (drop_lines j q) (drop_lines j t).
Proof.
  intros (A & B). split; [|assert (H := lines_drop j t); lia]. intros i Hi. rewrite !nth_after. apply A. lia.
Qed.
Lemma agree_len k q t : agree (S k) q t -> (k <= length (drop_lines 1 t))%nat.
Proof. intros (_ & H). assert (L := lines_drop 1 t). assert (L2 := lines_len (drop_lines 1 t)). lia. Qed.
(** [m] is given the division read from the first line *)
Definition local {A} (m : sdiv -> M A) (E : text -> Prop) (q : text) : Prop := forall ln d s1 x s,
  rd_sdiv (mkst q ln) = Ok d s1 -> m d s1 = Ok x s ->
  exists k, buf s = drop_lines (S k) q /\ line s = ln + 1 + Z.of_nat k /\ E (nth_line q k)
    /\ forall t l', agree (S k) q t -> rd_sdiv (mkst t l') = Ok d (mkst (drop_lines 1 t) (l' + 1))
       /\ m d (mkst (drop_lines 1 t) (l' + 1)) = Ok x (mkst (drop_lines (S k) t) (l' + 1 + Z.of_nat k)).
Lemma first_same q t ln l' d s1 : rd_sdiv (mkst q ln) = Ok d s1 -> nth_line t 0 = nth_line q 0 -> rd_sdiv (mkst t l') = Ok d (mkst (drop_lines 1 t) (l' + 1)).
Proof. intros E H. exact (sdiv_same _ _ _ t l' E H). Qed.
Lemma sdiv_st q ln d s1 : rd_sdiv (mkst q ln) = Ok d s1 -> s1 = mkst (drop_lines 1 q) (ln + 1).
Proof. intros E. destruct (sdiv_line _ _ _ E) as (B & L). destruct s1 as [b l]. cbn [buf line] in *. now subst. Qed.
Lemma loop_local {A} stop (bd : sdiv -> M A) E f : forall q, (forall j, local bd E (drop_lines j q)) -> forall ln d s1 x s,
  rd_sdiv (mkst q ln) = Ok d s1 -> div_loop stop bd f d s1 = Ok x s ->
  exists k, buf s = drop_lines (S k) q /\ line s = ln + 1 + Z.of_nat k
    /\ (exists d', division_line (nth_line q k) d' /\ stop d' = true) /\ (k = 0%nat \/ E (nth_line q (k - 1)))
    /\ forall f' t l', (k < f')%nat -> agree (S k) q t -> rd_sdiv (mkst t l') = Ok d (mkst (drop_lines 1 t) (l' + 1))
       /\ div_loop stop bd f' d (mkst (drop_lines 1 t) (l' + 1)) = Ok x (mkst (drop_lines (S k) t) (l' + 1 + Z.of_nat k)).
Proof.
  induction f as [|f IH]; intros q B ln d s1 x s E1 Er; [discriminate|].
  assert (S1 := sdiv_st _ _ _ _ E1). cbn [div_loop] in Er. destruct (stop d) eqn:Sd.
  - injection Er as <- <-. subst s1. exists 0%nat. split; [reflexivity|]. split; [cbn [line]; lia|].
    split. { exists d. split; [|exact Sd]. exact (proj1 (sdiv_here _ _ _ _ E1)). }
    split; [now left|]. intros f' t l' Hf (Ag & _). split; [eapply first_same; [exact E1|apply Ag; lia]|].
    destruct f' as [|f']; [lia|]. cbn [div_loop]. rewrite Sd. unfold ret. do 2 f_equal. lia.
  - apply bind_ok in Er. destruct Er as (y & s2 & Ey & Er). apply bind_ok in Er. destruct Er as (d2 & s3 & E3 & Er).
    apply bind_ok in Er. destruct Er as (r & s4 & E4 & Er). injection Er as <- <-.
    assert (B0 := B 0%nat). cbn [drop_lines] in B0. destruct (B0 _ _ _ _ _ E1 Ey) as (k1 & Bf & Ls & Ek & Lo).
    destruct s2 as [b2 n2]. cbn [buf line] in Bf, Ls. subst b2 n2.
    assert (B' : forall j, local bd E (drop_lines j (drop_lines (S k1) q))) by (intros j; rewrite drop_after; apply B).
    destruct (IH _ B' _ _ _ _ _ E3 E4) as (k2 & Bf2 & Ls2 & (d' & Dl & Sd') & En & Lo2).
    exists (S k1 + k2)%nat. rewrite drop_after in Bf2. split; [rewrite Bf2; f_equal; lia|]. split; [lia|].
    rewrite nth_after in Dl. split; [exists d'; auto|]. split.
    { right. destruct En as [->|En]; [now replace (S k1 + 0 - 1)%nat with k1 by lia|].
      destruct k2 as [|k2]; [now replace (S k1 + 0 - 1)%nat with k1 by lia|].
      rewrite nth_after in En. now replace (S k1 + S k2 - 1)%nat with (S k1 + (S k2 - 1))%nat by lia. }
    intros f' t l' Hf Ag. assert (Ag1 : agree (S k1) q t) by (revert Ag; apply agree_le; lia).
    destruct (Lo t l' Ag1) as (R1 & R2). split; [exact R1|].
    destruct f' as [|f']; [lia|]. cbn [div_loop]. rewrite Sd. unfold bind at 1. rewrite R2.
    assert (Ag2 : agree (S k2) (drop_lines (S k1) q) (drop_lines (S k1) t)) by (apply agree_drop; now replace (S k1 + S k2)%nat with (S (S k1 + k2)) by lia).
    destruct (Lo2 f' (drop_lines (S k1) t) (l' + 1 + Z.of_nat k1) ltac:(lia) Ag2) as (R3 & R4).
    unfold bind at 1. rewrite R3. unfold bind at 1. rewrite R4. unfold ret. rewrite drop_after. do 2 f_equal; [f_equal; lia|lia].
Qed.

(** ** sections *)
Lemma lift_inv {A} (o : out A) s a s' : lift o s = Ok a s' -> o = Val a /\ s' = s.
Proof. destruct o; cbn; try discriminate. intros H. injection H as <- <-. auto. Qed.
Lemma head_any b fx h mat mf s v s' : sec_head b fx h mat mf s = Ok v s' -> s' = s /\ forall r, sec_head b fx h mat mf r = Ok v r.
Proof.
  intros E. unfold sec_head in *. apply bind_ok in E. destruct E as (za' & s2 & E0 & E1).
  apply lift_inv in E0. destruct E0 as (E0 & ->).
  split; [now repeat (apply bind_ok in E1; destruct E1 as (? & ? & ? & E1); match goal with H : require _ _ = _ |- _ => apply require_ok in H; destruct H as [_ ->] end); injection E1|].
  intros r. unfold lift. unfold bind at 1. rewrite E0.
  revert E1. clear. unfold bind, require, ret, throw. intros H.
  repeat match goal with H : context [if ?c then _ else _] |- _ => destruct c end; try discriminate. now injection H as <- _.
Qed.

Definition any_line (l : text) : Prop := True.
Lemma send_same mat mf q ln u s1 : rd_SEND mat mf (mkst q ln) = Ok u s1 -> s1 = mkst (drop_lines 1 q) (ln + 1)
  /\ forall t l', nth_line t 0 = nth_line q 0 -> rd_SEND mat mf (mkst t l') = Ok u (mkst (drop_lines 1 t) (l' + 1)).
Proof.
  intros E. unfold rd_SEND in *. apply bind_ok in E. destruct E as (d & s2 & E1 & E). assert (S2 := sdiv_st _ _ _ _ E1).
  split; [|intros t l' H; unfold bind at 1; rewrite (first_same _ t _ l' _ _ E1 H)]; revert E; unfold bind, require, ret, throw; intros E;
    repeat match type of E with context [if ?c then _ else _] => destruct c end; try discriminate; injection E as <- <-; auto.
Qed.
Lemma section_local c (mat : sdiv -> Z) q : (c = K32_151 -> long_lines q) -> local (fun d => Sections.rd_section (skind_of c) d (mat d)) any_line q.
Proof.
  intros L ln d s1 x s E1 E. assert (S1 := sdiv_st _ _ _ _ E1). subst s1.
  assert (L1 : c = K32_151 -> long_lines (drop_lines 1 q)) by (intros H i K; exact (L H (S i) K)).
  destruct (lib_body _ _ _ _ _ _ E L1) as (s2 & (n & _ & Ln & _) & _ & Le & Q). cbn [buf line] in Q, Ln. cbv zeta in Q.
  replace (line s - (ln + 1) - 1) with (Z.of_nat n) in Q by lia. rewrite Nat2Z.id in Q. clear s2 Ln Le.
  unfold Sections.rd_section in E. apply bind_ok in E. destruct E as ([za awr] & s3 & E2 & E).
  apply head_any in E2. destruct E2 as (-> & E2). apply bind_ok in E. destruct E as (b & s4 & E3 & E).
  apply bind_ok in E. destruct E as ([] & s5 & E4 & E). injection E as <- <-. cbn [s_body] in Q.
  assert (Qs := Q _ (ln + 1) (fun i _ => eq_refl)). rewrite E3 in Qs. injection Qs as Qs. rewrite Qs in E4.
  destruct (send_same _ _ _ _ _ _ E4) as (-> & E5).
  exists (S n). split; [cbn [buf]; rewrite drop_after; change (drop_lines (n + 1) (drop_lines 1 q) = drop_lines (S (S n)) q); rewrite drop_after; f_equal; lia|]. split; [cbn [line]; lia|]. split; [exact Logic.I|].
  intros t l' Ag. split; [eapply first_same; [exact E1|apply Ag; lia]|].
  unfold Sections.rd_section. unfold bind at 1. rewrite E2.
  unfold bind at 1. rewrite Q by (intros i Hi; rewrite !nth_after; apply Ag; lia).
  assert (A2 : nth_line (drop_lines n (drop_lines 1 t)) 0 = nth_line (drop_lines n (drop_lines 1 q)) 0) by (rewrite !nth_after; apply Ag; lia).
  unfold bind at 1. rewrite (E5 _ (l' + 1 + Z.of_nat n) A2). unfold ret. do 2 f_equal; [|lia]. rewrite drop_after. change (drop_lines (n + 1) (drop_lines 1 t) = drop_lines (S (S n)) t). rewrite drop_after. f_equal. lia.
Qed.

(** ** files *)
(** the line at which a file that is read ends: a FEND, or (a file 8 that is skipped) no end record and no HEAD *)
Definition file_end (l : text) : Prop := exists d, division_line l d /\ is_send d = false /\ is_head d = false /\ is_mend d = false /\ is_tend d = false.
Lemma fend_is d : is_fend d = true -> is_send d = false /\ is_head d = false /\ is_mend d = false /\ is_tend d = false.
Proof. unfold is_fend, is_send, is_head, is_mend, is_tend, is_fend_permissive, is_send_permissive. intros H. repeat split; lia. Qed.
Lemma verify_is d : verify_fend d = true -> is_send d = false /\ is_head d = false /\ is_mend d = false /\ is_tend d = false.
Proof.
  unfold verify_fend. destruct (is_fend d) eqn:E; [intros _; now apply fend_is|]. cbn [orb].
  destruct (is_send d), (is_head d), (is_mend d), (is_tend d); cbn; auto.
Qed.
Lemma skip_same q ln r s1 : rd_skip (mkst q ln) = Ok r s1 -> s1 = mkst (drop_lines 1 q) (ln + 1)
  /\ forall t l', nth_line t 0 = nth_line q 0 -> rd_skip (mkst t l') = Ok r (mkst (drop_lines 1 t) (l' + 1)).
Proof.
  intros E. destruct r as [[a b] c]. apply skip_inv in E. destruct E as (l & r & N & C & ->). split; [cbn [drop_lines]; now rewrite N|].
  intros t l' H. cbn [nth_line] in H. rewrite N in H. cbn [fst] in H. destruct (next_line t) as [l2 r2] eqn:N2. cbn [fst] in H. subst l2.
  cbn [drop_lines]. rewrite N2. cbn [snd]. eapply skip_fwd; eauto.
Qed.
Lemma skip_mf_local mf f : forall x q ln u s, skip_mf mf f x (mkst q ln) = Ok u s -> exists k, s = mkst (drop_lines k q) (ln + Z.of_nat k)
  /\ forall f' t l', (k < f')%nat -> agree k q t -> skip_mf mf f' x (mkst t l') = Ok u (mkst (drop_lines k t) (l' + Z.of_nat k)).
Proof.
  induction f as [|f IH]; intros x q ln u s E; [discriminate|]. cbn [skip_mf] in E. destruct (x =? mf) eqn:X.
  - apply bind_ok in E. destruct E as ([[a b] c] & s1 & E1 & E). apply skip_same in E1. destruct E1 as (-> & E1).
    destruct (IH _ _ _ _ _ E) as (k & -> & R). exists (S k). split; [rewrite drop_after; f_equal; lia|].
    intros f' t l' Hf Ag. destruct f' as [|f']; [lia|]. cbn [skip_mf]. rewrite X. unfold bind. rewrite E1 by (apply Ag; lia).
    rewrite R; [|lia|now apply (agree_drop 1)]. rewrite drop_after. do 2 f_equal; lia.
  - injection E as <- <-. exists 0%nat. split; [cbn [drop_lines]; f_equal; lia|]. intros f' t l' Hf _. destruct f' as [|f']; [lia|].
    cbn [skip_mf drop_lines]. rewrite X. unfold ret. do 2 f_equal. lia.
Qed.
Lemma skip_mt_local mt f : forall x q ln u s, skip_mt mt f x (mkst q ln) = Ok u s -> exists k, s = mkst (drop_lines k q) (ln + Z.of_nat k)
  /\ forall f' t l', (k < f')%nat -> agree k q t -> skip_mt mt f' x (mkst t l') = Ok u (mkst (drop_lines k t) (l' + Z.of_nat k)).
Proof.
  induction f as [|f IH]; intros x q ln u s E; [discriminate|]. cbn [skip_mt] in E. destruct (x =? mt) eqn:X.
  - apply bind_ok in E. destruct E as ([[a b] c] & s1 & E1 & E). apply skip_same in E1. destruct E1 as (-> & E1).
    destruct (IH _ _ _ _ _ E) as (k & -> & R). exists (S k). split; [rewrite drop_after; f_equal; lia|].
    intros f' t l' Hf Ag. destruct f' as [|f']; [lia|]. cbn [skip_mt]. rewrite X. unfold bind. rewrite E1 by (apply Ag; lia).
    rewrite R; [|lia|now apply (agree_drop 1)]. rewrite drop_after. do 2 f_equal; lia.
  - injection E as <- <-. exists 0%nat. split; [cbn [drop_lines]; f_equal; lia|]. intros f' t l' Hf _. destruct f' as [|f']; [lia|].
    cbn [skip_mt drop_lines]. rewrite X. unfold ret. do 2 f_equal. lia.
Qed.
Lemma skip_8_local f : forall q ln d s1 x s, rd_sdiv (mkst q ln) = Ok d s1 -> skip_8 f d s1 = Ok x s ->
  exists k, s = mkst (drop_lines (S k) q) (ln + 1 + Z.of_nat k) /\ division_line (nth_line q k) x
    /\ forall f' t l', (k < f')%nat -> agree (S k) q t -> skip_8 f' d (mkst (drop_lines 1 t) (l' + 1)) = Ok x (mkst (drop_lines (S k) t) (l' + 1 + Z.of_nat k)).
Proof.
  induction f as [|f IH]; intros q ln d s1 x s E1 E; [discriminate|]. assert (S1 := sdiv_st _ _ _ _ E1). subst s1. cbn [skip_8] in E. destruct (smf d =? 8) eqn:X.
  - unfold bind at 1, get_pos in E. cbn [buf] in E. apply bind_ok in E. destruct E as ([] & s2 & E2 & E). apply bind_ok in E. destruct E as (d' & s3 & E3 & E).
    destruct (skip_mt_local _ _ _ _ _ _ _ E2) as (k1 & -> & R1). destruct (IH _ _ _ _ _ _ E3 E) as (k2 & -> & D & R2).
    rewrite !drop_after in *. rewrite nth_after in D. exists (1 + k1 + k2)%nat. split; [f_equal; [f_equal; lia|lia]|]. split; [exact D|].
    intros f' t l' Hf Ag. destruct f' as [|f']; [lia|]. cbn [skip_8]. rewrite X. unfold bind at 1, get_pos. cbn [buf].
    assert (A1 : agree k1 (drop_lines 1 q) (drop_lines 1 t)) by (apply agree_drop; revert Ag; apply agree_le; lia).
    unfold bind at 1. rewrite R1; [|apply agree_len in Ag; lia|exact A1].
    unfold bind. rewrite drop_after. assert (A2 : agree (S k2) (drop_lines (1 + k1) q) (drop_lines (1 + k1) t)) by (apply agree_drop; revert Ag; apply agree_le; lia).
    assert (A3 : nth_line (drop_lines (1 + k1) t) 0 = nth_line (drop_lines (1 + k1) q) 0) by (apply A2; lia).
    rewrite (first_same _ _ _ (l' + 1 + Z.of_nat k1) _ _ E3 A3). rewrite R2; [|lia|exact A2]. rewrite drop_after. do 2 f_equal; [f_equal; lia|lia].
  - injection E as <- <-. exists 0%nat. split; [f_equal; lia|]. split; [exact (proj1 (sdiv_here _ _ _ _ E1))|].
    intros f' t l' Hf _. destruct f' as [|f']; [lia|]. cbn [skip_8]. rewrite X. unfold ret. do 2 f_equal. lia.
Qed.
Definition file_last (mf : Z) (l : text) : Prop := mf = 30 \/ file_end l.
Lemma any_local mf q : (mf = 32 -> long_lines q) -> local (rd_any skind_of lib_class mf) any_line q.
Proof.
  intros L ln d s1 x s E1 E. unfold rd_any in *. destruct (lib_class mf (smt d)) as [c|] eqn:C; [|discriminate].
  apply bind_ok in E. destruct E as (y & s2 & E2 & E). injection E as <- <-.
  assert (Lc : c = K32_151 -> long_lines q) by (intros ->; exact (L (class_32 _ _ C))).
  destruct (section_local c smat q Lc _ _ _ _ _ E1 E2) as (k & B & Ls & K & R).
  exists k. split; [exact B|]. split; [exact Ls|]. split; [exact K|]. intros t l' Ag. destruct (R t l' Ag) as (R1 & R2). split; [exact R1|].
  unfold bind. rewrite R2. reflexivity.
Qed.
Lemma long_drop j q : long_lines q -> long_lines (drop_lines j q).
Proof. intros L i H. rewrite drop_after, nth_after in *. exact (L _ H). Qed.
Lemma file_local mf q : (mf = 32 -> long_lines q) -> local (rd_yfile skind_of lib_class mf) (file_last mf) q.
Proof.
  intros L ln d s1 x s E1 E. assert (S1 := sdiv_st _ _ _ _ E1). subst s1. unfold rd_yfile in E. destruct (mf =? 30) eqn:E30; [|destruct ((mf =? 8) && negb ((smt d =? 454) || (smt d =? 457) || (smt d =? 459))) eqn:E8].
  - apply bind_ok in E. destruct E as ([] & s2 & E2 & E). injection E as <- <-.
    assert (P : exists k, s2 = mkst (drop_lines k (drop_lines 1 q)) (ln + 1 + Z.of_nat k) /\ forall t l', agree k (drop_lines 1 q) (drop_lines 1 t) ->
      (if smf d =? 30 then b <- get_pos ;; skip_mf 30 (S (S (length b))) (smf d) else ret tt) (mkst (drop_lines 1 t) (l' + 1)) = Ok tt (mkst (drop_lines k (drop_lines 1 t)) (l' + 1 + Z.of_nat k))).
    { destruct (smf d =? 30).
      - unfold bind, get_pos in *. cbn [buf] in *. destruct (skip_mf_local _ _ _ _ _ _ _ E2) as (k & -> & R). exists k. split; [reflexivity|].
        intros t l' Ag. apply R; [|exact Ag]. destruct Ag as (_ & Ag). assert (L2 := lines_len (drop_lines 1 t)). lia.
      - injection E2 as <-. exists 0%nat. split; [cbn [drop_lines]; f_equal; lia|]. intros t l' _. unfold ret. cbn [drop_lines]. do 2 f_equal. lia. }
    destruct P as (k & -> & R). exists k. rewrite drop_after. split; [reflexivity|]. split; [reflexivity|]. split; [left; lia|].
    intros t l' Ag. split; [eapply first_same; [exact E1|apply Ag; lia]|]. unfold rd_yfile. rewrite E30. unfold bind at 1. rewrite R by now apply agree_drop.
    unfold ret. now rewrite drop_after.
  - apply on_err_ok in E. unfold bind at 1, get_pos in E. cbn [buf] in E. apply bind_ok in E. destruct E as (d' & s2 & E2 & E).
    apply bind_ok in E. destruct E as ([] & s3 & E3 & E). apply require_ok in E3. destruct E3 as (V & ->). injection E as <- <-.
    destruct (skip_8_local _ _ _ _ _ _ _ E1 E2) as (k & -> & D & R). exists k. split; [reflexivity|]. split; [reflexivity|].
    split; [right; exists d'; split; [exact D|now apply verify_is]|]. intros t l' Ag. split; [eapply first_same; [exact E1|apply Ag; lia]|].
    unfold rd_yfile. rewrite E30, E8. apply on_err_ok. unfold bind at 1, get_pos. cbn [buf]. unfold bind at 1. rewrite R; [|apply agree_len in Ag; lia|exact Ag].
    unfold bind, require. rewrite V. reflexivity.
  - unfold rd_yfile_base in E. apply on_err_ok in E. unfold bind at 1, get_pos in E. cbn [buf] in E. apply bind_ok in E. destruct E as (l & s2 & E2 & E).
    apply bind_ok in E. destruct E as (m & s3 & E3 & E). apply lift_inv in E3. destruct E3 as (E3 & ->). injection E as <- <-.
    assert (Lj : forall j, local (rd_any skind_of lib_class mf) any_line (drop_lines j q)) by (intros j; apply any_local; intros H; apply long_drop, L, H).
    destruct (loop_local _ _ _ _ _ Lj _ _ _ _ _ E1 E2) as (k & B & Ls & (d' & D & F) & _ & R). exists k. split; [exact B|]. split; [exact Ls|].
    split; [right; exists d'; split; [exact D|now apply fend_is]|]. intros t l' Ag. split; [eapply first_same; [exact E1|apply Ag; lia]|].
    unfold rd_yfile. rewrite E30, E8. unfold rd_yfile_base. apply on_err_ok. unfold bind at 1, get_pos. cbn [buf].
    assert (Hf : (k < S (S (length (drop_lines 1 t))))%nat) by (apply agree_len in Ag; lia).
    destruct (R _ t l' Hf Ag) as (_ & R2). unfold bind at 1. rewrite R2. unfold bind, lift. rewrite E3. reflexivity.
Qed.

(** ** materials and tapes *)
Definition mend_last (l : text) : Prop := exists d, division_line l d /\ is_mend d = true.
Lemma any_file_local (E : text -> Prop) q : long_lines q -> (forall d, division_line (nth_line q 0) d -> forall l, file_last (smf d) l -> E l) ->
  local (rd_any_file skind_of lib_class) E q.
Proof.
  intros L H ln d s1 x s E1 R. unfold rd_any_file in *. destruct (known_mf (smf d)); [|discriminate].
  destruct (file_local (smf d) q (fun _ => L) _ _ _ _ _ E1 R) as (k & B & Ls & K & Q). exists k. split; [exact B|]. split; [exact Ls|].
  split; [|exact Q]. apply (H d); [exact (proj1 (sdiv_here _ _ _ _ E1))|exact K].
Qed.
Lemma mat_local (E : text -> Prop) q : long_lines q -> (forall i d, division_line (nth_line q i) d -> forall l, file_last (smf d) l -> E l) ->
  forall ln d s1 x s, rd_sdiv (mkst q ln) = Ok d s1 -> rd_ymat skind_of lib_class d s1 = Ok x s ->
  exists k, buf s = drop_lines (S k) q /\ line s = ln + 1 + Z.of_nat k /\ mend_last (nth_line q k) /\ (k = 0%nat \/ E (nth_line q (k - 1)))
    /\ forall t l', agree (S k) q t -> rd_sdiv (mkst t l') = Ok d (mkst (drop_lines 1 t) (l' + 1))
       /\ rd_ymat skind_of lib_class d (mkst (drop_lines 1 t) (l' + 1)) = Ok x (mkst (drop_lines (S k) t) (l' + 1 + Z.of_nat k)).
Proof.
  intros L H ln d s1 x s E1 R. assert (S1 := sdiv_st _ _ _ _ E1). subst s1. unfold rd_ymat in R. apply on_err_ok in R.
  unfold bind at 1, get_pos in R. cbn [buf] in R. apply bind_ok in R. destruct R as (l & s2 & E2 & R).
  apply bind_ok in R. destruct R as (m & s3 & E3 & R). apply lift_inv in E3. destruct E3 as (E3 & ->). injection R as <- <-.
  assert (Lj : forall j, local (rd_any_file skind_of lib_class) E (drop_lines j q)).
  { intros j. apply any_file_local; [now apply long_drop|]. intros d0 D. rewrite nth_after in D. exact (H _ _ D). }
  destruct (loop_local _ _ _ _ _ Lj _ _ _ _ _ E1 E2) as (k & B & Ls & Me & Pe & R). exists k. split; [exact B|]. split; [exact Ls|].
  split; [exact Me|]. split; [exact Pe|]. intros t l' Ag. split; [eapply first_same; [exact E1|apply Ag; lia]|].
  unfold rd_ymat. apply on_err_ok. unfold bind at 1, get_pos. cbn [buf].
  assert (Hf : (k < S (S (length (drop_lines 1 t))))%nat) by (apply agree_len in Ag; lia).
  destruct (R _ t l' Hf Ag) as (_ & R2). unfold bind at 1. rewrite R2. unfold bind, lift. rewrite E3. reflexivity.
Qed.
Lemma tape_local q ln y s : long_lines q -> rd_ytape skind_of lib_class (mkst q ln) = Ok y s ->
  exists k, line s = ln + 2 + Z.of_nat k /\ (exists d, division_line (nth_line q (S k)) d /\ smat d = -1)
    /\ forall t l', agree (S (S k)) q t -> rd_ytape skind_of lib_class (mkst t l') = Ok y (mkst (drop_lines (S (S k)) t) (l' + 2 + Z.of_nat k)).
Proof.
  intros L E. unfold rd_ytape in *. apply on_err_ok in E. apply bind_ok in E. destruct E as (i & s1 & E1 & E).
  apply tpid_inv in E1. destruct E1 as (l & b & N & Ti & ->). unfold bind at 1, get_pos in E. cbn [buf] in E.
  apply bind_ok in E. destruct E as (ms & s2 & E2 & E). apply lift_inv in E. destruct E as (Em & ->).
  unfold rd_ymats in E2. apply bind_ok in E2. destruct E2 as (d & s3 & E3 & E2).
  assert (Eb : b = drop_lines 1 q) by (cbn [drop_lines]; now rewrite N). assert (El : l = nth_line q 0) by (cbn [nth_line]; now rewrite N). subst b l.
  assert (Lj : forall j, local (rd_ymat skind_of lib_class) any_line (drop_lines j (drop_lines 1 q))).
  { intros j ln0 d0 s0 x s4 Q1 Q2. assert (Ll : long_lines (drop_lines j (drop_lines 1 q))) by (now apply long_drop, long_drop).
    destruct (mat_local any_line _ Ll (fun _ _ _ _ _ => Logic.I) _ _ _ _ _ Q1 Q2) as (k & B & Ls & _ & _ & R). exists k. split; [exact B|]. split; [exact Ls|]. split; [exact Logic.I|exact R]. }
  destruct (loop_local _ _ _ _ _ Lj _ _ _ _ _ E3 E2) as (k & B & Ls & (d' & D & Nt) & _ & R). exists k. split; [lia|].
  split. { exists d'. rewrite nth_after in D. split; [exact D|]. unfold not_tend in Nt. lia. }
  intros t l' Ag. apply on_err_ok. destruct (next_line t) as [l b] eqn:Nx.
  assert (El : l = nth_line q 0) by (destruct Ag as (Ag & _); specialize (Ag 0%nat ltac:(lia)); cbn [nth_line] in Ag |- *; now rewrite Nx in Ag).
  assert (Eb : b = drop_lines 1 t) by (cbn [drop_lines]; now rewrite Nx). subst b.
  unfold bind at 1. rewrite (tpid_fwd _ _ _ _ _ Nx ltac:(rewrite El; exact Ti)). unfold bind at 1, get_pos. cbn [buf].
  assert (Hf : (k < S (S (length (drop_lines 1 t))))%nat) by (apply agree_len in Ag; lia).
  assert (Ag' : agree (S k) (drop_lines 1 q) (drop_lines 1 t)) by now apply agree_drop.
  destruct (R _ (drop_lines 1 t) (l' + 1) Hf Ag') as (R1 & R2). unfold bind at 1, rd_ymats. unfold bind at 1. rewrite R1, R2.
  unfold lift. rewrite Em. replace (l' + 2 + Z.of_nat k) with (l' + 1 + 1 + Z.of_nat k) by lia. rewrite drop_after. reflexivity.
Qed.

(** ** a text and its first lines *)
Lemma text_cons l ls : lines_text (l :: ls) = l ++ LF :: lines_text ls.
Proof. rewrite <- (app_nil_r (lines_text (l :: ls))), lines_cons, app_nil_r. reflexivity. Qed.
Lemma lines_count whole : Forall noLF whole -> lines_in (lines_text whole) = length whole.
Proof.
  induction whole as [|l whole IH]; intros F; [reflexivity|]. inversion F; subst. rewrite text_cons, lines_in_step by (destruct l; discriminate).
  rewrite (next_line_app l _ H1). cbn [snd length]. now rewrite IH.
Qed.
Lemma lines_count_app whole rest : Forall noLF whole -> (length whole <= lines_in (lines_text whole ++ rest))%nat.
Proof.
  induction whole as [|l whole IH]; intros F; [cbn; lia|]. inversion F; subst. rewrite text_cons, <- app_assoc. cbn [app]. rewrite lines_in_step by (destruct l; discriminate).
  rewrite (next_line_app l _ H1). cbn [snd length]. specialize (IH H2). lia.
Qed.
Lemma nth_same whole rest rest' : Forall noLF whole -> forall i, (i < length whole)%nat -> nth_line (lines_text whole ++ rest) i = nth_line (lines_text whole ++ rest') i.
Proof.
  induction whole as [|l whole IH]; intros F i Hi; cbn [length] in Hi; [lia|]. inversion F; subst. rewrite text_cons, <- !app_assoc. cbn [app].
  destruct i as [|i]; cbn [nth_line]; rewrite !(next_line_app l) by assumption; [reflexivity|]. cbn [snd]. apply IH; [assumption|lia].
Qed.
Lemma same_agree whole rest rest' k : Forall noLF whole -> (k <= length whole)%nat -> agree k (lines_text whole ++ rest) (lines_text whole ++ rest').
Proof.
  intros F H. split; [|assert (K := lines_count_app whole rest' F); lia]. intros i Hi. apply nth_same; [exact F|lia].
Qed.
Lemma cut_agree whole rest k : Forall noLF whole -> (k <= length whole)%nat -> agree k (lines_text whole) (lines_text whole ++ rest).
Proof. intros F H. assert (K := same_agree whole [] rest k F H). now rewrite app_nil_r in K. Qed.
Lemma drop_same whole rest : Forall noLF whole -> forall k, (k <= length whole)%nat -> drop_lines k (lines_text whole ++ rest) = lines_text (skipn k whole) ++ rest.
Proof.
  induction whole as [|l whole IH]; intros F k H; cbn [length] in H; [assert (k = 0)%nat by lia; subst k; reflexivity|]. inversion F; subst.
  destruct k as [|k]; [reflexivity|]. rewrite text_cons, <- app_assoc. cbn [app drop_lines skipn]. rewrite next_line_app by assumption. cbn [snd]. apply IH; [assumption|lia].
Qed.
Lemma blank_div d : division_line [] d -> is_mend d = true /\ smat d = 0.
Proof.
  intros D. assert (E := sdiv_fwd [] [] [] 0 d eq_refl D). vm_compute in E. injection E as <-. split; reflexivity.
Qed.
Lemma past_end whole k l : Forall noLF whole -> nth_line (lines_text whole) k = l -> l <> [] -> (k < length whole)%nat.
Proof.
  intros F E N. destruct (le_lt_dec (length whole) k) as [H|H]; [|exact H]. exfalso. apply N. rewrite <- E. apply after_last. now rewrite lines_count.
Qed.
(** ** C09: files, materials and tapes are read by whole lines, up to the FEND, MEND or TEND; what follows does not matter *)
Theorem C09_typed_file : forall mf whole rest ln y s, parse_yfile skind_of lib_class mf (mkst (lines_text whole ++ rest) ln) = Ok y s -> Forall noLF whole ->
  (mf = 32 -> long_lines (lines_text whole ++ rest)) -> line s - ln <= Z.of_nat (length whole) ->
  exists n, (1 <= n)%nat /\ s = mkst (lines_text (skipn n whole) ++ rest) (ln + Z.of_nat n)
    /\ (mf = 30 \/ file_end (nth_line (lines_text whole ++ rest) (n - 1)))
    /\ forall rest' l', parse_yfile skind_of lib_class mf (mkst (lines_text whole ++ rest') l') = Ok y (mkst (lines_text (skipn n whole) ++ rest') (l' + Z.of_nat n)).
Proof.
  intros mf whole rest ln y s E F L Hl. unfold parse_yfile in *. apply bind_ok in E. destruct E as (d & s1 & E1 & E2).
  destruct (file_local mf _ L _ _ _ _ _ E1 E2) as (k & B & Ls & Fe & R). exists (S k). split; [lia|].
  assert (Hk : (S k <= length whole)%nat) by lia. split; [destruct s as [b l]; cbn [buf line] in *; subst b l; rewrite drop_same by assumption; f_equal; lia|].
  split; [replace (S k - 1)%nat with k by lia; exact Fe|]. intros rest' l'. destruct (R (lines_text whole ++ rest') l' (same_agree _ _ _ _ F Hk)) as (R1 & R2).
  unfold bind. rewrite R1, R2, drop_same by assumption. do 2 f_equal. lia.
Qed.
Theorem C09_typed_material : forall whole rest ln y s, parse_ymat skind_of lib_class (mkst (lines_text whole ++ rest) ln) = Ok y s -> Forall noLF whole ->
  long_lines (lines_text whole ++ rest) -> line s - ln <= Z.of_nat (length whole) ->
  exists n, (1 <= n)%nat /\ s = mkst (lines_text (skipn n whole) ++ rest) (ln + Z.of_nat n) /\ mend_last (nth_line (lines_text whole ++ rest) (n - 1))
    /\ forall rest' l', parse_ymat skind_of lib_class (mkst (lines_text whole ++ rest') l') = Ok y (mkst (lines_text (skipn n whole) ++ rest') (l' + Z.of_nat n)).
Proof.
  intros whole rest ln y s E F L Hl. unfold parse_ymat in *. apply bind_ok in E. destruct E as (d & s1 & E1 & E2).
  destruct (mat_local any_line _ L (fun _ _ _ _ _ => Logic.I) _ _ _ _ _ E1 E2) as (k & B & Ls & Me & _ & R). exists (S k). split; [lia|].
  assert (Hk : (S k <= length whole)%nat) by lia. split; [destruct s as [b l]; cbn [buf line] in *; subst b l; rewrite drop_same by assumption; f_equal; lia|].
  split; [replace (S k - 1)%nat with k by lia; exact Me|]. intros rest' l'. destruct (R (lines_text whole ++ rest') l' (same_agree _ _ _ _ F Hk)) as (R1 & R2).
  unfold bind. rewrite R1, R2, drop_same by assumption. do 2 f_equal. lia.
Qed.
Theorem C09_typed_tape : forall whole rest ln y s, rd_ytape skind_of lib_class (mkst (lines_text whole ++ rest) ln) = Ok y s -> Forall noLF whole ->
  long_lines (lines_text whole ++ rest) -> line s - ln <= Z.of_nat (length whole) ->
  exists n, (2 <= n)%nat /\ line s = ln + Z.of_nat n /\ (exists d, division_line (nth_line (lines_text whole ++ rest) (n - 1)) d /\ smat d = -1)
    /\ forall rest' l', rd_ytape skind_of lib_class (mkst (lines_text whole ++ rest') l') = Ok y (mkst (lines_text (skipn n whole) ++ rest') (l' + Z.of_nat n)).
Proof.
  intros whole rest ln y s E F L Hl. destruct (tape_local _ _ _ _ L E) as (k & Ls & Me & R). exists (S (S k)). split; [lia|]. split; [lia|].
  split; [replace (S (S k) - 1)%nat with (S k) by lia; exact Me|]. intros rest' l'. rewrite (R (lines_text whole ++ rest') l' ltac:(apply same_agree; [assumption|lia])), drop_same by (assumption || lia).
  do 2 f_equal. lia.
Qed.

(** ** C41 *)
(** A file that is read from a text is not read from the first lines of it, unless these include
    the line at which it ends (a FEND) *)
Theorem C41_file : forall mf t ln y s, parse_yfile skind_of lib_class mf (mkst t ln) = Ok y s -> mf <> 30 -> (mf = 32 -> long_lines t) ->
  forall whole rest, t = lines_text whole ++ rest -> Forall noLF whole -> Z.of_nat (length whole) < line s - ln ->
  forall l' y' s', parse_yfile skind_of lib_class mf (mkst (lines_text whole) l') <> Ok y' s'.
Proof.
  intros mf t ln y s E Hm L whole rest Et Nw Hl l' y' s' E'. unfold parse_yfile in E, E'.
  apply bind_ok in E'. destruct E' as (d & s1 & E1 & E2). assert (Lq : mf = 32 -> long_lines (lines_text whole)).
  { intros H. assert (K := long_cut t (length (lines_text whole)) (L H)). rewrite Et, firstn_app, Nat.sub_diag, firstn_all in K. cbn [firstn] in K. now rewrite app_nil_r in K. }
  destruct (file_local mf _ Lq _ _ _ _ _ E1 E2) as (k & _ & _ & Fe & R). destruct Fe as [Fe|(d' & D & _ & _ & Nm & _)]; [contradiction|].
  assert (Hk : (k < length whole)%nat).
  { eapply past_end; [exact Nw|reflexivity|]. intros Z0. rewrite Z0 in D. apply blank_div in D. destruct D as (D & _). congruence. }
  destruct (R t ln) as (R1 & R2). { subst t. now apply cut_agree. }
  unfold bind in E. rewrite R1, R2 in E. injection E as _ <-. cbn [line] in Hl. lia.
Qed.
(** ... the same for a tape and its TEND line *)
Theorem C41_typed_tape : forall t ln y s, rd_ytape skind_of lib_class (mkst t ln) = Ok y s -> long_lines t ->
  forall whole rest, t = lines_text whole ++ rest -> Forall noLF whole -> Z.of_nat (length whole) < line s - ln ->
  forall l' y' s', rd_ytape skind_of lib_class (mkst (lines_text whole) l') <> Ok y' s'.
Proof.
  intros t ln y s E L whole rest Et Nw Hl l' y' s' E'. assert (Lq : long_lines (lines_text whole)).
  { assert (K := long_cut t (length (lines_text whole)) L). rewrite Et, firstn_app, Nat.sub_diag, firstn_all in K. cbn [firstn] in K. now rewrite app_nil_r in K. }
  destruct (tape_local _ _ _ _ Lq E') as (k & _ & (d' & D & Hd) & R).
  assert (Hk : (S k < length whole)%nat).
  { eapply past_end; [exact Nw|reflexivity|]. intros Z0. rewrite Z0 in D. apply blank_div in D. destruct D as (_ & D). lia. }
  assert (R1 := R t ln ltac:(subst t; now apply cut_agree)). rewrite E in R1. injection R1 as _ ->. cbn [line] in Hl. lia.
Qed.
(** A material needs no MEND line: behind the end of a text there is one. It is not read
    from its first lines if these end inside a file. *)
Theorem C41_material : forall t ln y s, parse_ymat skind_of lib_class (mkst t ln) = Ok y s -> long_lines t ->
  forall whole final rest, t = lines_text (whole ++ [final]) ++ rest -> Forall noLF (whole ++ [final]) -> Z.of_nat (length whole) + 1 < line s - ln ->
  ~ file_end final -> (forall l mat mt, In l whole \/ l = final -> ~ carries mat 30 mt l) ->
  forall l' y' s', parse_ymat skind_of lib_class (mkst (lines_text (whole ++ [final])) l') <> Ok y' s'.
Proof.
  intros t ln y s E L whole final rest Et Nw Hl Nf N30 l' y' s' E'. unfold parse_ymat in E, E'. set (all := whole ++ [final]) in *.
  assert (La : length all = S (length whole)) by (unfold all; rewrite app_length; cbn; lia).
  apply bind_ok in E'. destruct E' as (d & s1 & E1 & E2). assert (Lq : long_lines (lines_text all)).
  { assert (K := long_cut t (length (lines_text all)) L). rewrite Et, firstn_app, Nat.sub_diag, firstn_all in K. cbn [firstn] in K. now rewrite app_nil_r in K. }
  assert (Nth : forall i, (i < length all)%nat -> In (nth_line (lines_text all) i) all).
  { clear -Nw. induction all as [|l all IH]; intros i Hi; cbn [length] in Hi; [lia|]. inversion Nw; subst. rewrite text_cons.
    assert (N1 := next_line_app l (lines_text all) H1). destruct i as [|i]; cbn [nth_line]; rewrite N1; [now left|]. right. apply IH; [assumption|lia]. }
  assert (H0 : forall i d0, division_line (nth_line (lines_text all) i) d0 -> forall l, file_last (smf d0) l -> file_end l).
  { intros i d0 D l [F|F]; [|exact F]. exfalso. destruct (le_lt_dec (length all) i) as [Hi|Hi].
    - rewrite (after_last (lines_text all) i) in D by now rewrite lines_count. assert (E0 := sdiv_fwd [] [] [] 0 d0 eq_refl D). vm_compute in E0. injection E0 as <-. cbn in F. lia.
    - specialize (Nth i Hi). unfold all in Nth at 2. apply in_app_or in Nth. assert (K : In (nth_line (lines_text all) i) whole \/ nth_line (lines_text all) i = final) by (destruct Nth as [K|[K|[]]]; auto).
      destruct D as (_ & C & _). rewrite F in C. exact (N30 _ _ _ K C). }
  destruct (mat_local file_end _ Lq H0 _ _ _ _ _ E1 E2) as (k & _ & _ & _ & Pe & R).
  destruct (le_lt_dec (S k) (length all)) as [Hk|Hk].
  - destruct (R t ln) as (R1 & R2). { subst t. now apply cut_agree. }
    unfold bind in E. rewrite R1, R2 in E. injection E as _ <-. cbn [line] in Hl. lia.
  - destruct Pe as [->|Pe]; [lia|].
    assert (Hk2 : (k - 1 < length all)%nat).
    { eapply past_end; [exact Nw|reflexivity|]. intros Z0. rewrite Z0 in Pe. destruct Pe as (d' & D & _ & _ & Nm & _). apply blank_div in D. destruct D as (D & _). congruence. }
    assert (k = length all) by lia. assert (Hf : nth_line (lines_text all) (k - 1) = final).
    { replace (k - 1)%nat with (length whole) by lia. clear -Nw. unfold all in *. clear all. induction whole as [|l whole IH]; cbn [app length].
      - rewrite text_cons. inversion Nw; subst. cbn [nth_line]. rewrite next_line_app by assumption. reflexivity.
      - rewrite text_cons. inversion Nw; subst. cbn [nth_line]. rewrite next_line_app by assumption. cbn [snd]. now apply IH. }
    rewrite Hf in Pe. exact (Nf Pe).
Qed.
(** ... rejected with a std::exception where reading is defined (C44) *)
Theorem C41_file_rejected : forall mf t ln y s, parse_yfile skind_of lib_class mf (mkst t ln) = Ok y s -> mf <> 30 -> (mf = 32 -> long_lines t) ->
  forall whole rest, t = lines_text whole ++ rest -> Forall noLF whole -> Z.of_nat (length whole) < line s - ln ->
  fine (lines_text whole) -> every_div (lib_guard mf) (lines_text whole) ->
  forall l', rejected (parse_yfile skind_of lib_class mf (mkst (lines_text whole) l')).
Proof.
  intros mf t ln y s E Hm L whole rest Et Nw Hl F G l'. assert (N := C41_file _ _ _ _ _ E Hm L _ _ Et Nw Hl l').
  assert (D := proj2 (C44_library (lines_text whole) l' F) mf G).
  destruct (parse_yfile skind_of lib_class mf (mkst (lines_text whole) l')) as [y' r|e r|]; [destruct (N y' r eq_refl)|exists e, r; auto|destruct D].
Qed.
Theorem C41_material_rejected : forall t ln y s, parse_ymat skind_of lib_class (mkst t ln) = Ok y s -> long_lines t ->
  forall whole final rest, t = lines_text (whole ++ [final]) ++ rest -> Forall noLF (whole ++ [final]) -> Z.of_nat (length whole) + 1 < line s - ln ->
  ~ file_end final -> (forall l mat mt, In l whole \/ l = final -> ~ carries mat 30 mt l) ->
  let q := lines_text (whole ++ [final]) in fine q -> every_div (fun h _ => every_div (lib_guard (smf h)) q) q ->
  forall l', rejected (parse_ymat skind_of lib_class (mkst q l')).
Proof.
  intros t ln y s E L whole final rest Et Nw Hl Nf N30 q F G l'. assert (N := C41_material _ _ _ _ E L _ _ _ Et Nw Hl Nf N30 l'). fold q in N.
  assert (D := proj1 (C44_library q l' F) G).
  destruct (parse_ymat skind_of lib_class (mkst q l')) as [y' r|e r|]; [destruct (N y' r eq_refl)|exists e, r; auto|destruct D].
Qed.

(** ** a printed file, material and tape *)
Lemma long_text ls : Forall noLF ls -> Forall (fun l => (66 <= length l)%nat) ls -> long_lines (lines_text ls).
Proof.
  intros F G. intros i. revert ls F G. induction i as [|i IH]; intros [|l ls] F G H.
  - exfalso. now apply H.
  - inversion F; inversion G; subst. rewrite text_cons in *. cbn [nth_line]. now rewrite next_line_app.
  - exfalso. apply H. cbn. rewrite nth_line_nil. clear. induction i; [reflexivity|]. cbn. exact IHi.
  - inversion F; inversion G; subst. rewrite text_cons in *. cbn [nth_line drop_lines] in *. rewrite next_line_app in * by assumption. cbn [snd] in *. eapply IH; eauto.
Qed.
Definition lines_list (t : text) : list text := map (nth_line t) (seq 0 (lines_in t)).
Definition no_lf (l : text) : bool := forallb (fun c => negb (Ascii.eqb c LF)) l.
Lemma no_lf_ok ls : forallb no_lf ls = true -> Forall noLF ls.
Proof.
  intros H. apply Forall_forall. intros l Hl. rewrite forallb_forall in H. specialize (H _ Hl). unfold no_lf in H. rewrite forallb_forall in H.
  intros K. specialize (H _ K). rewrite Ascii.eqb_refl in H. discriminate.
Qed.
Definition text_of (o : out text) : text := match o with Val t => t | _ => [] end.
Definition cut_f3 : list text := Eval vm_compute in lines_list (text_of (pr_yfile skind_of ex_f3 9228)).
Definition cut_m : list text := Eval vm_compute in lines_list (text_of (pr_ymat skind_of ex_mat)).
Definition cut_t : list text := Eval vm_compute in lines_list (text_of (pr_ytape skind_of ex_tape)).
(** every cut of the file of eleven lines *)
Example C41_file_example : length cut_f3 = 11%nat /\ Forall noLF cut_f3 /\ parse_yfile skind_of lib_class 3 (mkst (lines_text cut_f3) 0) = Ok ex_f3 (mkst [] 11)
  /\ forall n l' y s, (n < 11)%nat -> parse_yfile skind_of lib_class 3 (mkst (lines_text (firstn n cut_f3)) l') <> Ok y s.
Proof.
  assert (N : Forall noLF cut_f3) by (apply no_lf_ok; vm_compute; reflexivity).
  assert (E : parse_yfile skind_of lib_class 3 (mkst (lines_text cut_f3) 0) = Ok ex_f3 (mkst [] 11)) by (vm_compute; reflexivity).
  assert (L : length cut_f3 = 11%nat) by reflexivity.
  split; [exact L|]. split; [exact N|]. split; [exact E|]. intros n l' y s Hn.
  apply (C41_file 3 _ 0 _ _ E) with (rest := lines_text (skipn n cut_f3)); [discriminate|discriminate| | |].
  - rewrite <- lines_app, firstn_skipn. reflexivity.
  - apply Forall_forall. intros l Hl. rewrite Forall_forall in N. apply N. rewrite <- (firstn_skipn n cut_f3). apply in_or_app. now left.
  - cbn [line]. rewrite firstn_length, L. lia.
Qed.
Example C09_typed_example : forall rest l', parse_yfile skind_of lib_class 3 (mkst (lines_text cut_f3 ++ rest) l') = Ok ex_f3 (mkst rest (l' + 11)).
Proof.
  destruct C41_file_example as (_ & N & E & _). rewrite <- (app_nil_r (lines_text cut_f3)) in E. intros rest l'.
  destruct (C09_typed_file _ _ _ _ _ _ E N ltac:(discriminate) ltac:(vm_compute; discriminate)) as (n & Hn & Es & _ & R).
  assert (n = 11)%nat by (apply (f_equal line) in Es; cbn [line] in Es; lia). subst n. exact (R rest l').
Qed.
Example C41_typed_tape_example : length cut_t = 36%nat /\ rd_ytape skind_of lib_class (mkst (lines_text cut_t) 0) = Ok ex_tape (mkst [] 36)
  /\ forall n l' y s, (n < 36)%nat -> rd_ytape skind_of lib_class (mkst (lines_text (firstn n cut_t)) l') <> Ok y s.
Proof.
  assert (N : Forall noLF cut_t) by (apply no_lf_ok; vm_compute; reflexivity).
  assert (E : rd_ytape skind_of lib_class (mkst (lines_text cut_t) 0) = Ok ex_tape (mkst [] 36)) by (vm_compute; reflexivity).
  assert (L : length cut_t = 36%nat) by reflexivity.
  split; [exact L|]. split; [exact E|]. intros n l' y s Hn.
  apply (C41_typed_tape _ 0 _ _ E) with (rest := lines_text (skipn n cut_t)).
  - apply long_text; [exact N|]. apply Forall_forall. intros l Hl.
    assert (K : forallb (fun l => Nat.leb 66 (length l)) cut_t = true) by (vm_compute; reflexivity). rewrite forallb_forall in K. apply K in Hl. now apply Nat.leb_le.
  - rewrite <- lines_app, firstn_skipn. reflexivity.
  - apply Forall_forall. intros l Hl. rewrite Forall_forall in N. apply N. rewrite <- (firstn_skipn n cut_t). apply in_or_app. now left.
  - cbn [line]. rewrite firstn_length, L. lia.
Qed.
(** a material without its MEND line, and one cut behind its first FEND *)
Example C41_material_refuted : length cut_m = 17%nat
  /\ (exists s, parse_ymat skind_of lib_class (mkst (lines_text (firstn 16 cut_m)) 0) = Ok ex_mat s)
  /\ exists n s, (n < 16)%nat /\ parse_ymat skind_of lib_class (mkst (lines_text (firstn n cut_m)) 0) = Ok (mkymat 9228 [(1, ex_f1)]) s.
Proof.
  split; [reflexivity|]. split; [eexists; vm_compute; reflexivity|]. exists 5%nat. eexists. split; [lia|]. vm_compute. reflexivity.
Qed.
Example C41_material_example : forall l' y s, parse_ymat skind_of lib_class (mkst (lines_text (firstn 8 cut_m)) l') <> Ok y s.
Proof.
  assert (N : Forall noLF cut_m) by (apply no_lf_ok; vm_compute; reflexivity). assert (L : length cut_m = 17%nat) by reflexivity.
  assert (E : parse_ymat skind_of lib_class (mkst (lines_text cut_m) 0) = Ok ex_mat (mkst [] 17)) by (vm_compute; reflexivity).
  intros l' y s. change (firstn 8 cut_m) with (firstn 7 cut_m ++ [nth 7 cut_m []]).
  apply (C41_material _ 0 _ _ E) with (rest := lines_text (skipn 8 cut_m)).
  - apply long_text; [exact N|]. apply Forall_forall. intros l Hl.
    assert (K : forallb (fun l => Nat.leb 66 (length l)) cut_m = true) by (vm_compute; reflexivity). rewrite forallb_forall in K. apply K in Hl. now apply Nat.leb_le.
  - vm_compute. reflexivity.
  - apply no_lf_ok. vm_compute. reflexivity.
  - vm_compute. reflexivity.
  - intros (d & (_ & (Ma & Mf & Mt) & _) & _ & Nh & _). unfold is_head in Nh.
    assert (E3 : read_int (col 70 2 (nth 7 cut_m [])) = Some 3) by (vm_compute; reflexivity).
    assert (E4 : read_int (col 72 3 (nth 7 cut_m [])) = Some 1) by (vm_compute; reflexivity).
    assert (E5 : read_int (col 66 4 (nth 7 cut_m [])) = Some 9228) by (vm_compute; reflexivity).
    rewrite E3 in Mf. rewrite E4 in Mt. rewrite E5 in Ma. injection Mf as Mf. injection Mt as Mt. injection Ma as Ma. rewrite <- Mf, <- Mt, <- Ma in Nh. discriminate Nh.
  - intros l mat mt Hl (_ & C & _). assert (K : forallb (fun l => match read_int (col 70 2 l) with Some 30 => false | _ => true end) cut_m = true) by (vm_compute; reflexivity).
    rewrite forallb_forall in K. assert (Hin : In l cut_m). { destruct Hl as [Hl | ->]; [|apply nth_In; rewrite L; lia]. rewrite <- (firstn_skipn 7 cut_m). apply in_or_app. now left. }
    specialize (K l Hin). rewrite C in K. discriminate K.
Qed.
(** file 30 is skipped to the next line that is not of it, or to the end of the text *)
Example C41_file_30_refuted : exists t s, parse_yfile skind_of lib_class 30 (mkst t 0) = Ok (mkyfile 30 []) s /\ lines_in t = 1%nat.
Proof. exists (PropTree2.txt " 9.223500+4 2.330250+2          0          0          0          0922830  1     "%string). eexists. split; [vm_compute; reflexivity|vm_compute; reflexivity]. Qed.
