(** PropRecords2.v -- record layer properties C08-C17, C35, C41, C42. *)
From Coq Require Import QArith Lqa ZifyBool ZifyNat String.
From Verif Require Import Base Disco DiscoProofs Records RecordProofs RecordRT RecordSound Layout
  RealRound RealProofs Spec Normal LineFacts PropRecords.
Open Scope Z_scope.
Open Scope list_scope.
Notation length := List.length.

(** ** C08 layout *)
Lemma layout_lines mat mf mt n t : layout mat mf mt n t -> endf_lines mat mf mt n t.
Proof. exact (fun H => H). Qed.
Lemma moderate_okprr x : moderate x -> prr x. Proof. apply moderate_prr. Qed.

Theorem C08_cont_layout : forall c mat mf mt, moderate_cont c -> good_tail mat mf mt ->
  endf_lines mat mf mt 1 (pr_cont c mat mf mt).
Proof.
  intros c mat mf mt (H1 & H2 & H3 & H4 & H5 & H6) Ht. apply layout_lines, layout_cont; [|now apply good_oktail].
  repeat split; try (apply moderate_prr; auto); apply in_cols_fits; auto; lia.
Qed.
Theorem C08_list_layout : forall l mat mf mt, moderate_list l -> good_tail mat mf mt ->
  endf_lines mat mf mt (1 + (Z.of_nat (length (lB l)) + 5) / 6) (pr_list l mat mf mt).
Proof.
  intros l mat mf mt (H1 & H2 & H3 & H4 & H5 & H6 & H7) Ht.
  apply layout_lines, layout_list; [|now apply good_oktail].
  unfold prlist, npl.
  repeat split; try (apply moderate_prr; auto); try (apply in_cols_fits; auto; lia).
  eapply Forall_impl; [|exact H7]. exact moderate_prr.
Qed.
Lemma moderate_prtab2 t : moderate_tab2 t -> prtab2 t.
Proof.
  intros (H1 & H2 & H3 & H4 & H5 & H6 & H7 & H8 & H9 & H10 & H11). unfold prtab2, tnr.
  repeat split; try (apply moderate_prr; auto); try (apply in_cols_fits; auto; lia); auto.
  - eapply Forall_impl; [|exact H10]. intros; apply in_cols_fits; auto; lia.
  - eapply Forall_impl; [|exact H11]. intros; apply in_cols_fits; auto; lia.
Qed.
Theorem C08_tab2_layout : forall t mat mf mt, moderate_tab2 t -> good_tail mat mf mt ->
  endf_lines mat mf mt (1 + (Z.of_nat (length (tbnd t)) + 2) / 3) (pr_tab2 t mat mf mt).
Proof.
  intros t mat mf mt H Ht. apply layout_lines, layout_tab2; [|now apply good_oktail].
  now apply moderate_prtab2.
Qed.
Theorem C08_tab1_layout : forall t mat mf mt, moderate_tab1 t -> good_tail mat mf mt ->
  endf_lines mat mf mt (1 + (Z.of_nat (length (tbnd (tbase t))) + 2) / 3
                          + (Z.of_nat (length (tx t)) + 2) / 3) (pr_tab1 t mat mf mt).
Proof.
  intros t mat mf mt (H & H1 & H2 & H3 & H4 & H5) Ht.
  apply layout_lines, layout_tab1; [|now apply good_oktail].
  split; [now apply moderate_prtab2|]. split; [auto|].
  split; (eapply Forall_impl; [exact moderate_prr|auto]).
Qed.
Theorem C08_text_layout : forall t mat mf mt,
  (length t <= 66)%nat -> noLF t -> good_tail mat mf mt ->
  endf_lines mat mf mt 1 (pr_text t mat mf mt).
Proof. intros. apply layout_lines, layout_text; auto using good_oktail. Qed.
Theorem C08_tpid_layout : forall t n mat mf mt, noLF t -> good_tail mat mf mt ->
  endf_lines mat mf mt 1 (pr_tpid (make_tpid t n) mat mf mt).
Proof.
  intros. apply layout_lines, layout_tpid; auto using good_oktail.
  - cbn [make_tpid tptext]. rewrite order66_length. auto.
  - now apply order66_noLF.
Qed.
Theorem C08_dir_layout : forall d mat mf mt,
  in_cols 33 (dmf d) -> in_cols 11 (dmt d) -> in_cols 11 (dnc d) -> in_cols 11 (dmod d) ->
  good_tail mat mf mt -> endf_lines mat mf mt 1 (pr_dir d mat mf mt).
Proof.
  intros. apply layout_lines, layout_dir; [|now apply good_oktail].
  repeat split; apply in_cols_fits; auto; lia.
Qed.
Theorem C08_intg_layout : forall nd g mat mf mt,
  (2 <= nd <= 6)%nat -> 0 <= gi g < 10 ^ 5 -> 0 <= gj g < 10 ^ 5 ->
  (length (gk g) <= intg_cap nd)%nat -> Forall (in_cols (nd + 1)) (gk g) -> good_tail mat mf mt ->
  endf_lines mat mf mt 1 (pr_intg nd (intg_cap nd) g mat mf mt).
Proof.
  intros nd g mat mf mt Hn H1 H2 H3 H4 Ht. change (10 ^ 5) with 100000 in *.
  apply layout_lines, layout_intg; auto using good_oktail.
  - apply fits_nonneg; [lia|change (10 ^ Z.of_nat 5) with 100000; lia].
  - apply fits_nonneg; [lia|change (10 ^ Z.of_nat 5) with 100000; lia].
  - eapply Forall_impl; [|exact H4]. intros; apply in_cols_fits; auto; lia.
Qed.
(** HEAD, SEND, FEND, MEND, TEND: all lines a StructureDivision prints *)
Theorem C08_structure_layout : forall d,
  moderate_cont (sbase d) -> good_tail (smat d) (smf d) (smt d) ->
  endf_lines (smat d) (smf d) (smt d) 1 (pr_sdiv d).
Proof.
  intros d (H1 & H2 & H3 & H4 & H5 & H6) Ht. apply layout_lines, layout_sdiv; [|now apply good_oktail].
  repeat split; try (apply moderate_prr; auto); apply in_cols_fits; auto; lia.
Qed.

Lemma endf_moderate_one : moderate r_one.
Proof. right. vm_compute. repeat split; congruence. Qed.
Definition r_third : real := mkreal false 6004799503160661 (-54). (* 1/3: not an ENDF number *)
Example C08_example : moderate_list (mklist r_third r_one 2 (-3) 0 (repeat r_third 13)).
Proof.
  assert (M : moderate r_third) by (right; vm_compute; repeat split; congruence).
  unfold moderate_list. cbn [lC1 lC2 lL1 lL2 lN2 lB].
  split; [exact M|]. split; [exact endf_moderate_one|].
  split; [inst|]. split; [inst|]. split; [inst|]. split; [inst|].
  apply Forall_forall. intros x Hx. apply repeat_spec in Hx. now subst.
Qed.

(** ** C09 *)
Lemma consumes_consumed {A} P (m : M A) s a s' : consumes P m -> m s = Ok a s' -> consumed P s s'.
Proof.
  intros H E. destruct (H _ _ _ E) as (ls & S & L & F & _).
  exists (length ls). split; [symmetry; now apply splits_drop|]. split; [exact L|].
  intros i Hi. destruct (nth_error ls i) as [l|] eqn:El.
  - rewrite (splits_nth _ _ _ _ _ S El). apply nth_error_In in El.
    rewrite Forall_forall in F. now apply F.
  - apply nth_error_None in El. lia.
Qed.
Theorem C09_record_reads_consume_own_lines : forall mat mf mt,
  (forall s a s', rd_cont mat mf mt s = Ok a s' -> consumed (carries mat mf mt) s s')
  /\ (forall s a s', rd_text mat mf mt s = Ok a s' -> consumed (carries mat mf mt) s s')
  /\ (forall s a s', rd_dir mat mf mt s = Ok a s' -> consumed (carries mat mf mt) s s')
  /\ (forall s a s', rd_list mat mf mt s = Ok a s' -> consumed (carries mat mf mt) s s')
  /\ (forall s a s', rd_tab2 mat mf mt s = Ok a s' -> consumed (carries mat mf mt) s s')
  /\ (forall s a s', rd_tab1 mat mf mt s = Ok a s' -> consumed (carries mat mf mt) s s').
Proof.
  intros mat mf mt. repeat split; intros s a s'; apply consumes_consumed.
  - apply consumes_cont. - apply consumes_text. - apply consumes_dir.
  - apply consumes_list. - apply consumes_tab2. - apply consumes_tab1.
Qed.
Lemma consumed_trans P s s1 s2 : consumed P s s1 -> consumed P s1 s2 -> consumed P s s2.
Proof.
  intros (n & D & L & F) (m & D' & L' & F'). exists (n + m)%nat.
  assert (A : forall n b, drop_lines (n + m) b = drop_lines m (drop_lines n b)) by (clear; induction n; intros b; cbn; auto).
  assert (B : forall n b i, nth_line b (n + i) = nth_line (drop_lines n b) i) by (clear; induction n; intros b i; cbn; auto).
  split; [rewrite A; congruence|]. split; [lia|]. intros i Hi. destruct (le_lt_dec n i) as [G|G]; [|auto].
  replace i with (n + (i - n))%nat by lia. rewrite B, <- D. apply F'. lia.
Qed.
(** the same for a TAB2 record followed by any kind of components *)
Theorem C09_sequence_reads_consume_own_lines :
  forall C (validate : list C -> bool) (rdc : Z -> Z -> Z -> M C) mat mf mt,
  (forall s a s', rdc mat mf mt s = Ok a s' -> consumed (carries mat mf mt) s s') ->
  forall s a s', rd_iseq validate rdc mat mf mt s = Ok a s' -> consumed (carries mat mf mt) s s'.
Proof.
  intros C v rdc mat mf mt H s a s' E. unfold rd_iseq in E. apply bind_ok in E. destruct E as (t & s1 & E1 & E).
  apply bind_ok in E. destruct E as (l & s2 & E2 & E). apply (consumed_trans _ _ s1); [exact (consumes_consumed _ _ _ _ _ (consumes_tab2 mat mf mt) E1)|].
  assert (s' = s2) as -> by (destruct (make_iseq v t l); inversion E; reflexivity). clear E.
  unfold rd_sequence in E2. apply bind_ok in E2. destruct E2 as (u & s3 & E3 & E2). apply require_ok in E3. destruct E3 as [_ ->].
  revert s1 l E1 E2. generalize (Z.to_nat (i32 (tn2 t))). intros n s1 l _. revert s1 l. induction n as [|n IH]; intros s1 l E; cbn [rd_n] in E.
  - injection E as _ <-. exists 0%nat. cbn. split; [reflexivity|]. split; lia.
  - apply bind_ok in E. destruct E as (x & s4 & E4 & E). apply bind_ok in E. destruct E as (y & s5 & E5 & E). injection E as _ <-.
    apply (consumed_trans _ _ s4); eauto.
Qed.
(** how many lines: exactly NC() *)
Theorem C09_lines_consumed_is_NC : forall mat mf mt s s',
  (forall l, rd_list mat mf mt s = Ok l s' ->
     line s' = line s + (1 + (Z.of_nat (length (lB l)) + 5) / 6))
  /\ (forall t, rd_tab2 mat mf mt s = Ok t s' ->
     line s' = line s + (1 + (Z.of_nat (length (tbnd t)) + 2) / 3))
  /\ (forall t, rd_tab1 mat mf mt s = Ok t s' ->
     line s' = line s + (1 + (Z.of_nat (length (tbnd (tbase t))) + 2) / 3
                           + (Z.of_nat (length (tx t)) + 2) / 3)).
Proof.
  intros mat mf mt s s'. split; [|split].
  - intros l H. destruct (rd_list_spec _ _ _ _ _ _ H) as (h & ls & _ & L & _). exact L.
  - intros t H. apply on_err_ok in H. destruct (rd_ibase_spec _ _ _ _ _ _ H) as (_ & h & ls & _ & L & _). exact L.
  - intros t H. destruct (rd_tab1_spec _ _ _ _ _ _ H) as (_ & h & ls & ls' & _ & L & _). exact L.
Qed.
Example C09_example : exists a s',
  rd_list 9228 3 102 (mkst (pr_list ex_list 9228 3 102) 7) = Ok a s' /\ line s' = 10.
Proof.
  exists ex_list, (mkst [] 10). split; [|reflexivity].
  rewrite <- (app_nil_r (pr_list _ _ _ _)). apply C02_list_round_trip; [exact C02_example|].
  apply C01_example.
Qed.

(** ** C10 *)
Theorem C10_parsed_tables_are_consistent : forall mat mf mt s s',
  (forall t, rd_tab2 mat mf mt s = Ok t s' ->
     tbnd t <> [] /\ length (tint t) = length (tbnd t) /\ ascending Z.le (tbnd t)
     /\ 0 <= last (tbnd t) 0)
  /\ (forall t, rd_tab1 mat mf mt s = Ok t s' ->
     tbnd (tbase t) <> [] /\ length (tint (tbase t)) = length (tbnd (tbase t))
     /\ ascending Z.le (tbnd (tbase t))
     /\ last (tbnd (tbase t)) 0 = Z.of_nat (length (tx t))
     /\ length (ty t) = length (tx t) /\ ascending real_le (tx t)).
Proof.
  intros mat mf mt s s'. split; intros t H.
  - apply on_err_ok in H. destruct (rd_ibase_spec _ _ _ _ _ _ H) as ((I1 & I2 & I3 & I4) & _).
    repeat split; auto. now apply sorted_Z.
  - destruct (rd_tab1_spec _ _ _ _ _ _ H) as (((I1 & I2 & I3 & I4) & I5 & I6 & I7) & _).
    repeat split; auto; [now apply sorted_Z|now apply sorted_R].
Qed.
Example C10_example : exists s',
  rd_tab1 9228 3 102 (mkst (pr_tab1 ex_tab1 9228 3 102) 0) = Ok ex_tab1 s'.
Proof.
  eexists. rewrite <- (app_nil_r (pr_tab1 _ _ _ _)).
  apply C03_tab1_round_trip; [exact C03_example|apply C01_example].
Qed.

(** ** C11 *)
Lemma asc_strictly l : ascending Z.lt l -> strictly l.
Proof.
  induction l as [|a l IH]; [trivial|]. destruct l as [|b l]; [trivial|].
  intros [H1 H2]. split; [exact H1|now apply IH].
Qed.
Theorem C11_regions_cover_the_table : forall t,
  tbnd (tbase t) <> [] ->
  length (tx t) = length (ty t) -> last (tbnd (tbase t)) 0 = Z.of_nat (length (tx t)) ->
  0 < hd 0 (tbnd (tbase t)) -> ascending Z.lt (tbnd (tbase t)) ->
  exists rs, regions t = map Val rs
    /\ length rs = length (tbnd (tbase t))
    /\ joined (map fst rs) = tx t /\ joined (map snd rs) = ty t
    /\ forall i r r', nth_error rs i = Some r -> nth_error rs (S i) = Some r' ->
       (forall d, fst r <> [] /\ fst r' <> [] /\ last (fst r) d = hd d (fst r'))
       /\ (forall d, snd r <> [] /\ snd r' <> [] /\ last (snd r) d = hd d (snd r')).
Proof.
  intros t Hne Hxy Hlast Hhd Hs.
  assert (Hst : strictly (tbnd (tbase t))).
  { now apply asc_strictly. }
  set (bs := tbnd (tbase t)) in *.
  assert (Hl : last bs (Z.of_nat (length (tx t))) <= Z.of_nat (length (tx t))).
  { rewrite (last_any bs _ 0 Hne). lia. }
  assert (Hb : forall b, In b [hd (0 + 1) bs] -> 0 < b).
  { intros b [<-|[]]. destruct bs; [congruence|exact Hhd]. }
  assert (R := regions_regs t bs [] eq_refl Hxy). cbv zeta in R.
  specialize (R ltac:(lia) Hst Hb Hl).
  assert (F : Forall (fun b => 0 < b <= Z.of_nat (length (tx t))) bs) by now apply strictly_bounds.
  exists (combine (regs (tx t) 0 bs) (regs (ty t) 0 bs)).
  assert (Len : length (regs (tx t) 0 bs) = length (regs (ty t) 0 bs)) by now rewrite !regs_length.
  split; [exact R|]. split; [rewrite combine_length, !regs_length; lia|].
  assert (MF : map fst (combine (regs (tx t) 0 bs) (regs (ty t) 0 bs)) = regs (tx t) 0 bs).
  { apply map_fst_combine. auto. }
  assert (MS : map snd (combine (regs (tx t) 0 bs) (regs (ty t) 0 bs)) = regs (ty t) 0 bs).
  { now apply map_snd_combine; auto. }
  assert (J : forall A (l : list A), Z.of_nat (length l) = Z.of_nat (length (tx t)) -> joined (regs l 0 bs) = l).
  { intros A l El. destruct bs as [|b bs'] eqn:Eb; [congruence|]. rewrite regs_join; auto.
    rewrite Hlast, <- El. unfold slice. simpl. rewrite Z.sub_0_r, Nat2Z.id. apply firstn_all. }
  split; [rewrite MF; now apply J|]. split; [rewrite MS; apply J; lia|].
  intros i r r' E E'.
  assert (E1 : nth_error (regs (tx t) 0 bs) i = Some (fst r)) by (rewrite <- MF; now apply map_nth_error).
  assert (E1' : nth_error (regs (tx t) 0 bs) (S i) = Some (fst r')) by (rewrite <- MF; now apply map_nth_error).
  assert (E2 : nth_error (regs (ty t) 0 bs) i = Some (snd r)) by (rewrite <- MS; now apply map_nth_error).
  assert (E2' : nth_error (regs (ty t) 0 bs) (S i) = Some (snd r')) by (rewrite <- MS; now apply map_nth_error).
  split; intros d.
  - apply (regs_share (tx t) d bs 0 i); auto; lia.
  - rewrite Hxy in F. apply (regs_share (ty t) d bs 0 i); auto; lia.
Qed.
Definition ex_regions : tab1 :=
  mktab1 (mktab2 r_pi r_one 1 0 [2; 3; 5] [2; 5; 1]) [r_tiny; r_one; r_one; r_pi; r_pi]
         [r_one; r_pi; r_tiny; r_tiny; r_one].
Example C11_example :
  ascending Z.lt (tbnd (tbase ex_regions))
  /\ regions ex_regions
     = [Val ([r_tiny; r_one], [r_one; r_pi]); Val ([r_one; r_one], [r_pi; r_tiny]);
        Val ([r_one; r_pi; r_pi], [r_tiny; r_tiny; r_one])].
Proof. split; [simpl; lia|reflexivity]. Qed.
