(** PropRecords3.v -- record layer properties C12-C17, C35, C41, C42. *)
From Coq Require Import QArith Lqa ZifyBool ZifyNat String.
From Verif Require Import Base Disco DiscoProofs Records RecordProofs RecordRT RecordSound Layout
  RealRound RealProofs Spec Normal LineFacts PropRecords PropRecords2.
Open Scope Z_scope.
Open Scope list_scope.
Notation length := List.length.

(** ** C42 values come from their columns *)
Lemma splits_nth0 b h ls r : splits b (h :: ls) r -> nth_line b 0 = h.
Proof. intros H. now apply (splits_nth b (h :: ls) r 0 h). Qed.

Theorem C42_cont_columns : forall mat mf mt s c s',
  rd_cont mat mf mt s = Ok c s' ->
  cont_in_columns (nth_line (buf s) 0) (c1 c) (c2 c) (l1 c) (l2 c) (n1 c) (n2 c).
Proof.
  intros mat mf mt s c s' H. apply on_err_ok in H.
  apply bind_ok in H as (c0 & s1 & H1 & H). apply bind_ok in H as (u & s2 & H2 & H).
  inversion H; subst. clear H.
  destruct (next_line (buf s)) as [l b] eqn:E.
  destruct (rd_base_cols l b s c s1) as (B & _); auto.
  cbn [nth_line]. rewrite E. exact B.
Qed.
Theorem C42_list_columns : forall mat mf mt s l s',
  rd_list mat mf mt s = Ok l s' ->
  cont_in_columns (nth_line (buf s) 0) (lC1 l) (lC2 l) (lL1 l) (lL2 l)
                  (Z.of_nat (length (lB l))) (lN2 l)
  /\ forall k x, nth_error (lB l) k = Some x ->
     read_real (col (11 * (k mod 6)) 11 (nth_line (buf s) (1 + k / 6))) = Some x.
Proof.
  intros mat mf mt s l s' H. destruct (rd_list_spec _ _ _ _ _ _ H) as (h & ls & S & L & B & T & Z).
  rewrite (splits_nth0 _ _ _ _ S). split; [exact B|]. intros k x E.
  destruct Z as (_ & _ & _ & Z & _). destruct (Z _ _ E) as (ln & E1 & E2).
  rewrite (splits_nth (buf s) (h :: ls) (buf s') (1 + k / 6) ln); auto.
Qed.
(** i-th pair of two 11-column fields, three pairs per line, block starting at line n0 *)
Definition pair_col (i : nat) : nat := 22 * (i mod 3).
Definition pair_line (n0 i : nat) : nat := n0 + i / 3.
(** number of lines taken by n pairs *)
Definition pair_lines (n : nat) : nat := (n + 2) / 3.

Lemma nlines3 n : Z.to_nat (nlines 3 n) = pair_lines n.
Proof.
  unfold nlines, pair_lines. replace (Z.of_nat n + Z.of_nat 3 - 1) with (Z.of_nat (n + 2)) by lia.
  rewrite <- Nat2Z.inj_div. now rewrite Nat2Z.id.
Qed.
Lemma nlines6 n : Z.to_nat (nlines 6 n) = ((n + 5) / 6)%nat.
Proof.
  unfold nlines. replace (Z.of_nat n + Z.of_nat 6 - 1) with (Z.of_nat (n + 5)) by lia.
  rewrite <- Nat2Z.inj_div. now rewrite Nat2Z.id.
Qed.
Lemma nth_error_combine {A B} (a : list A) : forall (b : list B) i x y,
  nth_error a i = Some x -> nth_error b i = Some y -> nth_error (combine a b) i = Some (x, y).
Proof.
  induction a as [|u a IH]; intros [|v b] [|i] x y H1 H2; simpl in *; try discriminate.
  - now inversion H1; inversion H2.
  - now apply IH.
Qed.

Theorem C42_tab2_columns : forall mat mf mt s t s',
  rd_tab2 mat mf mt s = Ok t s' ->
  cont_in_columns (nth_line (buf s) 0) (tC1 t) (tC2 t) (tL1 t) (tL2 t)
                  (Z.of_nat (length (tbnd t))) (last (tbnd t) 0)
  /\ (forall k b, nth_error (tbnd t) k = Some b ->
      read_int (col (pair_col k) 11 (nth_line (buf s) (pair_line 1 k))) = Some b)
  /\ (forall k i, nth_error (tint t) k = Some i ->
      read_int (col (pair_col k + 11) 11 (nth_line (buf s) (pair_line 1 k))) = Some i).
Proof.
  intros mat mf mt s t s' H. apply on_err_ok in H.
  destruct (rd_ibase_spec _ _ _ _ _ _ H) as ((I1 & I2 & I3 & I4) & h & ls & S & L & B & T & Z).
  rewrite (splits_nth0 _ _ _ _ S). split; [exact B|]. destruct Z as (_ & _ & _ & Z & _).
  split; intros k b E.
  - assert (K : exists i, nth_error (tint t) k = Some i).
    { destruct (nth_error (tint t) k) eqn:N; [eauto|]. apply nth_error_None in N.
      assert (k < length (tbnd t))%nat by (apply nth_error_Some; congruence). lia. }
    destruct K as (i & Ei). destruct (Z _ _ (nth_error_combine _ _ _ _ _ E Ei)) as (ln & E1 & E2 & _).
    unfold pair_line. rewrite (splits_nth (buf s) (h :: ls) (buf s') (1 + k / 3) ln); auto.
  - assert (K : exists i, nth_error (tbnd t) k = Some i).
    { destruct (nth_error (tbnd t) k) eqn:N; [eauto|]. apply nth_error_None in N.
      assert (k < length (tint t))%nat by (apply nth_error_Some; congruence). lia. }
    destruct K as (i & Ei). destruct (Z _ _ (nth_error_combine _ _ _ _ _ Ei E)) as (ln & E1 & _ & E2).
    unfold pair_line. rewrite (splits_nth (buf s) (h :: ls) (buf s') (1 + k / 3) ln); auto.
Qed.
Theorem C42_tab1_columns : forall mat mf mt s t s',
  rd_tab1 mat mf mt s = Ok t s' ->
  let nr := length (tbnd (tbase t)) in
  cont_in_columns (nth_line (buf s) 0) (tC1 (tbase t)) (tC2 (tbase t)) (tL1 (tbase t)) (tL2 (tbase t))
                  (Z.of_nat nr) (Z.of_nat (length (tx t)))
  /\ (forall k b, nth_error (tbnd (tbase t)) k = Some b ->
      read_int (col (pair_col k) 11 (nth_line (buf s) (pair_line 1 k))) = Some b)
  /\ (forall k i, nth_error (tint (tbase t)) k = Some i ->
      read_int (col (pair_col k + 11) 11 (nth_line (buf s) (pair_line 1 k))) = Some i)
  /\ (forall k x, nth_error (tx t) k = Some x ->
      read_real (col (pair_col k) 11 (nth_line (buf s) (pair_line (1 + pair_lines nr) k))) = Some x)
  /\ (forall k y, nth_error (ty t) k = Some y ->
      read_real (col (pair_col k + 11) 11 (nth_line (buf s) (pair_line (1 + pair_lines nr) k))) = Some y).
Proof.
  intros mat mf mt s t s' H nr. apply on_err_ok in H. assert (H0 := H).
  apply bind_ok in H0 as (b & s1 & Hb & H0). apply bind_ok in H0 as (ps & s2 & Hp & H0).
  assert (Eb : b = tbase t) by (inversion H0; reflexivity).
  assert (R2 : rd_tab2 mat mf mt s = Ok (tbase t) s1) by (apply on_err_ok; congruence).
  destruct (C42_tab2_columns _ _ _ _ _ _ R2) as (P1 & P2 & P3).
  assert (R1 : rd_tab1 mat mf mt s = Ok t s') by now apply on_err_ok.
  destruct (rd_tab1_spec _ _ _ _ _ _ R1) as ((J1 & J2 & J3 & J4) & h & ls & ls' & S & L & Z2 & Z1).
  unfold tn2, tnp in J4. rewrite J4 in P1.
  split; [exact P1|]. split; [exact P2|]. split; [exact P3|].
  destruct Z2 as (_ & _ & (_ & Ln & _)). destruct Z1 as (_ & _ & _ & Z & _).
  assert (Lls : length ls = pair_lines nr) by (rewrite <- nlines3; unfold nr; lia).
  assert (N : forall k ln, nth_error ls' k = Some ln ->
            nth_line (buf s) (1 + pair_lines nr + k) = ln).
  { intros k ln E. apply (splits_nth (buf s) (h :: ls ++ ls') (buf s')); auto.
    cbn [nth_error Nat.add]. rewrite nth_error_app2 by lia. rewrite <- E. f_equal. lia. }
  split; intros k x E.
  - assert (K : exists i, nth_error (ty t) k = Some i).
    { destruct (nth_error (ty t) k) eqn:Ny; [eauto|]. apply nth_error_None in Ny.
      assert (k < length (tx t))%nat by (apply nth_error_Some; congruence). lia. }
    destruct K as (i & Ei). destruct (Z _ _ (nth_error_combine _ _ _ _ _ E Ei)) as (ln & E1 & E2 & _).
    unfold pair_line. rewrite (N _ _ E1). exact E2.
  - assert (K : exists i, nth_error (tx t) k = Some i).
    { destruct (nth_error (tx t) k) eqn:Ny; [eauto|]. apply nth_error_None in Ny.
      assert (k < length (ty t))%nat by (apply nth_error_Some; congruence). lia. }
    destruct K as (i & Ei). destruct (Z _ _ (nth_error_combine _ _ _ _ _ Ei E)) as (ln & E1 & _ & E2).
    unfold pair_line. rewrite (N _ _ E1). exact E2.
Qed.
Theorem C42_dir_text_columns : forall mat mf mt s s',
  (forall d, rd_dir mat mf mt s = Ok d s' ->
     let l := nth_line (buf s) 0 in
     read_int (col 0 33 l) = Some (dmf d) /\ read_int (col 33 11 l) = Some (dmt d)
     /\ read_int (col 44 11 l) = Some (dnc d) /\ read_int (col 55 11 l) = Some (dmod d))
  /\ (forall t, rd_text mat mf mt s = Ok t s' ->
     t = firstn 66 (nth_line (buf s) 0) ++ blanks (66 - length (nth_line (buf s) 0))).
Proof.
  intros mat mf mt s s'. destruct (next_line (buf s)) as [l b] eqn:E.
  assert (I0 : inl 0 l b s) by now apply inl_start.
  split.
  - intros d H. apply on_err_ok in H. cbn [nth_line]. rewrite E. cbn [fst].
    apply bind_ok in H as (a1 & s1 & H1 & H). apply bind_ok in H as (a2 & s2 & H2 & H).
    apply bind_ok in H as (a3 & s3 & H3 & H). apply bind_ok in H as (a4 & s4 & H4 & H).
    apply bind_ok in H as (u & s5 & H5 & H). inversion H; subst. clear H. cbn [dmf dmt dnc dmod].
    destruct (rd_int_inl _ _ _ _ _ _ _ I0 H1) as (R1 & I1 & _).
    destruct (rd_int_inl _ _ _ _ _ _ _ I1 H2) as (R2 & I2 & _).
    destruct (rd_int_inl _ _ _ _ _ _ _ I2 H3) as (R3 & I3 & _).
    destruct (rd_int_inl _ _ _ _ _ _ _ I3 H4) as (R4 & _).
    auto.
  - intros t H. apply on_err_ok in H. cbn [nth_line]. rewrite E. cbn [fst].
    apply bind_ok in H as (a1 & s1 & H1 & H).
    apply bind_ok in H as (u & s5 & H5 & H). inversion H; subst. clear H.
    destruct (rd_chars_inl _ _ _ _ _ _ _ I0 H1) as (R1 & _).
    subst t. unfold lj, col. cbn [skipn]. f_equal. f_equal. rewrite firstn_length. lia.
Qed.

(** ** C12, C13, C41: rejections *)
Lemma not_ok_rejected {A} (m : M A) s :
  only_std m -> (forall a s', m s <> Ok a s') -> rejected (m s).
Proof.
  intros H N. specialize (H s). destruct (m s) as [a s'|e s'|] eqn:E.
  - elim (N a s' eq_refl).
  - exists e, s'. auto.
  - elim H.
Qed.

Theorem C12_list_negative_count : forall mat mf mt s z,
  read_int (col 44 11 (nth_line (buf s) 0)) = Some z -> z < 0 -> rejected (rd_list mat mf mt s).
Proof.
  intros mat mf mt s z H Hz. apply not_ok_rejected; [apply only_std_list|]. intros l s' E.
  destruct (C42_list_columns _ _ _ _ _ _ E) as ((_ & _ & _ & _ & K & _) & _). rewrite K in H.
  inversion H. lia.
Qed.
Theorem C12_table_counts : forall mat mf mt s z,
  (read_int (col 44 11 (nth_line (buf s) 0)) = Some z /\ z < 1)
  \/ (read_int (col 55 11 (nth_line (buf s) 0)) = Some z /\ z < 0) ->
  rejected (rd_tab2 mat mf mt s) /\ rejected (rd_tab1 mat mf mt s).
Proof.
  intros mat mf mt s z H. split.
  - apply not_ok_rejected; [apply only_std_tab2|]. intros t s' E.
    destruct (C42_tab2_columns _ _ _ _ _ _ E) as ((_ & _ & _ & _ & K1 & K2) & _).
    destruct (proj1 (C10_parsed_tables_are_consistent mat mf mt s s') t E) as (N & _ & _ & N2).
    assert (Nl : (0 < length (tbnd t))%nat) by (destruct (tbnd t); [congruence|simpl; lia]).
    destruct H as [[H Hz]|[H Hz]]; [rewrite K1 in H|rewrite K2 in H]; inversion H; lia.
  - apply not_ok_rejected; [apply only_std_tab1|]. intros t s' E.
    destruct (C42_tab1_columns _ _ _ _ _ _ E) as ((_ & _ & _ & _ & K1 & K2) & _).
    destruct (proj2 (C10_parsed_tables_are_consistent mat mf mt s s') t E) as (N & _).
    assert (Nl : (0 < length (tbnd (tbase t)))%nat) by (destruct (tbnd (tbase t)); [congruence|simpl; lia]).
    destruct H as [[H Hz]|[H Hz]]; [rewrite K1 in H|rewrite K2 in H]; inversion H; lia.
Qed.
Lemma last_nth (l : list Z) : l <> [] -> nth_error l (length l - 1) = Some (last l 0).
Proof.
  induction l as [|a l IH]; [congruence|]. intros _. destruct l as [|b l]; [reflexivity|].
  specialize (IH ltac:(discriminate)). cbn [length] in *.
  replace (S (S (length l)) - 1)%nat with (S (S (length l) - 1)) by lia. exact IH.
Qed.
(** the last boundary differs from the announced number of points / records *)
Theorem C12_last_boundary_mismatch : forall mat mf mt s nr np b,
  read_int (col 44 11 (nth_line (buf s) 0)) = Some nr ->
  read_int (col 55 11 (nth_line (buf s) 0)) = Some np ->
  let k := Z.to_nat (nr - 1) in
  read_int (col (pair_col k) 11 (nth_line (buf s) (pair_line 1 k))) = Some b ->
  b <> np ->
  rejected (rd_tab2 mat mf mt s) /\ rejected (rd_tab1 mat mf mt s).
Proof.
  intros mat mf mt s nr np b Hr Hp k Hb Hne. split.
  - apply not_ok_rejected; [apply only_std_tab2|]. intros t s' E.
    destruct (C42_tab2_columns _ _ _ _ _ _ E) as ((_ & _ & _ & _ & K1 & K2) & K3 & _).
    destruct (proj1 (C10_parsed_tables_are_consistent mat mf mt s s') t E) as (N & _ & _ & N2).
    rewrite K1 in Hr. inversion Hr. rewrite K2 in Hp. inversion Hp.
    assert (Ek : k = (length (tbnd t) - 1)%nat) by (unfold k; lia).
    rewrite (K3 k (last (tbnd t) 0)) in Hb by (rewrite Ek; now apply last_nth). congruence.
  - apply not_ok_rejected; [apply only_std_tab1|]. intros t s' E.
    destruct (C42_tab1_columns _ _ _ _ _ _ E) as ((_ & _ & _ & _ & K1 & K2) & K3 & _).
    destruct (proj2 (C10_parsed_tables_are_consistent mat mf mt s s') t E) as (N & _ & _ & N2 & _).
    rewrite K1 in Hr. inversion Hr. rewrite K2 in Hp. inversion Hp.
    assert (Ek : k = (length (tbnd (tbase t)) - 1)%nat) by (unfold k; lia).
    rewrite (K3 k (last (tbnd (tbase t)) 0)) in Hb by (rewrite Ek; now apply last_nth). congruence.
Qed.
Lemma ascending_nth l : ascending Z.le l -> forall k a b,
  nth_error l k = Some a -> nth_error l (S k) = Some b -> a <= b.
Proof.
  induction l as [|x l IH]; intros H k a b E E'; [now destruct k|].
  destruct l as [|y l]; [now destruct k|]. destruct H as [H1 H2].
  destruct k as [|k]; [simpl in E, E'; congruence|]. now apply (IH H2 k).
Qed.
Lemma ascending_nth_r l : ascending real_le l -> forall k a b,
  nth_error l k = Some a -> nth_error l (S k) = Some b -> real_le a b.
Proof.
  induction l as [|x l IH]; intros H k a b E E'; [now destruct k|].
  destruct l as [|y l]; [now destruct k|]. destruct H as [H1 H2].
  destruct k as [|k]; [simpl in E, E'; congruence|]. now apply (IH H2 k).
Qed.
(** boundaries that decrease, or x values that decrease *)
Theorem C12_unsorted_boundaries : forall mat mf mt s nr k a b,
  read_int (col 44 11 (nth_line (buf s) 0)) = Some nr -> Z.of_nat (S k) < nr ->
  read_int (col (pair_col k) 11 (nth_line (buf s) (pair_line 1 k))) = Some a ->
  read_int (col (pair_col (S k)) 11 (nth_line (buf s) (pair_line 1 (S k)))) = Some b ->
  b < a ->
  rejected (rd_tab2 mat mf mt s) /\ rejected (rd_tab1 mat mf mt s).
Proof.
  intros mat mf mt s nr k a b Hr Hk Ha Hb Hlt.
  assert (G : forall l, Z.of_nat (length l) = nr -> ascending Z.le l ->
     (forall k0 b0, nth_error l k0 = Some b0 ->
        read_int (col (pair_col k0) 11 (nth_line (buf s) (pair_line 1 k0))) = Some b0) -> False).
  { intros l Hl As K. 
    destruct (nth_error l k) as [u|] eqn:Eu; [|apply nth_error_None in Eu; lia].
    destruct (nth_error l (S k)) as [v|] eqn:Ev; [|apply nth_error_None in Ev; lia].
    assert (u <= v) by (eapply ascending_nth; eauto).
    rewrite (K _ _ Eu) in Ha. rewrite (K _ _ Ev) in Hb. inversion Ha. inversion Hb. lia. }
  split.
  - apply not_ok_rejected; [apply only_std_tab2|]. intros t s' E.
    destruct (C42_tab2_columns _ _ _ _ _ _ E) as ((_ & _ & _ & _ & K1 & K2) & K3 & _).
    destruct (proj1 (C10_parsed_tables_are_consistent mat mf mt s s') t E) as (_ & _ & N & _).
    apply (G (tbnd t)); auto. congruence.
  - apply not_ok_rejected; [apply only_std_tab1|]. intros t s' E.
    destruct (C42_tab1_columns _ _ _ _ _ _ E) as ((_ & _ & _ & _ & K1 & K2) & K3 & _).
    destruct (proj2 (C10_parsed_tables_are_consistent mat mf mt s s') t E) as (_ & _ & N & _).
    apply (G (tbnd (tbase t))); auto. congruence.
Qed.
Theorem C12_unsorted_x : forall mat mf mt s nr np k x y,
  read_int (col 44 11 (nth_line (buf s) 0)) = Some nr -> 
  read_int (col 55 11 (nth_line (buf s) 0)) = Some np -> Z.of_nat (S k) < np ->
  let n0 := (1 + pair_lines (Z.to_nat nr))%nat in
  read_real (col (pair_col k) 11 (nth_line (buf s) (pair_line n0 k))) = Some x ->
  read_real (col (pair_col (S k)) 11 (nth_line (buf s) (pair_line n0 (S k)))) = Some y ->
  ~ real_le x y -> rejected (rd_tab1 mat mf mt s).
Proof.
  intros mat mf mt s nr np k x y Hr Hp Hk n0 Hx Hy Hlt.
  apply not_ok_rejected; [apply only_std_tab1|]. intros t s' E.
  destruct (C42_tab1_columns _ _ _ _ _ _ E) as ((_ & _ & _ & _ & K1 & K2) & _ & _ & K3 & _).
  destruct (proj2 (C10_parsed_tables_are_consistent mat mf mt s s') t E) as (_ & _ & _ & _ & _ & N).
  rewrite K1 in Hr. inversion Hr. rewrite K2 in Hp. inversion Hp.
  assert (En : n0 = (1 + pair_lines (length (tbnd (tbase t))))%nat) by (unfold n0; rewrite <- H0; f_equal; f_equal; lia).
  rewrite En in *.
  destruct (nth_error (tx t) k) as [u|] eqn:Eu; [|apply nth_error_None in Eu; lia].
  destruct (nth_error (tx t) (S k)) as [v|] eqn:Ev; [|apply nth_error_None in Ev; lia].
  apply Hlt. rewrite (K3 _ _ Eu) in Hx. rewrite (K3 _ _ Ev) in Hy. inversion Hx. inversion Hy. subst.
  eapply ascending_nth_r; eauto.
Qed.

(** ** C13 junk in the unused slots of the last line *)
Theorem C13_list_junk : forall mat mf mt s n i x,
  read_int (col 44 11 (nth_line (buf s) 0)) = Some (Z.of_nat n) ->
  (n <= i < 6 * ((n + 5) / 6))%nat ->
  read_real (col (11 * (i mod 6)) 11 (nth_line (buf s) (1 + i / 6))) = Some x ->
  ~ (valQ x == 0)%Q ->
  rejected (rd_list mat mf mt s).
Proof.
  intros mat mf mt s n i x Hn Hi Hx Hne.
  apply not_ok_rejected; [apply only_std_list|]. intros l s' E.
  destruct (C42_list_columns _ _ _ _ _ _ E) as ((_ & _ & _ & _ & K & _) & _).
  rewrite K in Hn. inversion Hn as [Hn']. apply Nat2Z.inj in Hn'.
  destruct (rd_list_spec _ _ _ _ _ _ E) as (h & ls & S & L & B & T & Z).
  destruct Z as (_ & Ll & _ & _ & Z).
  assert (Lls : length ls = ((n + 5) / 6)%nat) by (rewrite <- nlines6, <- Hn'; lia).
  destruct (Z i) as (ln & y & E1 & E2 & E3); [lia|].
  rewrite (splits_nth (buf s) (h :: ls) (buf s') (1 + i / 6) ln) in Hx; auto.
  unfold elem_real in E2. rewrite E2 in Hx. inversion Hx; subst y.
  apply Hne. unfold valQ, rsig. apply Z.eqb_eq in E3. rewrite E3. destruct (rneg x); simpl; unfold Qmult, Qeq; simpl; lia.
Qed.
Theorem C13_boundary_junk : forall mat mf mt s n i a b,
  read_int (col 44 11 (nth_line (buf s) 0)) = Some (Z.of_nat n) ->
  (n <= i < 3 * pair_lines n)%nat ->
  read_int (col (pair_col i) 11 (nth_line (buf s) (pair_line 1 i))) = Some a ->
  read_int (col (pair_col i + 11) 11 (nth_line (buf s) (pair_line 1 i))) = Some b ->
  (a <> 0 \/ b <> 0) ->
  rejected (rd_tab2 mat mf mt s) /\ rejected (rd_tab1 mat mf mt s).
Proof.
  intros mat mf mt s n i a b Hn Hi Ha Hb Hne.
  assert (G : forall t s', rd_ibase mat mf mt s = Ok t s' -> False).
  { intros t s' E.
    destruct (rd_ibase_spec _ _ _ _ _ _ E) as ((I1 & I2 & I3 & I4) & h & ls & S & L & B & T & Z).
    destruct B as (_ & _ & _ & _ & K & _). rewrite <- (splits_nth0 _ _ _ _ S) in K.
    cbn [n1] in K. rewrite K in Hn. inversion Hn as [Hn']. apply Nat2Z.inj in Hn'.
    destruct Z as (_ & Ll & _ & _ & Z).
    assert (Lls : length ls = pair_lines n) by (rewrite <- nlines3, <- Hn'; lia).
    destruct (Z i) as (ln & y & E1 & (E2 & E2') & E3); [lia|].
    unfold pair_line in Ha, Hb.
    rewrite (splits_nth (buf s) (h :: ls) (buf s') (1 + i / 3) ln) in Ha, Hb by auto.
    unfold pair_col in Ha, Hb. rewrite E2 in Ha. rewrite E2' in Hb. inversion Ha. inversion Hb.
    apply andb_true_iff in E3. lia. }
  split.
  - apply not_ok_rejected; [apply only_std_tab2|]. intros t s' E. apply on_err_ok in E. eauto.
  - apply not_ok_rejected; [apply only_std_tab1|]. intros t s' E. apply on_err_ok in E.
    apply bind_ok in E as (t' & s1 & E & _). eauto.
Qed.
Theorem C13_pairs_junk : forall mat mf mt s nr n i x y,
  read_int (col 44 11 (nth_line (buf s) 0)) = Some (Z.of_nat nr) ->
  read_int (col 55 11 (nth_line (buf s) 0)) = Some (Z.of_nat n) ->
  (n <= i < 3 * pair_lines n)%nat ->
  let n0 := (1 + pair_lines nr)%nat in
  read_real (col (pair_col i) 11 (nth_line (buf s) (pair_line n0 i))) = Some x ->
  read_real (col (pair_col i + 11) 11 (nth_line (buf s) (pair_line n0 i))) = Some y ->
  (~ (valQ x == 0)%Q \/ ~ (valQ y == 0)%Q) ->
  rejected (rd_tab1 mat mf mt s).
Proof.
  intros mat mf mt s nr n i x y Hr Hn Hi n0 Hx Hy Hne.
  apply not_ok_rejected; [apply only_std_tab1|]. intros t s' E.
  destruct (C42_tab1_columns _ _ _ _ _ _ E) as ((_ & _ & _ & _ & K1 & K2) & _).
  rewrite K1 in Hr. inversion Hr as [Hr']. apply Nat2Z.inj in Hr'.
  rewrite K2 in Hn. inversion Hn as [Hn']. apply Nat2Z.inj in Hn'.
  destruct (rd_tab1_spec _ _ _ _ _ _ E) as ((J1 & J2 & J3 & J4) & h & ls & ls' & S & L & Z2 & Z1).
  destruct Z2 as (_ & _ & (_ & Ln & _)). destruct Z1 as (_ & Ln' & _ & _ & Z).
  assert (Lls : length ls = pair_lines nr) by (rewrite <- nlines3, <- Hr'; lia).
  assert (Lls' : length ls' = pair_lines n) by (rewrite <- nlines3, <- Hn'; lia).
  destruct (Z i) as (ln & p & E1 & (E2 & E2') & E3); [lia|].
  assert (N : nth_line (buf s) (pair_line n0 i) = ln).
  { apply (splits_nth (buf s) (h :: ls ++ ls') (buf s')); auto. unfold pair_line, n0.
    cbn [nth_error Nat.add]. rewrite nth_error_app2 by lia. rewrite <- E1. f_equal. lia. }
  rewrite N in Hx, Hy. unfold pair_col in Hx, Hy. rewrite E2 in Hx. rewrite E2' in Hy.
  inversion Hx; inversion Hy; subst. apply andb_true_iff in E3. destruct E3 as [Z3 Z4].
  assert (V : forall r, ris0 r = true -> (valQ r == 0)%Q).
  { intros r R. unfold valQ, rsig. apply Z.eqb_eq in R. rewrite R.
    destruct (rneg r); unfold Qmult, Qeq; simpl; lia. }
  destruct Hne as [Hne|Hne]; apply Hne; auto.
Qed.

(** ** C41 truncation: fewer lines than the header announces *)
Theorem C41_truncated_list : forall mat mf mt s n,
  (mat, mf, mt) <> (0, 0, 0) ->
  read_int (col 44 11 (nth_line (buf s) 0)) = Some (Z.of_nat n) ->
  (lines_in (buf s) < 1 + (n + 5) / 6)%nat ->
  rejected (rd_list mat mf mt s).
Proof.
  intros mat mf mt s n Ht Hn Hl. apply not_ok_rejected; [apply only_std_list|]. intros l s' E.
  destruct (C42_list_columns _ _ _ _ _ _ E) as ((_ & _ & _ & _ & K & _) & _).
  rewrite K in Hn. inversion Hn as [Hn'].
  assert (L1 := consumes_lines mat mf mt _ s l s' Ht (consumes_list mat mf mt) E).
  assert (L2 := proj1 (C09_lines_consumed_is_NC mat mf mt s s') l E).
  rewrite Hn' in L2. assert (D := Nat2Z.inj_div (n + 5) 6). rewrite Nat2Z.inj_add in D.
  change (Z.of_nat 5) with 5 in D. change (Z.of_nat 6) with 6 in D. lia.
Qed.
Theorem C41_truncated_tab2 : forall mat mf mt s nr,
  (mat, mf, mt) <> (0, 0, 0) ->
  read_int (col 44 11 (nth_line (buf s) 0)) = Some (Z.of_nat nr) ->
  (lines_in (buf s) < 1 + pair_lines nr)%nat ->
  rejected (rd_tab2 mat mf mt s).
Proof.
  intros mat mf mt s n Ht Hn Hl. apply not_ok_rejected; [apply only_std_tab2|]. intros t s' E.
  destruct (C42_tab2_columns _ _ _ _ _ _ E) as ((_ & _ & _ & _ & K & _) & _).
  rewrite K in Hn. inversion Hn as [Hn'].
  assert (L1 := consumes_lines mat mf mt _ s t s' Ht (consumes_tab2 mat mf mt) E).
  assert (L2 := proj1 (proj2 (C09_lines_consumed_is_NC mat mf mt s s')) t E).
  rewrite Hn' in L2. unfold pair_lines in Hl. assert (D := Nat2Z.inj_div (n + 2) 3). rewrite Nat2Z.inj_add in D.
  change (Z.of_nat 2) with 2 in D. change (Z.of_nat 3) with 3 in D. lia.
Qed.
Theorem C41_truncated_tab1 : forall mat mf mt s nr np,
  (mat, mf, mt) <> (0, 0, 0) ->
  read_int (col 44 11 (nth_line (buf s) 0)) = Some (Z.of_nat nr) ->
  read_int (col 55 11 (nth_line (buf s) 0)) = Some (Z.of_nat np) ->
  (lines_in (buf s) < 1 + pair_lines nr + pair_lines np)%nat ->
  rejected (rd_tab1 mat mf mt s).
Proof.
  intros mat mf mt s n np Ht Hn Hp Hl. apply not_ok_rejected; [apply only_std_tab1|]. intros t s' E.
  destruct (C42_tab1_columns _ _ _ _ _ _ E) as ((_ & _ & _ & _ & K & K') & _).
  rewrite K in Hn. inversion Hn as [Hn']. rewrite K' in Hp. inversion Hp as [Hp'].
  assert (L1 := consumes_lines mat mf mt _ s t s' Ht (consumes_tab1 mat mf mt) E).
  assert (L2 := proj2 (proj2 (C09_lines_consumed_is_NC mat mf mt s s')) t E).
  rewrite Hn', Hp' in L2. unfold pair_lines in Hl.
  assert (D := Nat2Z.inj_div (n + 2) 3). rewrite Nat2Z.inj_add in D.
  assert (D' := Nat2Z.inj_div (np + 2) 3). rewrite Nat2Z.inj_add in D'.
  change (Z.of_nat 2) with 2 in *. change (Z.of_nat 3) with 3 in *. lia.
Qed.
Lemma one_line mat mf mt ln :
  (forall a s', rd_cont mat mf mt (mkst [] ln) = Ok a s' -> line s' = ln + 1)
  /\ (forall a s', rd_text mat mf mt (mkst [] ln) = Ok a s' -> line s' = ln + 1)
  /\ (forall a s', rd_dir mat mf mt (mkst [] ln) = Ok a s' -> line s' = ln + 1).
Proof.
  assert (I0 : inl 0 [] [] (mkst [] ln)) by reflexivity.
  split; [|split]; intros a s' H; apply on_err_ok in H.
  - apply bind_ok in H as (c & s1 & H1 & H). apply bind_ok in H as (u & s2 & H2 & H).
    destruct (rd_base_cols _ _ _ _ _ I0 H1) as (_ & I1 & L1).
    destruct (verify_cols _ _ _ _ _ _ _ _ I1 H2) as (_ & _ & L2). inversion H; subst.
    rewrite L2, L1. reflexivity.
  - apply bind_ok in H as (c & s1 & H1 & H). apply bind_ok in H as (u & s2 & H2 & H).
    destruct (rd_chars_inl _ _ _ _ _ _ _ I0 H1) as (_ & I1 & L1).
    destruct (verify_cols _ _ _ _ _ _ _ _ I1 H2) as (_ & _ & L2). inversion H; subst.
    rewrite L2, L1. reflexivity.
  - apply bind_ok in H as (a1 & s1 & H1 & H). apply bind_ok in H as (a2 & s2 & H2 & H).
    apply bind_ok in H as (a3 & s3 & H3 & H). apply bind_ok in H as (a4 & s4 & H4 & H).
    apply bind_ok in H as (u & s5 & H5 & H). inversion H; subst. clear H.
    destruct (rd_int_inl _ _ _ _ _ _ _ I0 H1) as (R1 & I1 & L1).
    destruct (rd_int_inl _ _ _ _ _ _ _ I1 H2) as (R2 & I2 & L2).
    destruct (rd_int_inl _ _ _ _ _ _ _ I2 H3) as (R3 & I3 & L3).
    destruct (rd_int_inl _ _ _ _ _ _ _ I3 H4) as (R4 & I4 & L4).
    destruct (verify_cols _ _ _ _ _ _ _ _ I4 H5) as (_ & _ & L5). cbn [line] in *. lia.
Qed.
(** an empty text is never a record *)
Theorem C41_empty_text : forall mat mf mt ln,
  (mat, mf, mt) <> (0, 0, 0) ->
  rejected (rd_cont mat mf mt (mkst [] ln)) /\ rejected (rd_text mat mf mt (mkst [] ln))
  /\ rejected (rd_dir mat mf mt (mkst [] ln)).
Proof.
  intros mat mf mt ln Ht.
  assert (G : forall A (m : M A), consumes (tail_is mat mf mt) m -> only_std m ->
     (forall a s', m (mkst [] ln) = Ok a s' -> line s' = ln + 1) -> rejected (m (mkst [] ln))).
  { intros A m C O N. apply not_ok_rejected; auto. intros a s' E.
    assert (L := consumes_lines mat mf mt _ _ _ _ Ht C E).
    rewrite (N _ _ E) in L. cbn [buf line] in L. simpl in L.
    destruct (C _ _ _ E) as (ls & S & L2 & F). rewrite (N _ _ E) in L2. cbn [line] in L2.
    assert (lines_in (buf s') = 0%nat).
    { clear - S. cbn [buf] in S. revert S. generalize (buf s') as r. induction ls as [|l ls IH]; intros r S.
      - simpl in S. now subst.
      - simpl in S. destruct S as (b' & E & S). inversion E; subst. now apply IH. }
    lia. }
  repeat split; apply G; auto using consumes_cont, consumes_text, consumes_dir, only_std_cont, only_std_text, only_std_dir.
  all: intros a s' E; destruct (one_line mat mf mt ln) as (K1 & K2 & K3); eauto.
Qed.

(** concrete instances of the rejections: a LIST announcing -1 values; a TAB1
    announcing 7 points on a 3-line text *)
Definition bad_list : text :=
  pr_cont (mkcont r_one r_one 0 0 (-1) 0) 9228 3 102.
Definition junk_list : text :=
  pr_cont (mkcont r_one r_one 0 0 4 0) 9228 3 102
  ++ pr_zip write_real 11 6 9228 3 102 [r_one; r_one; r_one; r_one; r_pi].
Definition short_tab1 : text :=
  pr_cont (mkcont r_one r_one 0 0 1 7) 9228 3 102
  ++ pr_zip pr_pair_int 22 3 9228 3 102 [(7, 2)]
  ++ pr_zip pr_pair_real 22 3 9228 3 102 [(r_one, r_one); (r_one, r_pi); (r_pi, r_pi)].
Example C12_example : read_int (col 44 11 (nth_line bad_list 0)) = Some (-1).
Proof. reflexivity. Qed.
Example C13_example :
  read_int (col 44 11 (nth_line junk_list 0)) = Some (Z.of_nat 4)
  /\ (4 <= 4 < 6 * ((4 + 5) / 6))%nat
  /\ read_real (col (11 * (4 mod 6)) 11 (nth_line junk_list (1 + 4 / 6))) = Some r_pi
  /\ ~ (valQ r_pi == 0)%Q.
Proof.
  split; [reflexivity|]. split; [simpl; lia|]. split; [vm_compute; reflexivity|].
  intros H. vm_compute in H. discriminate.
Qed.
Example C41_example :
  read_int (col 44 11 (nth_line short_tab1 0)) = Some (Z.of_nat 1)
  /\ read_int (col 55 11 (nth_line short_tab1 0)) = Some (Z.of_nat 7)
  /\ (lines_in short_tab1 < 1 + pair_lines 1 + pair_lines 7)%nat.
Proof. split; [reflexivity|]. split; [reflexivity|]. vm_compute. lia. Qed.

(** ** C14 *)
Theorem C14_only_std_exception_escapes : forall mat mf mt s,
  never_other (rd_cont mat mf mt s) /\ never_other (rd_text mat mf mt s)
  /\ never_other (rd_dir mat mf mt s) /\ never_other (rd_list mat mf mt s)
  /\ never_other (rd_tab2 mat mf mt s) /\ never_other (rd_tab1 mat mf mt s)
  /\ never_other (rd_tpid s) /\ never_other (rd_sdiv s) /\ never_other (rd_skip s).
Proof.
  intros mat mf mt s. repeat split.
  - apply only_std_cont. - apply only_std_text. - apply only_std_dir. - apply only_std_list.
  - apply only_std_tab2. - apply only_std_tab1. - apply only_std_tpid. - apply only_std_sdiv.
  - apply only_std_skip.
Qed.
Theorem C14_sequences : forall C (validate : list C -> bool) (rdc : Z -> Z -> Z -> M C) mat mf mt,
  (forall s, never_other (rdc mat mf mt s)) ->
  forall s, never_other (rd_iseq validate rdc mat mf mt s).
Proof. intros C v rdc mat mf mt H. apply only_std_iseq. exact H. Qed.
(** the innermost tail check does throw integers *)
Example C14_example : exists s', verify_tail 1 2 3 (mkst (pr_tail 1 2 4) 0) = Err (EInt 8) s'.
Proof. eexists. reflexivity. Qed.
(** INTG records do not have the property: on a line cut after ten columns the
    iterator is moved past the end of the text (undefined behaviour) *)
Theorem C14_intg_truncated_refuted : exists s,
  ~ never_other (rd_intg 2 (intg_cap 2) 9228 32 151 s).
Proof. exists (mkst (pr_int 5 1 ++ pr_int 5 2) 0). vm_compute. auto. Qed.
(** on complete lines they do *)
Definition raises_at (E : exn -> bool) {A} (r : res A) : Prop :=
  match r with Ok _ _ => True | Err e _ => E e = true | UB => False end.
Lemma raises_at_bind {A B} E (m : M A) (f : A -> M B) s :
  raises_at E (m s) -> (forall a s', m s = Ok a s' -> raises_at E (f a s')) ->
  raises_at E (bind m f s).
Proof. unfold bind. destruct (m s) as [a s'|e s'|]; simpl; auto. Qed.
Lemma raises_at_on_err {A} s (E : exn -> bool) (m : M A) h :
  raises_at E (m s) -> (forall e s', E e = true -> is_std (fst (h e s')) = true) ->
  never_other (on_err m h s).
Proof.
  intros H K. unfold on_err. destruct (m s) as [a s'|e s'|]; simpl in *; auto.
  specialize (K e s' H). now destruct (h e s').
Qed.
Lemma inl_prefix o l b s : inl o l b s -> (length l - o <= length (buf s))%nat.
Proof.
  intros H. apply next_line_cases in H. destruct H as [->|[-> _]];
  rewrite ?app_length, ?skipn_length; lia.
Qed.
Lemma advance_std l b o n s : inl o l b s -> (o + n <= length l)%nat ->
  raises_at (fun e => std_or_int e) (advance n s).
Proof.
  intros H L. assert (P := inl_prefix _ _ _ _ H). unfold advance.
  replace (n <=? length (buf s))%nat with true by lia. exact I.
Qed.
Lemma advance_inl l b o n s u s' : inl o l b s -> (o + n <= length l)%nat ->
  advance n s = Ok u s' -> inl (o + n) l b s'.
Proof.
  unfold advance. intros H L E. destruct (n <=? length (buf s))%nat eqn:N; [|discriminate].
  inversion E; subst. unfold inl in *. cbn [buf].
  assert (NL := next_line_noLF (buf s)). rewrite H in NL. cbn [fst] in NL.
  apply next_line_cases in H. rewrite skipn_add.
  destruct H as [H|[H ->]]; rewrite H.
  - rewrite skipn_app. replace (n - length (skipn o l))%nat with 0%nat by (rewrite skipn_length; lia).
    cbn [skipn]. apply next_line_app. now apply noLF_skipn.
  - assert (N2 : noLF (skipn n (skipn o l))) by now apply noLF_skipn.
    revert N2. generalize (skipn n (skipn o l)). clear.
    induction l as [|c l IH]; intros N2; [reflexivity|]. cbn [next_line].
    destruct (Ascii.eqb c LF) eqn:Ec.
    + apply eqb_LF in Ec. subst. elim N2. now left.
    + rewrite IH; [reflexivity|]. intros K. apply N2. now right.
Qed.
Lemma rd_n_int_inl l b w n : forall o s ks s', inl o l b s -> rd_n (rd_int w) n s = Ok ks s' ->
  inl (o + w * n) l b s'.
Proof.
  induction n as [|n IH]; intros o s ks s' H E.
  - inversion E; subst. now rewrite Nat.mul_0_r, Nat.add_0_r.
  - cbn [rd_n] in E. apply bind_ok in E as (x & s1 & E1 & E). apply bind_ok in E as (xs & s2 & E2 & E).
    inversion E; subst. destruct (rd_int_inl _ _ _ _ _ _ _ H E1) as (_ & I1 & _).
    assert (K := IH _ _ _ _ I1 E2). replace (o + w * S n)%nat with (o + w + w * n)%nat by lia. exact K.
Qed.
Theorem C14_intg_complete_line : forall nd mat mf mt s,
  (2 <= nd <= 6)%nat -> (75 <= length (nth_line (buf s) 0))%nat ->
  never_other (rd_intg nd (intg_cap nd) mat mf mt s).
Proof.
  intros nd mat mf mt s Hn Hl. destruct (next_line (buf s)) as [l b] eqn:E.
  cbn [nth_line] in Hl. rewrite E in Hl. cbn [fst] in Hl.
  assert (I0 : inl 0 l b s) by now apply inl_start.
  apply (raises_at_on_err s (fun e => std_or_int e)); [|apply h_nodec_std].
  eapply raises_at_bind; [apply raises_std; auto using only_std_int|]. intros i s1 H1.
  destruct (rd_int_inl _ _ _ _ _ _ _ I0 H1) as (_ & I1 & _).
  eapply raises_at_bind; [apply raises_std; auto using only_std_int|]. intros j s2 H2.
  destruct (rd_int_inl _ _ _ _ _ _ _ I1 H2) as (_ & I2 & _). clear I0 I1.
  assert (W : exists w, (0 + 5 + 5 + intg_lead nd + w = 66 - intg_gap nd)%nat /\ w = ((nd + 1) * intg_cap nd)%nat /\ (intg_gap nd <= 5)%nat).
  { exists ((nd + 1) * intg_cap nd)%nat.
    destruct nd as [|[|[|[|[|[|[|n]]]]]]]; simpl; lia. }
  destruct W as (w & W & Ew & Wg).
  eapply raises_at_bind; [apply (advance_std l b (0 + 5 + 5) (intg_lead nd)); auto; lia|]. intros u s3 H3.
  assert (I3 : inl (0 + 5 + 5 + intg_lead nd) l b s3) by (eapply advance_inl; eauto; lia).
  eapply raises_at_bind; [apply raises_std; [apply only_std_rd_n, only_std_int|reflexivity|reflexivity]|].
  intros ks s4 H4.
  assert (I4 := rd_n_int_inl l b (nd + 1) (intg_cap nd) _ _ _ _ I3 H4).
  eapply raises_at_bind; [apply (advance_std l b _ (intg_gap nd) s4 I4); lia|]. intros v s5 H5.
  eapply raises_at_bind.
  { unfold make_intg. destruct (intg_cap nd <? length (strip0 ks))%nat; simpl; auto. }
  intros r s6 H6. eapply raises_at_bind; [apply raises_verify|]. intros x s7 H7. exact I.
Qed.

(** ** C15 *)
(** at most one of HEAD, SEND, FEND, MEND, TEND *)
Theorem C15_at_most_one_kind : forall d,
  (Nat.b2n (is_head d) + Nat.b2n (is_send d) + Nat.b2n (is_fend d) + Nat.b2n (is_mend d)
   + Nat.b2n (is_tend d) <= 1)%nat.
Proof.
  intros d. unfold is_head, is_send, is_fend, is_mend, is_tend, is_fend_permissive, is_send_permissive.
  destruct (base_is0 (sbase d)), (Z.eqb_spec (smt d) 0), (Z.eqb_spec (smf d) 0), (Z.eqb_spec (smat d) 0),
    (Z.eqb_spec (smat d) (-1)), (Z.ltb_spec 0 (smat d)); simpl; lia.
Qed.
(** constructed SEND, FEND, MEND, TEND records are of their kind and carry MAT and MF *)
Theorem C15_constructors : forall mat mf,
  (SEND mat mf = Throw EStd <-> mat < 1 \/ mf < 1)
  /\ (FEND mat = Throw EStd <-> mat < 1)
  /\ (forall d, SEND mat mf = Val d -> is_send d = true /\ smat d = mat /\ smf d = mf /\ smt d = 0)
  /\ (forall d, FEND mat = Val d -> is_fend d = true /\ smat d = mat /\ smf d = 0 /\ smt d = 0)
  /\ SEND mat mf <> Undef /\ FEND mat <> Undef
  /\ is_mend MEND = true /\ is_tend TEND = true.
Proof.
  intros mat mf. unfold SEND, FEND.
  destruct (Z.ltb_spec mat 1), (Z.ltb_spec mf 1); 
    repeat (apply conj); auto; try discriminate; 
    try (split; intros; first [discriminate | reflexivity | lia]);
    try (intros d E1; first [discriminate E1 | injection E1 as <-; cbn; repeat split; lia]).
  all: try (intros K; exfalso; lia).
  intros d E1. injection E1 as <-. split; [|auto].
  unfold is_send, is_send_permissive. cbn [smt smf smat sbase]. change (base_is0 zero_cont) with true.
  cbn [andb Z.eqb]. lia.
Qed.
(** they print one line that reads back as the same record, whatever follows *)
Theorem C15_end_records_round_trip : forall mat mf rest ln,
  in_cols 4 mat -> in_cols 2 mf ->
  (forall d, SEND mat mf = Val d -> rd_sdiv (mkst (pr_sdiv d ++ rest) ln) = Ok d (mkst rest (ln + 1)))
  /\ (forall d, FEND mat = Val d -> rd_sdiv (mkst (pr_sdiv d ++ rest) ln) = Ok d (mkst rest (ln + 1)))
  /\ rd_sdiv (mkst (pr_sdiv MEND ++ rest) ln) = Ok MEND (mkst rest (ln + 1))
  /\ rd_sdiv (mkst (pr_sdiv TEND ++ rest) ln) = Ok TEND (mkst rest (ln + 1)).
Proof.
  intros mat mf rest ln Hm Hf.
  assert (G : forall m f, fits 4 m = true -> fits 2 f = true -> -1 <= m -> 0 <= f ->
     rd_sdiv (mkst (pr_sdiv (mksdiv zero_cont m f 0) ++ rest) ln) = Ok (mksdiv zero_cont m f 0) (mkst rest (ln + 1))).
  { intros m f H1 H2 H3 H4. apply reads_sdiv; [|now right].
    split; [exact okcont_zero|]. repeat split; cbn [smat smf smt]; auto; lia. }
  assert (Fm := in_cols_fits 4 mat ltac:(lia) Hm). assert (Ff := in_cols_fits 2 mf ltac:(lia) Hf).
  split; [|split; [|split]].
  - unfold SEND. intros d. destruct (Z.ltb_spec mat 1); [discriminate|]. destruct (Z.ltb_spec mf 1); [discriminate|].
    intros E; inversion E. apply G; auto; lia.
  - unfold FEND. intros d. destruct (Z.ltb_spec mat 1); [discriminate|].
    intros E; inversion E. apply G; auto; lia.
  - apply G; auto; lia.
  - apply G; auto; lia.
Qed.
(** HEAD records *)
Theorem C15_head_round_trip : forall d rest ln,
  endf_cont (sbase d) -> good_tail (smat d) (smf d) (smt d) ->
  smat d <> 0 -> -1 <= smat d -> 0 < smf d -> 0 < smt d ->
  is_head d = true
  /\ rd_sdiv (mkst (pr_sdiv d ++ rest) ln) = Ok d (mkst rest (ln + 1)).
Proof.
  intros d rest ln H Ht H1 H2 H3 H4.
  assert (Hh : is_head d = true) by (unfold is_head; lia).
  split; [exact Hh|]. apply reads_sdiv; [|now left].
  split; [now apply endf_okcont|]. split; [now apply good_oktail|]. lia.
Qed.
Example C15_example : exists d, SEND 9228 3 = Val d /\ in_cols 4 9228 /\ in_cols 2 3
  /\ is_head (mksdiv ex_cont 9228 3 102) = true.
Proof. eexists. split; [reflexivity|]. vm_compute. repeat split. Qed.

(** ** C16 reals *)
Theorem C16_print_read_print_stable : forall x, moderate x ->
  exists y, read_real (write_real x) = Some y /\ write_real y = write_real x
    /\ length (write_real x) = 11%nat /\ noLF (write_real x).
Proof.
  intros x H. destruct (renorm_ok x H) as (H1 & H2 & H3). exists (renorm x).
  repeat split; auto; [now apply write_length|apply (moderate_prr x H)].
Qed.
(** decimals with few enough digits survive exactly: n * 10^k, with E its decimal
    exponent and 7, 6 or 5 digits when |E| has 1, 2 or 3 digits *)
Theorem C16_short_decimals_survive : forall neg D E x,
  10 ^ (zone E - 1) <= D < 10 ^ zone E -> Z.abs E < 300 ->
  dec_double neg D (E - (zone E - 1)) = Some x ->
  length (write_real x) = 11%nat /\ read_real (write_real x) = Some x.
Proof.
  intros neg D E x H1 H2 H3. apply endf_okr. right. exists D, E.
  assert (rneg x = neg).
  { clear -H3. unfold dec_double, to_double in H3. 
    destruct (_ <? 0) in H3.
    - destruct (_ =? 0) in H3; [now inversion H3|]. destruct (rnd _ _ _ _ _) as [m e].
      destruct (m =? 0); [now inversion H3|]. destruct (971 <? e); [discriminate|now inversion H3].
    - destruct (_ =? 0) in H3; [now inversion H3|]. destruct (rnd _ _ _ _ _) as [m e].
      destruct (m =? 0); [now inversion H3|]. destruct (971 <? e); [discriminate|now inversion H3]. }
  subst neg. auto.
Qed.
Theorem C16_order_preserved : forall x y x' y', moderate x -> moderate y ->
  read_real (write_real x) = Some x' -> read_real (write_real y) = Some y' ->
  real_le x y -> real_le x' y'.
Proof.
  intros x y x' y' Mx My Ex Ey H.
  destruct (renorm_ok x Mx) as (H1 & _). destruct (renorm_ok y My) as (H2 & _).
  assert (x' = renorm x) by congruence. assert (y' = renorm y) by congruence. subst.
  apply rle_spec. apply renorm_mono; auto. now apply rle_spec.
Qed.
(** the largest doubles are printed as 1.7977+308, which is not a double *)
Theorem C16_largest_double_refuted : exists x,
  rman x = 2 ^ 53 - 1 /\ rexp x = 971 /\ read_real (write_real x) = None.
Proof. exists (mkreal false (2 ^ 53 - 1) 971). vm_compute. auto. Qed.
Example C16_example : moderate r_third /\ write_real r_third = list_ascii_of_string " 3.333333-1"%string
  /\ 10 ^ (zone 12 - 1) <= 123456 < 10 ^ zone 12.
Proof.
  split; [right; vm_compute; repeat split; congruence|]. split; [vm_compute; reflexivity|].
  vm_compute. split; congruence.
Qed.

(** ** C17 integers *)
Theorem C17_integer_columns : forall w z, (2 <= w)%nat -> in_cols w z ->
  length (pr_int w z) = w /\ (exists n, pr_int w z = blanks n ++ show z)
  /\ read_int (pr_int w z) = Some z /\ read_int (blanks w) = Some 0.
Proof.
  intros w z Hw H. assert (F := in_cols_fits w z Hw H).
  split; [now apply pr_int_length|]. split; [eexists; reflexivity|].
  split; [apply read_int_show|apply read_int_blanks].
Qed.
Example C17_example : in_cols 11 (-1234567890) /\ in_cols 4 9999 /\ ~ in_cols 4 10000.
Proof. vm_compute. repeat split. intros [_ H]. discriminate. Qed.

(** ** C35 *)
Theorem C35_tab1_constructor_exact : forall C1 C2 L1 L2 bnd int x y,
  bnd <> [] -> 0 <= last bnd 0 < 2 ^ 32 -> Z.of_nat (length x) < 2 ^ 32 ->
  (make_tab1 C1 C2 L1 L2 bnd int x y = Val (mktab1 (mktab2 C1 C2 L1 L2 bnd int) x y)
   <-> length x = length y /\ ascending real_le x /\ length bnd = length int
       /\ ascending Z.le bnd /\ last bnd 0 = Z.of_nat (length x))
  /\ (make_tab1 C1 C2 L1 L2 bnd int x y = Val (mktab1 (mktab2 C1 C2 L1 L2 bnd int) x y)
      \/ make_tab1 C1 C2 L1 L2 bnd int x y = Throw EStd).
Proof.
  intros C1 C2 L1 L2 bnd int x y Hne Hb Hx. change (2 ^ 32) with 4294967296 in *.
  unfold make_tab1, make_tab2. destruct bnd as [|b0 bnd']; [congruence|]. set (bnd := b0 :: bnd') in *.
  destruct (Nat.eqb_spec (length bnd) (length int)) as [E1|E1]; cbn [negb obind].
  2:{ split; [|auto]. split; [discriminate|tauto]. }
  destruct (is_sorted Z.ltb bnd) eqn:E2; cbn [negb obind].
  2:{ split; [|auto]. split; [discriminate|]. rewrite <- (sorted_Z bnd), E2. intuition discriminate. }
  destruct (is_sorted rlt x) eqn:E3; cbn [negb].
  2:{ split; [|auto]. split; [discriminate|]. rewrite <- (sorted_R x), E3. intuition discriminate. }
  destruct (Nat.eqb_spec (length x) (length y)) as [E4|E4]; cbn [negb].
  2:{ split; [|auto]. split; [discriminate|tauto]. }
  unfold tn2. cbn [tbnd]. rewrite !u32_small by lia.
  destruct (Z.eqb_spec (last bnd 0) (Z.of_nat (length x))) as [E5|E5]; cbn [negb].
  - split; [|auto]. split; auto. intros _. rewrite sorted_Z in E2. rewrite sorted_R in E3. auto.
  - split; [|auto]. split; [discriminate|]. tauto.
Qed.
(** without the bound the check wraps around modulo 2^32 *)
Theorem C35_wraparound_refuted : exists t,
  make_tab1 r_one r_one 0 0 [2 ^ 32 + 1] [2] [r_one] [r_one] = Val t
  /\ last (tbnd (tbase t)) 0 <> Z.of_nat (length (tx t)).
Proof. eexists. split; [vm_compute; reflexivity|]. cbn. discriminate. Qed.
(** and an empty list of boundaries is undefined behaviour, not an exception *)
Theorem C35_empty_boundaries_refuted : forall C1 C2 L1 L2 x y,
  make_tab1 C1 C2 L1 L2 [] [] x y = Undef.
Proof. reflexivity. Qed.
Example C35_example : exists t, make_tab1 r_one r_one 0 0 [2; 3] [2; 5] [r_one; r_one; r_pi] [r_one; r_pi; r_tiny] = Val t.
Proof. eexists. vm_compute. reflexivity. Qed.
