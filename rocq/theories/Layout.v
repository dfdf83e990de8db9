(** Layout.v -- the printed text of every record is a whole number of lines of
    exactly 80 columns carrying MAT, MF, MT in columns 67-75. *)
From Coq Require Import ZifyBool ZifyNat.
From Verif Require Import Base Disco DiscoProofs Records RecordProofs RecordRT.
Ltac Zify.zify_post_hook ::= Z.div_mod_to_equations.
Open Scope Z_scope.

(** an 80-column line with MAT, MF, MT right-justified in columns 67-70, 71-72
    and 73-75, and blanks in columns 76-80 *)
Definition line80 (mat mf mt : Z) (l : text) : Prop :=
  length l = 80%nat /\ noLF l
  /\ col 66 4 l = rj 4 (show mat) /\ col 70 2 l = rj 2 (show mf)
  /\ col 72 3 l = rj 3 (show mt) /\ col 75 5 l = blanks 5.

(** lines, each ended by a newline *)
Definition unlines (ls : list text) : text := flat_map (fun l => l ++ [LF]) ls.

(** [t] consists of exactly [n] such lines *)
Definition layout (mat mf mt n : Z) (t : text) : Prop :=
  exists ls, t = unlines ls /\ Z.of_nat (length ls) = n /\ Forall (line80 mat mf mt) ls.

Lemma layout_nil mat mf mt : layout mat mf mt 0 [].
Proof. exists []. repeat split; auto. Qed.

Lemma layout_app mat mf mt n n' t t' :
  layout mat mf mt n t -> layout mat mf mt n' t' -> layout mat mf mt (n + n') (t ++ t').
Proof.
  intros (l & -> & Hn & F) (l' & -> & Hn' & F'). exists (l ++ l').
  unfold unlines. rewrite flat_map_app, app_length, Forall_app. repeat split; auto. lia.
Qed.

Lemma layout_eq mat mf mt n n' t : layout mat mf mt n t -> n = n' -> layout mat mf mt n' t.
Proof. now intros H <-. Qed.

Lemma col_app a n (x y : text) : length x = a -> col a n (x ++ y) = firstn n y.
Proof.
  intros <-. unfold col. rewrite skipn_app, skipn_all, Nat.sub_diag. reflexivity.
Qed.

Lemma firstn_exact (x y : text) n : length x = n -> firstn n (x ++ y) = x.
Proof.
  intros <-. rewrite firstn_app, firstn_all, Nat.sub_diag. simpl. apply app_nil_r.
Qed.

Lemma layout_line mat mf mt x :
  oktail mat mf mt -> length x = 66%nat -> noLF x -> layout mat mf mt 1 (x ++ pr_tail mat mf mt).
Proof.
  intros (H1 & H2 & H3) Hl Hn.
  exists [x ++ pr_int 4 mat ++ pr_int 2 mf ++ pr_int 3 mt ++ pr_col 5].
  unfold unlines. cbn [flat_map]. rewrite app_nil_r. unfold pr_tail.
  split; [now rewrite <- !app_assoc|]. split; [reflexivity|]. constructor; auto.
  assert (L1 := pr_int_length _ _ H1). assert (L2 := pr_int_length _ _ H2).
  assert (L3 := pr_int_length _ _ H3).
  unfold line80. split; [|split; [|split; [|split; [|split]]]].
  - rewrite !app_length, pr_col_length. lia.
  - rewrite !noLF_app. repeat split; auto using pr_int_noLF, noLF_blanks.
  - rewrite col_app by auto. now apply firstn_exact.
  - rewrite app_assoc, col_app by (rewrite app_length; lia). now apply firstn_exact.
  - rewrite app_assoc, app_assoc, col_app by (rewrite !app_length; lia). now apply firstn_exact.
  - rewrite app_assoc, app_assoc, app_assoc, col_app by (rewrite !app_length; lia).
    apply firstn_all2. now rewrite pr_col_length.
Qed.

(** a real that prints in 11 columns *)
Definition prr (x : real) : Prop := length (write_real x) = 11%nat /\ noLF (write_real x).
Lemma okr_prr x : okr x -> prr x.
Proof. intros H. split; [apply H|now apply okr_noLF]. Qed.

Definition prcont (c : cont) : Prop :=
  prr (c1 c) /\ prr (c2 c) /\ fits 11 (l1 c) = true /\ fits 11 (l2 c) = true
  /\ fits 11 (n1 c) = true /\ fits 11 (n2 c) = true.
Lemma okcont_pr c : okcont c -> prcont c.
Proof. unfold okcont, prcont. intuition auto using okr_prr. Qed.

Lemma pr_base_shape c : prcont c -> length (pr_base c) = 66%nat /\ noLF (pr_base c).
Proof.
  intros ([A1 A2] & [B1 B2] & H3 & H4 & H5 & H6). unfold pr_base.
  rewrite !app_length, !pr_int_length by auto. split; [lia|].
  rewrite !noLF_app. repeat split; auto using pr_int_noLF.
Qed.

Lemma layout_cont c mat mf mt :
  prcont c -> oktail mat mf mt -> layout mat mf mt 1 (pr_cont c mat mf mt).
Proof. intros H Ht. destruct (pr_base_shape c H). now apply layout_line. Qed.

Lemma layout_text t mat mf mt :
  (length t <= 66)%nat -> noLF t -> oktail mat mf mt -> layout mat mf mt 1 (pr_text t mat mf mt).
Proof. intros H K Ht. apply layout_line; auto using lj_length, lj_noLF. Qed.

Lemma layout_tpid t mat mf mt :
  (length (tptext t) <= 66)%nat -> noLF (tptext t) -> oktail mat mf mt ->
  layout mat mf mt 1 (pr_tpid t mat mf mt).
Proof. intros H K Ht. apply layout_line; auto using lj_length, lj_noLF. Qed.

Lemma layout_dir d mat mf mt :
  okdir d -> oktail mat mf mt -> layout mat mf mt 1 (pr_dir d mat mf mt).
Proof.
  intros (H1 & H2 & H3 & H4) Ht. unfold pr_dir. rewrite !app_assoc. apply layout_line; auto.
  - rewrite !app_length, !pr_int_length by auto. lia.
  - rewrite !noLF_app. repeat split; auto using pr_int_noLF.
Qed.

Lemma layout_end mat mf mt :
  oktail mat mf mt -> layout mat mf mt 1 (blanks 66 ++ pr_tail mat mf mt).
Proof. intros H. apply layout_line; auto using blanks_length, noLF_blanks. Qed.

Lemma layout_sdiv d :
  prcont (sbase d) -> oktail (smat d) (smf d) (smt d) ->
  layout (smat d) (smf d) (smt d) 1 (pr_sdiv d).
Proof.
  intros H Ht. destruct (is_head d) eqn:E.
  - unfold pr_sdiv. rewrite E. destruct (pr_base_shape _ H). now apply layout_line.
  - rewrite pr_sdiv_end; auto. now apply layout_end. apply Ht.
Qed.

(** ** zipped blocks *)
Lemma flat_map_length_const {A} (pe : A -> text) w l :
  Forall (fun x => length (pe x) = w) l -> length (flat_map pe l) = (w * length l)%nat.
Proof.
  induction 1 as [|x l Hx Hl IH]; simpl; [lia|]. rewrite app_length. lia.
Qed.
Lemma flat_map_noLF {A} (pe : A -> text) l :
  Forall (fun x => noLF (pe x)) l -> noLF (flat_map pe l).
Proof.
  induction 1 as [|x l Hx Hl IH]; simpl; [apply noLF_nil|]. now apply noLF_app.
Qed.

Lemma layout_zip {A} (pe : A -> text) w k mat mf mt l :
  (0 < k)%nat -> (w * k = 66)%nat -> oktail mat mf mt ->
  Forall (fun x => length (pe x) = w /\ noLF (pe x)) l ->
  layout mat mf mt (nlines k (length l)) (pr_zip pe w k mat mf mt l).
Proof.
  intros Hk Hw Ht. remember (length l) as n eqn:Hn. revert l Hn.
  induction n as [n IH] using lt_wf_ind. intros l Hn Hl.
  destruct l as [|a l'] eqn:El.
  - subst n. simpl. rewrite nlines0 by auto. apply layout_nil.
  - rewrite <- El in *. assert (Hne : l <> []) by congruence.
    unfold pr_zip. rewrite chunks_cons by auto. cbn [flat_map].
    assert (Hsp := Hl). rewrite <- (firstn_skipn k l) in Hsp.
    apply Forall_app in Hsp. destruct Hsp as [F1 F2].
    assert (Hln : length (firstn k l) = Nat.min k n) by (rewrite firstn_length; lia).
    assert (Hp : (0 < n)%nat) by (rewrite El in Hn; simpl in Hn; lia).
    assert (E : layout mat mf mt 1 (pr_zline pe w k mat mf mt (firstn k l))).
    { unfold pr_zline. rewrite app_assoc. apply layout_line; auto.
      - rewrite app_length, pr_col_length, (flat_map_length_const pe w).
        + rewrite <- Nat.mul_add_distr_l. rewrite <- Hw. f_equal. lia.
        + eapply Forall_impl; [|exact F1]. simpl. tauto.
      - rewrite noLF_app. split; [|apply noLF_blanks]. apply flat_map_noLF.
        eapply Forall_impl; [|exact F1]. simpl. tauto. }
    eapply layout_eq.
    + apply layout_app; [exact E|].
      apply (IH (length (skipn k l))); auto. rewrite skipn_length. lia.
    + rewrite skipn_length, <- Hn. destruct (le_lt_dec k n).
      * rewrite (nlines_step k n) by lia. reflexivity.
      * rewrite (nlines_short k n) by lia. replace (n - k)%nat with 0%nat by lia.
        rewrite nlines0 by auto. lia.
Qed.

Definition prlist (l : listr) : Prop :=
  prr (lC1 l) /\ prr (lC2 l) /\ fits 11 (lL1 l) = true /\ fits 11 (lL2 l) = true
  /\ fits 11 (lN2 l) = true /\ fits 11 (npl l) = true /\ Forall prr (lB l).
Lemma oklist_pr l : oklist l -> prlist l.
Proof.
  intros (H1 & H2 & H3 & H4 & H5 & H6 & H7). unfold prlist.
  intuition auto using okr_prr. eapply Forall_impl; [|exact H7]. exact okr_prr.
Qed.

Lemma layout_list l mat mf mt :
  prlist l -> oktail mat mf mt -> layout mat mf mt (nc_list l) (pr_list l mat mf mt).
Proof.
  intros (H1 & H2 & H3 & H4 & H5 & H6 & H7) Ht. unfold pr_list. eapply layout_eq.
  - apply layout_app.
    + apply layout_cont; auto. unfold prcont. simpl. intuition auto.
    + apply layout_zip; auto; lia.
  - unfold nc_list, npl, nlines. lia.
Qed.

Definition prtab2 (t : tab2) : Prop :=
  prr (tC1 t) /\ prr (tC2 t) /\ fits 11 (tL1 t) = true /\ fits 11 (tL2 t) = true
  /\ fits 11 (tnr t) = true /\ tbnd t <> [] /\ length (tbnd t) = length (tint t)
  /\ Forall (fun z => fits 11 z = true) (tbnd t)
  /\ Forall (fun z => fits 11 z = true) (tint t).
Lemma oktab2_pr t : oktab2 t -> prtab2 t.
Proof. unfold oktab2, prtab2. intuition auto using okr_prr. Qed.

Lemma pr_pair_int_shape p : fits 11 (fst p) = true -> fits 11 (snd p) = true ->
  length (pr_pair_int p) = 22%nat /\ noLF (pr_pair_int p).
Proof.
  intros H1 H2. unfold pr_pair_int. rewrite app_length, !pr_int_length by auto.
  rewrite noLF_app. auto using pr_int_noLF.
Qed.
Lemma pr_pair_real_shape p : prr (fst p) -> prr (snd p) ->
  length (pr_pair_real p) = 22%nat /\ noLF (pr_pair_real p).
Proof.
  intros [H1 H2] [H3 H4]. unfold pr_pair_real. rewrite app_length, noLF_app. intuition lia.
Qed.

Lemma layout_tab2 t mat mf mt :
  prtab2 t -> oktail mat mf mt -> layout mat mf mt (nc_tab2 t) (pr_tab2 t mat mf mt).
Proof.
  intros (H1 & H2 & H3 & H4 & H5 & H6 & H7 & H8 & H9) Ht. unfold pr_tab2. eapply layout_eq.
  - apply layout_app.
    + apply layout_cont; auto. unfold prcont. cbn [c1 c2 l1 l2 n1 n2]. repeat (split; auto).
      unfold tn2. rewrite Forall_forall in H8. apply H8, last_In, H6.
    + apply layout_zip; auto; try lia.
      eapply Forall_impl; [|apply (Forall_combine _ _ _ _ H8 H9)].
      intros p [A B]. now apply pr_pair_int_shape.
  - rewrite combine_len by auto. unfold nc_tab2, tnr, nlines. lia.
Qed.

Definition prtab1 (t : tab1) : Prop :=
  prtab2 (tbase t) /\ length (tx t) = length (ty t) /\ Forall prr (tx t) /\ Forall prr (ty t).
Lemma oktab1_pr t : oktab1 t -> prtab1 t.
Proof.
  intros (H1 & H2 & H3 & H4 & H5 & H6). split; [now apply oktab2_pr|].
  repeat split; auto; eapply Forall_impl; try exact okr_prr; auto.
Qed.

Lemma layout_tab1 t mat mf mt :
  prtab1 t -> oktail mat mf mt -> layout mat mf mt (nc_tab1 t) (pr_tab1 t mat mf mt).
Proof.
  intros (H1 & H2 & H3 & H4) Ht. unfold pr_tab1. eapply layout_eq.
  - apply layout_app; [now apply layout_tab2|]. apply layout_zip; auto; try lia.
    eapply Forall_impl; [|apply (Forall_combine _ _ _ _ H3 H4)].
    intros p [A B]. now apply pr_pair_real_shape.
  - rewrite combine_len by auto. unfold nc_tab1, tnp, nlines. lia.
Qed.

Lemma layout_flat_map {C} (prc : C -> text) (ncc : C -> Z) mat mf mt l :
  Forall (fun c => layout mat mf mt (ncc c) (prc c)) l ->
  layout mat mf mt (zsum (map ncc l)) (flat_map prc l).
Proof.
  induction 1 as [|c l Hc Hl IH]; simpl; [apply layout_nil|]. now apply layout_app.
Qed.

Lemma layout_iseq {C} (prc : C -> Z -> Z -> Z -> text) (ncc : C -> Z) q mat mf mt :
  prtab2 (istab q) -> oktail mat mf mt ->
  Forall (fun c => layout mat mf mt (ncc c) (prc c mat mf mt)) (isrec q) ->
  layout mat mf mt (nc_iseq ncc q) (pr_iseq prc q mat mf mt).
Proof.
  intros H Ht F. unfold pr_iseq, nc_iseq. apply layout_app; [now apply layout_tab2|].
  now apply (layout_flat_map (fun c => prc c mat mf mt)).
Qed.

(** INTG lines, for the five (NDIGIT, capacity) pairs *)
Lemma layout_intg nd cap g mat mf mt :
  (nd, cap) = (nd, intg_cap nd) -> (2 <= nd <= 6)%nat ->
  fits 5 (gi g) = true -> fits 5 (gj g) = true -> (length (gk g) <= cap)%nat ->
  Forall (fun z => fits (nd + 1) z = true) (gk g) -> oktail mat mf mt ->
  layout mat mf mt 1 (pr_intg nd cap g mat mf mt).
Proof.
  intros Hc Hnd H1 H2 H3 H4 Ht. injection Hc as Hc. unfold pr_intg. rewrite !app_assoc.
  apply layout_line; auto.
  - rewrite !app_length, !pr_int_length, !pr_col_length by auto.
    rewrite (flat_map_length_const _ (nd + 1)).
    2:{ eapply Forall_impl; [|exact H4]. intros z Hz. now apply pr_int_length. }
    assert (E : ((nd + 1) * length (gk g) + (nd + 1) * (cap - length (gk g)) = (nd + 1) * cap)%nat).
    { rewrite <- Nat.mul_add_distr_l. f_equal. lia. }
    assert (K : (11 - 1 + intg_lead nd + (nd + 1) * cap + intg_gap nd = 66)%nat).
    { rewrite Hc. destruct nd as [|[|[|[|[|[|[|]]]]]]]; try lia; reflexivity. }
    lia.
  - rewrite !noLF_app. repeat split; auto using pr_int_noLF, noLF_blanks.
    apply flat_map_noLF. eapply Forall_impl; [|exact H4]. intros; apply pr_int_noLF.
Qed.
