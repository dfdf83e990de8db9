(** RecordProofs.v -- round trips of the record classes. *)
From Coq Require Import ZifyBool ZifyNat.
From Verif Require Import Base Disco DiscoProofs Records.
Ltac Zify.zify_post_hook ::= Z.div_mod_to_equations.
Open Scope Z_scope.

(** MAT, MF and MT fit their columns *)
Definition oktail (mat mf mt : Z) : Prop :=
  fits 4 mat = true /\ fits 2 mf = true /\ fits 3 mt = true.

Lemma pr_col_length n : length (pr_col n) = n.
Proof. apply blanks_length. Qed.

(** decompose a [reads] goal along binds; the text is right-associated *)
Ltac rret := lazymatch goal with |- reads (ret _) [] _ _ => apply reads_ret end.

Lemma reads_inc : reads inc_line [] tt 1.
Proof. intros r ln. reflexivity. Qed.

Lemma reads_tail mat mf mt :
  oktail mat mf mt -> reads rd_tail (pr_tail mat mf mt) (mat, mf, mt) 1.
Proof.
  intros (H1 & H2 & H3). unfold rd_tail, pr_tail.
  eapply reads_eq; [|reflexivity|reflexivity|].
  - eapply reads_bind; [now apply reads_int|].
    eapply reads_bind; [now apply reads_int|].
    eapply reads_bind; [now apply reads_int|].
    eapply reads_bind_r; [apply reads_eol, noLF_blanks|].
    eapply reads_bind0; [apply reads_inc|]. rret.
  - lia.
Qed.

Lemma reads_verify mat mf mt :
  oktail mat mf mt -> reads (verify_tail mat mf mt) (pr_tail mat mf mt) tt 1.
Proof.
  intros H. unfold verify_tail. eapply reads_eq; [|reflexivity|reflexivity|].
  - eapply reads_bind_r; [now apply reads_tail|].
    cbv beta iota. rewrite !Z.eqb_refl.
    eapply reads_bind0; [apply reads_ret|].
    eapply reads_bind0; [apply reads_ret|]. rret.
  - lia.
Qed.

Definition okcont (c : cont) : Prop :=
  okr (c1 c) /\ okr (c2 c) /\ fits 11 (l1 c) = true /\ fits 11 (l2 c) = true
  /\ fits 11 (n1 c) = true /\ fits 11 (n2 c) = true.

Lemma reads_base c : okcont c -> reads rd_base (pr_base c) c 0.
Proof.
  intros (H1 & H2 & H3 & H4 & H5 & H6). unfold rd_base, pr_base.
  eapply reads_eq; [|reflexivity|reflexivity|].
  - eapply reads_bind; [now apply reads_real|].
    eapply reads_bind; [now apply reads_real|].
    eapply reads_bind; [now apply reads_int|].
    eapply reads_bind; [now apply reads_int|].
    eapply reads_bind; [now apply reads_int|].
    eapply reads_bind_r; [now apply reads_int|].
    destruct c. rret.
  - lia.
Qed.

Lemma reads_cont c mat mf mt :
  okcont c -> oktail mat mf mt -> reads (rd_cont mat mf mt) (pr_cont c mat mf mt) c 1.
Proof.
  intros Hc Ht. unfold rd_cont, pr_cont. apply reads_on_err.
  eapply reads_eq; [|reflexivity|reflexivity|].
  - eapply reads_bind; [now apply reads_base|].
    eapply reads_bind_r; [now apply reads_verify|]. rret.
  - lia.
Qed.

Lemma reads_text t mat mf mt :
  (length t <= 66)%nat -> noLF t -> oktail mat mf mt ->
  reads (rd_text mat mf mt) (pr_text t mat mf mt) (lj 66 t) 1.
Proof.
  intros Hl Hn Ht. unfold rd_text, pr_text. apply reads_on_err.
  eapply reads_eq; [|reflexivity|reflexivity|].
  - eapply reads_bind; [apply reads_chars; [now apply lj_length|now apply lj_noLF]|].
    eapply reads_bind_r; [now apply reads_verify|]. rret.
  - lia.
Qed.

Lemma order66_length t : length (order66 t) = 66%nat.
Proof.
  unfold order66. destruct (Nat.ltb_spec 66 (length t)).
  - rewrite firstn_length. lia.
  - apply lj_length. lia.
Qed.
Lemma order66_noLF t : noLF t -> noLF (order66 t).
Proof.
  intros H. unfold order66. destruct (66 <? length t)%nat;
    auto using noLF_firstn, lj_noLF.
Qed.

Lemma reads_tpid t n :
  length (tptext t) = 66%nat -> noLF (tptext t) -> fits 4 n = true ->
  reads rd_tpid (pr_tpid t n 0 0) (mktpid (tptext t) n) 1.
Proof.
  intros Hl Hn Hf. unfold rd_tpid, pr_tpid. apply reads_on_err.
  rewrite lj_id by auto.
  eapply reads_eq; [|reflexivity|reflexivity|].
  - eapply reads_bind; [apply reads_chars; auto|].
    eapply reads_bind_r.
    { apply reads_tail. repeat split; auto; apply fits0; lia. }
    cbv beta iota. eapply reads_bind0; [apply reads_ret|].
    eapply reads_bind0; [apply reads_ret|]. rret.
  - lia.
Qed.

Definition okdir (d : dir) : Prop :=
  fits 33 (dmf d) = true /\ fits 11 (dmt d) = true /\ fits 11 (dnc d) = true
  /\ fits 11 (dmod d) = true.

Lemma reads_dir d mat mf mt :
  okdir d -> oktail mat mf mt -> reads (rd_dir mat mf mt) (pr_dir d mat mf mt) d 1.
Proof.
  intros (H1 & H2 & H3 & H4) Ht. unfold rd_dir, pr_dir. apply reads_on_err.
  eapply reads_eq; [|reflexivity|reflexivity|].
  - eapply reads_bind; [now apply reads_int|].
    eapply reads_bind; [now apply reads_int|].
    eapply reads_bind; [now apply reads_int|].
    eapply reads_bind; [now apply reads_int|].
    eapply reads_bind_r; [now apply reads_verify|]. destruct d. rret.
  - lia.
Qed.

(** ** zipped blocks *)
Lemma chunk_aux_fuel {A} k : (0 < k)%nat -> forall f1 f2 (l : list A),
  (length l <= f1)%nat -> (length l <= f2)%nat -> chunk_aux k f1 l = chunk_aux k f2 l.
Proof.
  intros Hk. induction f1 as [|f1 IH]; intros f2 l H1 H2.
  - destruct l; [|simpl in H1; lia]. now destruct f2.
  - destruct l as [|a l]; [now destruct f2|].
    destruct f2 as [|f2]; [simpl in H2; lia|].
    cbn [chunk_aux]. f_equal. apply IH.
    + rewrite skipn_length. cbn [length] in *. lia.
    + rewrite skipn_length. cbn [length] in *. lia.
Qed.

Lemma chunks_nil {A} k : chunks k (@nil A) = [].
Proof. reflexivity. Qed.

Lemma chunks_cons {A} k (l : list A) : (0 < k)%nat -> l <> [] ->
  chunks k l = firstn k l :: chunks k (skipn k l).
Proof.
  intros Hk Hl. unfold chunks. destruct l as [|a l]; [congruence|].
  cbn [length chunk_aux]. f_equal. apply chunk_aux_fuel; auto.
  rewrite skipn_length. cbn [length]. lia.
Qed.

(** lines needed for n tuples *)
Definition nlines (k n : nat) : Z := (Z.of_nat n + Z.of_nat k - 1) / Z.of_nat k.

Lemma nlines_short k n : (0 < n <= k)%nat -> nlines k n = 1.
Proof.
  intros H. unfold nlines. symmetry. apply (Z.div_unique _ _ _ (Z.of_nat n - 1)); lia.
Qed.
Lemma nlines0 k : (0 < k)%nat -> nlines k 0 = 0.
Proof. intros H. unfold nlines. apply Z.div_small. lia. Qed.
Lemma nlines_step k n : (0 < k <= n)%nat -> nlines k n = 1 + nlines k (n - k).
Proof.
  intros H. unfold nlines. rewrite Nat2Z.inj_sub by lia.
  replace (Z.of_nat n + Z.of_nat k - 1)
    with (Z.of_nat n - Z.of_nat k + Z.of_nat k - 1 + 1 * Z.of_nat k) by lia.
  rewrite Z.div_add by lia. lia.
Qed.

Lemma chunks_length {A} k : (0 < k)%nat -> forall n (l : list A),
  length l = n -> Z.of_nat (length (chunks k l)) = nlines k n.
Proof.
  intros Hk. induction n as [n IH] using lt_wf_ind. intros l Hl.
  destruct l as [|a l'] eqn:El.
  - simpl in Hl. subst n. rewrite nlines0; auto.
  - rewrite chunks_cons by (auto; congruence). rewrite <- El in *.
    cbn [length]. destruct (le_lt_dec k n) as [H|H].
    + rewrite nlines_step by lia. rewrite Nat2Z.inj_succ.
      rewrite (IH (n - k)%nat); [lia| |rewrite skipn_length; lia].
      subst. lia.
    + rewrite skipn_all2 by lia. rewrite chunks_nil.
      rewrite nlines_short; [reflexivity|]. subst. simpl in *. lia.
Qed.

Section ZipProofs.
  Context {A : Type}.
  Variable rd : M A.
  Variable isdef : A -> bool.
  Variable pe : A -> text.
  Variable w k : nat.
  Variables mat mf mt : Z.
  Variable dflt : A.
  Hypothesis Hk : (0 < k)%nat.
  Hypothesis Hdef : reads rd (blanks w) dflt 0.
  Hypothesis Hisdef : isdef dflt = true.
  Hypothesis Ht : oktail mat mf mt.

  Lemma reads_n l : Forall (fun x => reads rd (pe x) x 0) l ->
    reads (rd_n rd (length l)) (flat_map pe l) l 0.
  Proof.
    induction 1 as [|x l Hx Hl IH]; simpl; [apply reads_ret|].
    eapply reads_eq; [|reflexivity|reflexivity|].
    - eapply reads_bind; [exact Hx|]. apply reads_bind_ret with (f := cons x). exact IH.
    - reflexivity.
  Qed.

  Lemma reads_leftover n : reads (rd_leftover rd isdef n) (blanks (w * n)) tt 0.
  Proof.
    induction n as [|n IH]; cbn [rd_leftover].
    - rewrite Nat.mul_0_r. apply reads_ret.
    - rewrite Nat.mul_succ_r, Nat.add_comm. unfold blanks. rewrite repeat_app.
      eapply reads_eq; [|reflexivity|reflexivity|].
      + eapply reads_bind; [exact Hdef|].
        eapply reads_require_bind; [exact Hisdef|]. exact IH.
      + lia.
  Qed.

  Lemma reads_zline c : Forall (fun x => reads rd (pe x) x 0) c -> length c = k ->
    reads (rd_zline rd k mat mf mt) (pr_zline pe w k mat mf mt c) c 1.
  Proof.
    intros Hc Hl. unfold rd_zline, pr_zline.
    rewrite Hl, Nat.sub_diag, Nat.mul_0_r. change (pr_col 0) with (@nil ascii).
    rewrite app_nil_l. eapply reads_eq; [|reflexivity|reflexivity|].
    - eapply reads_bind; [rewrite <- Hl; now apply reads_n|].
      eapply reads_bind_r; [now apply reads_verify|]. rret.
    - lia.
  Qed.

  Lemma reads_zpartial c : Forall (fun x => reads rd (pe x) x 0) c -> (length c <= k)%nat ->
    reads (rd_zpartial rd isdef k mat mf mt (length c)) (pr_zline pe w k mat mf mt c) c 1.
  Proof.
    intros Hc Hl. unfold rd_zpartial, pr_zline.
    eapply reads_eq; [|reflexivity|reflexivity|].
    - eapply reads_bind; [now apply reads_n|].
      eapply reads_bind; [apply reads_leftover|].
      eapply reads_bind_r; [now apply reads_verify|]. rret.
    - lia.
  Qed.

  Lemma reads_unzip_aux : forall q l,
    Forall (fun x => reads rd (pe x) x 0) l -> (length l / k = q)%nat ->
    reads (unzip rd isdef k mat mf mt (length l)) (pr_zip pe w k mat mf mt l) l
          (nlines k (length l)).
  Proof.
    induction q as [|q IH]; intros l Hl Hq.
    - assert (Hlt : (length l < k)%nat).
      { apply Nat.div_small_iff in Hq; lia. }
      unfold unzip. rewrite Hq. cbn [rd_zlines].
      rewrite Nat.mod_small by auto.
      destruct l as [|a l'] eqn:El.
      + change (pr_zip pe w k mat mf mt []) with (@nil ascii).
        eapply reads_eq; [|reflexivity|reflexivity|].
        * eapply reads_bind0; [apply reads_ret|]. simpl. rret.
        * simpl. rewrite nlines0; lia.
      + rewrite <- El in *. assert (Hne : l <> []) by congruence.
        assert (Hlen : (length l <> 0)%nat) by (destruct l; simpl; congruence).
        unfold pr_zip. rewrite chunks_cons by auto.
        rewrite (skipn_all2 l) by lia. rewrite (firstn_all2 l) by lia.
        change (chunks k []) with (@nil (list A)).
        cbn [flat_map]. rewrite app_nil_r.
        eapply reads_eq; [|reflexivity|reflexivity|].
        * eapply reads_bind0; [apply reads_ret|].
          replace (length l =? 0)%nat with false by lia.
          apply reads_bind_ret with (f := fun ys => [] ++ ys).
          apply reads_zpartial; auto. lia.
        * rewrite nlines_short by lia. lia.
    - assert (Hge : (k <= length l)%nat).
      { destruct (le_lt_dec k (length l)); auto.
        rewrite Nat.div_small in Hq by auto. discriminate. }
      assert (Hne : l <> []) by (destruct l; simpl in *; [lia|congruence]).
      unfold pr_zip. rewrite chunks_cons by auto. cbn [flat_map].
      assert (Hs : length (skipn k l) = (length l - k)%nat) by apply skipn_length.
      assert (Hdiv : (length l / k = S (length (skipn k l) / k))%nat).
      { rewrite Hs. replace (length l) with (length l - k + 1 * k)%nat at 1 by lia.
        rewrite Nat.div_add by lia. lia. }
      assert (Hmod : (length l mod k = length (skipn k l) mod k)%nat).
      { rewrite Hs. replace (length l) with (length l - k + 1 * k)%nat at 1 by lia.
        rewrite Nat.mod_add by lia. reflexivity. }
      assert (IH' := IH (skipn k l)).
      assert (Hsk : Forall (fun x => reads rd (pe x) x 0) (skipn k l)).
      { rewrite <- (firstn_skipn k l) in Hl. apply Forall_app in Hl. tauto. }
      assert (Hfi : Forall (fun x => reads rd (pe x) x 0) (firstn k l)).
      { rewrite <- (firstn_skipn k l) in Hl. apply Forall_app in Hl. tauto. }
      specialize (IH' Hsk ltac:(lia)).
      intros r ln. specialize (IH' r (ln + 1)).
      assert (Hz := reads_zline (firstn k l) Hfi ltac:(rewrite firstn_length; lia)).
      unfold unzip in IH' |- *. rewrite Hdiv, Hmod. cbn [rd_zlines].
      unfold bind at 1 2. rewrite <- app_assoc, Hz. unfold bind at 1.
      unfold bind at 1 in IH'. unfold pr_zip in IH'.
      destruct (rd_zlines _ _ _ _ _ _ _) as [xs s|e s|]; try discriminate.
      unfold ret at 1. rewrite nlines_step by lia. rewrite <- Hs.
      destruct (length (skipn k l) mod k =? 0)%nat.
      + unfold ret in *. inversion IH'; subst.
        rewrite firstn_skipn. f_equal. f_equal. lia.
      + unfold bind in *. destruct (rd_zpartial _ _ _ _ _ _ _ _) as [ys s'|e s'|]; try discriminate.
        unfold ret in *. inversion IH' as [[E1 E2]]; subst.
        rewrite <- app_assoc, E1. rewrite firstn_skipn. f_equal. f_equal. lia.
  Qed.

  Lemma reads_unzip l :
    Forall (fun x => reads rd (pe x) x 0) l ->
    reads (unzip rd isdef k mat mf mt (length l)) (pr_zip pe w k mat mf mt l) l
          (nlines k (length l)).
  Proof. intros H. now apply reads_unzip_aux with (q := (length l / k)%nat). Qed.
End ZipProofs.
