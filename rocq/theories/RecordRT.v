(** RecordRT.v -- round trips of LIST, TAB1, TAB2, INTG, structure divisions. *)
From Coq Require Import ZifyBool ZifyNat.
From Verif Require Import Base Disco DiscoProofs Records RecordProofs.
Ltac Zify.zify_post_hook ::= Z.div_mod_to_equations.
Open Scope Z_scope.

Definition oklist (l : listr) : Prop :=
  okr (lC1 l) /\ okr (lC2 l) /\ fits 11 (lL1 l) = true /\ fits 11 (lL2 l) = true
  /\ fits 11 (lN2 l) = true /\ fits 11 (npl l) = true /\ Forall okr (lB l).

Lemma reads_list l mat mf mt :
  oklist l -> oktail mat mf mt ->
  reads (rd_list mat mf mt) (pr_list l mat mf mt) l (nc_list l).
Proof.
  intros (H1 & H2 & H3 & H4 & H5 & H6 & H7) Ht. unfold rd_list, pr_list, pr_cont.
  apply reads_on_err.
  eapply reads_eq; [|reflexivity|reflexivity|].
  - eapply reads_bind.
    { apply reads_on_err. eapply reads_bind.
      - apply reads_base. unfold okcont. cbn. tauto.
      - eapply reads_bind_r; [now apply reads_verify|].
        eapply reads_require_bind; [|apply reads_ret]. cbn [n1]. unfold npl. lia. }
    cbn [n1 n2 c1 c2 l1 l2]. unfold npl. rewrite Nat2Z.id.
    eapply reads_bind_r.
    { apply reads_unzip with (dflt := rzero); [lia|apply reads_real_blank|reflexivity|assumption|].
      eapply Forall_impl; [|exact H7]. intros x Hx. now apply reads_real. }
    destruct l; apply reads_ret.
  - unfold nc_list, nlines, npl. lia.
Qed.

(** ** TAB2 *)
Definition oktab2 (t : tab2) : Prop :=
  okr (tC1 t) /\ okr (tC2 t) /\ fits 11 (tL1 t) = true /\ fits 11 (tL2 t) = true
  /\ fits 11 (tnr t) = true /\ 0 <= tn2 t
  /\ tbnd t <> [] /\ length (tbnd t) = length (tint t)
  /\ is_sorted Z.ltb (tbnd t) = true
  /\ Forall (fun z => fits 11 z = true) (tbnd t)
  /\ Forall (fun z => fits 11 z = true) (tint t).

Lemma map_fst_combine {A B} (a : list A) (b : list B) :
  length a = length b -> map fst (combine a b) = a.
Proof.
  revert b. induction a as [|x a IH]; intros [|y b] H; simpl in *; try discriminate; auto.
  f_equal. apply IH. lia.
Qed.
Lemma map_snd_combine {A B} (a : list A) (b : list B) :
  length a = length b -> map snd (combine a b) = b.
Proof.
  revert b. induction a as [|x a IH]; intros [|y b] H; simpl in *; try discriminate; auto.
  f_equal. apply IH. lia.
Qed.
Lemma combine_len {A B} (a : list A) (b : list B) :
  length a = length b -> length (combine a b) = length a.
Proof. intros H. rewrite combine_length. lia. Qed.

Lemma Forall_combine {A B} (P : A -> Prop) (Q : B -> Prop) a b :
  Forall P a -> Forall Q b -> Forall (fun p => P (fst p) /\ Q (snd p)) (combine a b).
Proof.
  intros H. revert b. induction H as [|x a Hx Ha IH]; intros b Hb; simpl; auto.
  destruct Hb; constructor; simpl; auto.
Qed.

Lemma reads_pair_int p : fits 11 (fst p) = true -> fits 11 (snd p) = true ->
  reads rd_pair_int (pr_pair_int p) p 0.
Proof.
  intros H1 H2. unfold rd_pair_int, pr_pair_int.
  eapply reads_eq; [|reflexivity|reflexivity|].
  - eapply reads_bind; [now apply reads_int|].
    eapply reads_bind_r; [now apply reads_int|]. destruct p. apply reads_ret.
  - lia.
Qed.
Lemma reads_pair_int_blank : reads rd_pair_int (blanks 22) (0, 0) 0.
Proof.
  unfold rd_pair_int. change (blanks 22) with (blanks 11 ++ blanks 11).
  eapply reads_eq; [|reflexivity|reflexivity|].
  - eapply reads_bind; [apply reads_int_blank|].
    eapply reads_bind_r; [apply reads_int_blank|]. apply reads_ret.
  - lia.
Qed.
Lemma reads_pair_real p : okr (fst p) -> okr (snd p) ->
  reads rd_pair_real (pr_pair_real p) p 0.
Proof.
  intros H1 H2. unfold rd_pair_real, pr_pair_real.
  eapply reads_eq; [|reflexivity|reflexivity|].
  - eapply reads_bind; [now apply reads_real|].
    eapply reads_bind_r; [now apply reads_real|]. destruct p. apply reads_ret.
  - lia.
Qed.
Lemma reads_pair_real_blank : reads rd_pair_real (blanks 22) (rzero, rzero) 0.
Proof.
  unfold rd_pair_real. change (blanks 22) with (blanks 11 ++ blanks 11).
  eapply reads_eq; [|reflexivity|reflexivity|].
  - eapply reads_bind; [apply reads_real_blank|].
    eapply reads_bind_r; [apply reads_real_blank|]. apply reads_ret.
  - lia.
Qed.

Lemma last_In {A} (l : list A) d : l <> [] -> In (last l d) l.
Proof.
  intros H. destruct (exists_last H) as (l' & a & ->). rewrite last_last.
  apply in_app_iff. right. now left.
Qed.

Lemma make_tab2_ok C1 C2 L1 L2 bnd int :
  bnd <> [] -> length bnd = length int -> is_sorted Z.ltb bnd = true ->
  make_tab2 C1 C2 L1 L2 bnd int = Val (mktab2 C1 C2 L1 L2 bnd int).
Proof.
  intros H1 H2 H3. unfold make_tab2. destruct bnd as [|b bnd]; [congruence|].
  rewrite H2, Nat.eqb_refl, H3. reflexivity.
Qed.

Lemma reads_ibase t mat mf mt :
  oktab2 t -> oktail mat mf mt ->
  reads (rd_ibase mat mf mt) (pr_tab2 t mat mf mt) t (nc_tab2 t).
Proof.
  intros (H1 & H2 & H3 & H4 & H5 & H6 & H7 & H8 & H9 & H10 & H11) Ht.
  unfold rd_ibase, pr_tab2, pr_cont. rewrite <- app_assoc.
  assert (Hn : fits 11 (tn2 t) = true).
  { rewrite Forall_forall in H10. apply H10. now apply last_In. }
  assert (Hnr : 1 <= tnr t).
  { unfold tnr. destruct (tbnd t); [congruence|]. simpl. lia. }
  eapply reads_eq; [|reflexivity|reflexivity|].
  - eapply reads_bind; [apply reads_base; unfold okcont; cbn; tauto|].
    eapply reads_bind; [now apply reads_verify|].
    cbn [n1 n2 c1 c2 l1 l2].
    eapply reads_require_bind; [lia|].
    replace (tn2 t <? 0) with false by lia.
    eapply reads_bind0; [apply reads_ret|].
    eapply reads_bind_r.
    { apply reads_on_err.
      eapply reads_bind_r.
      - unfold tnr. rewrite Nat2Z.id. rewrite <- (combine_len _ _ H8).
        apply reads_unzip with (dflt := (0, 0)); [lia|apply reads_pair_int_blank|reflexivity|assumption|].
        eapply Forall_impl; [|apply (Forall_combine _ _ _ _ H10 H11)].
        intros p [Ha Hb]. now apply reads_pair_int.
      - eapply reads_require_bind; [|apply reads_ret].
        now rewrite map_fst_combine. }
    rewrite map_fst_combine, map_snd_combine by auto.
    rewrite make_tab2_ok by auto. cbn [lift].
    eapply reads_bind0; [apply reads_ret|].
    unfold tn2 at 2. cbn [tbnd].
    change (last (tbnd t) 0) with (tn2 t). rewrite Z.eqb_refl.
    eapply reads_bind0; [apply reads_ret|]. destruct t. apply reads_ret.
  - rewrite (combine_len _ _ H8). unfold nc_tab2, nlines, tnr. lia.
Qed.

Lemma reads_tab2 t mat mf mt :
  oktab2 t -> oktail mat mf mt ->
  reads (rd_tab2 mat mf mt) (pr_tab2 t mat mf mt) t (nc_tab2 t).
Proof. intros. apply reads_on_err. now apply reads_ibase. Qed.

(** ** TAB1 *)
Definition oktab1 (t : tab1) : Prop :=
  oktab2 (tbase t) /\ length (tx t) = length (ty t) /\ is_sorted rlt (tx t) = true
  /\ tn2 (tbase t) = tnp t /\ Forall okr (tx t) /\ Forall okr (ty t).

Lemma reads_tab1 t mat mf mt :
  oktab1 t -> oktail mat mf mt ->
  reads (rd_tab1 mat mf mt) (pr_tab1 t mat mf mt) t (nc_tab1 t).
Proof.
  intros (H1 & H2 & H3 & H4 & H5 & H6) Ht. unfold rd_tab1, pr_tab1.
  apply reads_on_err.
  eapply reads_eq; [|reflexivity|reflexivity|].
  - eapply reads_bind; [now apply reads_ibase|].
    eapply reads_bind_r.
    { apply reads_on_err. eapply reads_bind_r.
      - rewrite H4. unfold tnp. rewrite Nat2Z.id. rewrite <- (combine_len _ _ H2).
        apply reads_unzip with (dflt := (rzero, rzero)); [lia|apply reads_pair_real_blank|reflexivity|assumption|].
        eapply Forall_impl; [|apply (Forall_combine _ _ _ _ H5 H6)].
        intros p [Ha Hb]. now apply reads_pair_real.
      - eapply reads_require_bind; [|apply reads_ret].
        now rewrite map_fst_combine. }
    rewrite map_fst_combine, map_snd_combine by auto. destruct t. apply reads_ret.
  - rewrite (combine_len _ _ H2). unfold nc_tab1, nlines, tnp. lia.
Qed.

(** ** sequences of components *)
Lemma reads_rd_n {C} (rdc : M C) (prc : C -> text) (ncc : C -> Z) l :
  Forall (fun c => reads rdc (prc c) c (ncc c)) l ->
  reads (rd_n rdc (length l)) (flat_map prc l) l (zsum (map ncc l)).
Proof.
  induction 1 as [|x l Hx Hl IH]; simpl; [apply reads_ret|].
  eapply reads_eq; [|reflexivity|reflexivity|].
  - eapply reads_bind; [exact Hx|]. apply reads_bind_ret with (f := cons x). exact IH.
  - reflexivity.
Qed.

Lemma i32_small z : 0 <= z < 2147483648 -> i32 z = z.
Proof.
  intros H. unfold i32. rewrite Z.mod_small by lia.
  destruct (Z.ltb_spec z 2147483648); lia.
Qed.
Lemma u32_small z : 0 <= z < 4294967296 -> u32 z = z.
Proof. intros H. unfold u32. now rewrite Z.mod_small. Qed.

Lemma reads_sequence {C} (rdc : Z -> Z -> Z -> M C) (prc : C -> Z -> Z -> Z -> text)
      (ncc : C -> Z) l mat mf mt :
  Forall (fun c => reads (rdc mat mf mt) (prc c mat mf mt) c (ncc c)) l ->
  Z.of_nat (length l) < 2147483648 ->
  reads (rd_sequence rdc mat mf mt (Z.of_nat (length l)))
        (flat_map (fun c => prc c mat mf mt) l) l (zsum (map ncc l)).
Proof.
  intros H Hl. unfold rd_sequence. rewrite i32_small by lia.
  eapply reads_require_bind; [lia|]. rewrite Nat2Z.id. now apply reads_rd_n.
Qed.

Definition okiseq {C} (okc : C -> Prop) (validate : list C -> bool) (q : iseq C) : Prop :=
  oktab2 (istab q) /\ tn2 (istab q) = Z.of_nat (length (isrec q))
  /\ 0 < Z.of_nat (length (isrec q)) < 2147483648
  /\ validate (isrec q) = true /\ Forall okc (isrec q).

Lemma reads_iseq {C} (okc : C -> Prop) validate (rdc : Z -> Z -> Z -> M C) prc ncc q mat mf mt :
  (forall c, okc c -> reads (rdc mat mf mt) (prc c mat mf mt) c (ncc c)) ->
  okiseq okc validate q -> oktail mat mf mt ->
  reads (rd_iseq validate rdc mat mf mt) (pr_iseq prc q mat mf mt) q (nc_iseq ncc q).
Proof.
  intros Hc (H1 & H2 & H3 & H4 & H5) Ht. unfold rd_iseq, pr_iseq.
  eapply reads_eq; [|reflexivity|reflexivity|].
  - eapply reads_bind; [now apply reads_tab2|]. rewrite H2.
    eapply reads_bind_r.
    { apply reads_sequence with (prc := prc) (ncc := ncc); [|lia].
      eapply Forall_impl; [|exact H5]. auto. }
    unfold make_iseq. rewrite H2, u32_small by lia.
    replace (Z.of_nat (length (isrec q)) =? 0) with false by lia.
    rewrite Z.eqb_refl, H4. cbn [negb]. destruct q. apply reads_ret.
  - unfold nc_iseq. lia.
Qed.

(** ** INTG *)
Definition okintg (nd cap : nat) (g : intg) : Prop :=
  0 <= gi g < 4294967296 /\ 0 <= gj g < 4294967296
  /\ fits 5 (gi g) = true /\ fits 5 (gj g) = true
  /\ (length (gk g) <= cap)%nat /\ Forall (fun z => fits (nd + 1) z = true) (gk g).

Lemma reads_advance n t : length t = n -> reads (advance n) t tt 0.
Proof.
  intros <- r ln. unfold advance. simpl buf. rewrite app_length.
  replace (length t <=? length t + length r)%nat with true by lia.
  rewrite skipn_app, skipn_all, Nat.sub_diag. simpl. now rewrite Z.add_0_r.
Qed.

Lemma strip0_app_zeros l n : strip0 (l ++ repeat 0 n) = strip0 l.
Proof.
  induction l as [|a l IH]; simpl.
  - induction n as [|n IHn]; simpl; auto. now rewrite IHn.
  - now rewrite IH.
Qed.

Lemma strip0_length l : (length (strip0 l) <= length l)%nat.
Proof.
  induction l as [|a l IH]; simpl; auto.
  destruct (strip0 l) eqn:E; [destruct (a =? 0); simpl; lia|]. simpl in *. lia.
Qed.

Lemma reads_int_blanks w n :
  reads (rd_n (rd_int w) n) (blanks (w * n)) (repeat 0 n) 0.
Proof.
  induction n as [|n IH]; cbn [rd_n repeat].
  - rewrite Nat.mul_0_r. apply reads_ret.
  - rewrite Nat.mul_succ_r, Nat.add_comm. unfold blanks. rewrite repeat_app.
    eapply reads_eq; [|reflexivity|reflexivity|].
    + eapply reads_bind; [apply reads_int_blank|].
      apply (reads_bind_ret _ (cons 0)). exact IH.
    + lia.
Qed.

Lemma rd_n_app {A} (rd : M A) n m s :
  rd_n rd (n + m) s = bind (rd_n rd n) (fun a => bind (rd_n rd m) (fun b => ret (a ++ b))) s.
Proof.
  revert s. induction n as [|n IH]; intros s; cbn [rd_n Nat.add].
  - unfold bind, ret. simpl. destruct (rd_n rd m s); auto.
  - unfold bind at 1 3 4. destruct (rd s) as [x s1|e s1|]; [|auto|auto].
    unfold bind at 1. rewrite IH. unfold bind, ret.
    destruct (rd_n rd n s1) as [xs s2|e s2|]; [|auto|auto].
    destruct (rd_n rd m s2) as [ys s3|e s3|]; auto.
Qed.

Lemma blanks_app n m : blanks (n + m) = blanks n ++ blanks m.
Proof. apply repeat_app. Qed.

Lemma reads_intg nd cap g mat mf mt :
  okintg nd cap g -> oktail mat mf mt ->
  reads (rd_intg nd cap mat mf mt) (pr_intg nd cap g mat mf mt)
        (mkintg (gi g) (gj g) (strip0 (gk g))) 1.
Proof.
  intros (H1 & H2 & H3 & H4 & H5 & H6) Ht. unfold rd_intg, pr_intg. apply reads_on_err.
  assert (E : pr_col (intg_gap nd) ++ pr_col ((nd + 1) * (cap - length (gk g)))
              ++ pr_tail mat mf mt
              = blanks ((nd + 1) * (cap - length (gk g))) ++ blanks (intg_gap nd)
                ++ pr_tail mat mf mt).
  { unfold pr_col. rewrite !app_assoc, <- !blanks_app.
    now rewrite (Nat.add_comm (intg_gap nd)). }
  rewrite E. rewrite (app_assoc (flat_map _ _)).
  eapply reads_eq; [|reflexivity|reflexivity|].
  - eapply reads_bind; [now apply reads_int|].
    eapply reads_bind; [now apply reads_int|].
    eapply reads_bind; [apply reads_advance, pr_col_length|].
    eapply reads_bind.
    { instantiate (1 := 0 + 0). instantiate (1 := gk g ++ repeat 0 (cap - length (gk g))).
      intros r ln. replace cap with (length (gk g) + (cap - length (gk g)))%nat at 1 by lia.
      rewrite rd_n_app. revert r ln.
      eapply reads_bind; [apply reads_n|].
      - eapply Forall_impl; [|exact H6]. intros z Hz. now apply reads_int.
      - apply (reads_bind_ret _ (fun b => gk g ++ b)). apply reads_int_blanks. }
    eapply reads_bind; [apply reads_advance, blanks_length|].
    rewrite strip0_app_zeros. unfold make_intg.
    assert (Hs := strip0_length (gk g)).
    replace (cap <? length (strip0 (gk g)))%nat with false by lia.
    rewrite !u32_small by auto. cbn [lift].
    eapply reads_bind0; [apply reads_ret|].
    eapply reads_bind_r; [now apply reads_verify|]. apply reads_ret.
  - lia.
Qed.

(** ** structure divisions *)
Lemma okr_zero : okr rzero.
Proof. split; vm_compute; reflexivity. Qed.
Lemma fits0' : fits 11 0 = true. Proof. reflexivity. Qed.
Lemma okcont_zero : okcont zero_cont.
Proof. repeat split; try reflexivity. Qed.

Definition oksdiv (d : sdiv) : Prop :=
  okcont (sbase d) /\ oktail (smat d) (smf d) (smt d)
  /\ -1 <= smat d /\ 0 <= smf d /\ 0 <= smt d.

(** the HEAD form *)
Lemma reads_sdiv_full d :
  oksdiv d ->
  reads rd_sdiv (pr_base (sbase d) ++ pr_tail (smat d) (smf d) (smt d)) d 1.
Proof.
  intros (H1 & H2 & H3 & H4 & H5). unfold rd_sdiv. apply reads_on_err.
  eapply reads_eq; [|reflexivity|reflexivity|].
  - eapply reads_bind; [now apply reads_base|].
    eapply reads_bind_r; [now apply reads_tail|].
    cbv beta iota.
    eapply reads_require_bind; [lia|]. eapply reads_require_bind; [lia|].
    eapply reads_require_bind; [lia|]. destruct d. apply reads_ret.
  - lia.
Qed.

Lemma reads_base_blank : reads rd_base (blanks 66) zero_cont 0.
Proof.
  unfold rd_base.
  change (blanks 66) with
    (blanks 11 ++ blanks 11 ++ blanks 11 ++ blanks 11 ++ blanks 11 ++ blanks 11).
  eapply reads_eq; [|reflexivity|reflexivity|].
  - eapply reads_bind; [apply reads_real_blank|].
    eapply reads_bind; [apply reads_real_blank|].
    eapply reads_bind; [apply reads_int_blank|].
    eapply reads_bind; [apply reads_int_blank|].
    eapply reads_bind; [apply reads_int_blank|].
    eapply reads_bind_r; [apply reads_int_blank|]. apply reads_ret.
  - lia.
Qed.

Lemma pr_int_split w v z : fits v z = true -> pr_int (w + v) z = blanks w ++ pr_int v z.
Proof.
  intros H. unfold pr_int, rj. apply Nat.leb_le in H.
  replace (w + v - length (show z))%nat with (w + (v - length (show z)))%nat by lia.
  now rewrite blanks_app, app_assoc.
Qed.

(** the end-record form: blanks and the tail *)
Lemma pr_sdiv_end d :
  fits 4 (smat d) = true -> is_head d = false ->
  pr_sdiv d = blanks 66 ++ pr_tail (smat d) (smf d) (smt d).
Proof.
  intros H K. unfold pr_sdiv. rewrite K. change 70%nat with (66 + 4)%nat.
  rewrite pr_int_split by auto. unfold pr_tail. now rewrite <- app_assoc.
Qed.

Lemma reads_sdiv_end mat mf mt :
  oktail mat mf mt -> -1 <= mat -> 0 <= mf -> 0 <= mt ->
  reads rd_sdiv (blanks 66 ++ pr_tail mat mf mt) (mksdiv zero_cont mat mf mt) 1.
Proof.
  intros H2 H3 H4 H5. unfold rd_sdiv. apply reads_on_err.
  eapply reads_eq; [|reflexivity|reflexivity|].
  - eapply reads_bind; [apply reads_base_blank|].
    eapply reads_bind_r; [now apply reads_tail|].
    cbv beta iota.
    eapply reads_require_bind; [lia|]. eapply reads_require_bind; [lia|].
    eapply reads_require_bind; [lia|]. apply reads_ret.
  - lia.
Qed.

(** every structure division whose base is zero (SEND, FEND, MEND, TEND) or that
    is a HEAD reads back as itself *)
Lemma reads_sdiv d :
  oksdiv d -> (is_head d = true \/ sbase d = zero_cont) ->
  reads rd_sdiv (pr_sdiv d) d 1.
Proof.
  intros H K. destruct (is_head d) eqn:E.
  - unfold pr_sdiv. rewrite E. now apply reads_sdiv_full.
  - destruct K as [K|K]; [discriminate|].
    destruct H as (H1 & H2 & H3 & H4 & H5).
    rewrite pr_sdiv_end by (auto; apply H2).
    destruct d as [b m f t]. simpl in *. subst b. now apply reads_sdiv_end.
Qed.

Lemma reads_skip l mat mf mt :
  length l = 66%nat -> noLF l -> oktail mat mf mt ->
  reads rd_skip (l ++ pr_tail mat mf mt) (mat, mf, mt) 1.
Proof.
  intros H1 H2 H3. unfold rd_skip. eapply reads_eq; [|reflexivity|reflexivity|].
  - eapply reads_bind; [now apply reads_chars|]. now apply reads_tail.
  - lia.
Qed.
