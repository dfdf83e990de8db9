(** Normal.v -- from the range conditions of Spec.v to the internal ones, and
    printing of records with arbitrary doubles. *)
From Coq Require Import QArith Lqa ZifyBool.
From Verif Require Import Base Disco DiscoProofs Records RecordProofs RecordRT Layout
  RealRound RealProofs Spec.
Open Scope Z_scope.

Lemma in_cols_fits w z : (2 <= w)%nat -> in_cols w z -> fits w z = true.
Proof.
  intros Hw [H1 H2]. destruct (Z.lt_ge_cases z 0).
  - apply fits_neg; lia.
  - apply fits_nonneg; lia.
Qed.

Lemma good_oktail mat mf mt : good_tail mat mf mt -> oktail mat mf mt.
Proof. intros (H1 & H2 & H3). repeat split; apply in_cols_fits; auto; lia. Qed.

Lemma bp_300_lo : (bp 2 (-1022) <= bp 10 (-300))%Q.
Proof. apply Qle_bool_iff. vm_compute. reflexivity. Qed.
Lemma bp_300_hi : (bp 10 300 <= bp 2 1023)%Q.
Proof. apply Qle_bool_iff. vm_compute. reflexivity. Qed.

Lemma endf_okr x : endf_real x -> okr x.
Proof.
  intros [[H1 H2]|(D & E & HD & HE & H)]; [now apply renorm_zero|].
  assert (Z1 := zone_range E).
  destruct (dec_exp (zone E) D E ltac:(lia) HD) as [L1 L2]. fold (decQ E D) in L1, L2.
  assert (B1 := bp_300_lo). assert (B2 := bp_300_hi).
  assert (C1 : (bp 10 (-300) <= bp 10 E)%Q) by (apply bp_le; lia).
  assert (C2 : (bp 10 (E + 1) <= bp 10 300)%Q) by (apply bp_le; lia).
  destruct (dec_survives (rneg x) E D HD ltac:(lia) ltac:(lra) ltac:(lra)) as (y & Y1 & Y2 & Y3 & _).
  congruence.
Qed.

Lemma endf_okcont c : endf_cont c -> okcont c.
Proof.
  intros (H1 & H2 & H3 & H4 & H5 & H6). unfold okcont.
  repeat split; try (apply endf_okr; auto); try (apply in_cols_fits; auto; lia).
Qed.

(** what is read back when a double that is not an ENDF number was printed *)
Definition moderate_cont (c : cont) : Prop := moderate (c1 c) /\ moderate (c2 c) /\ ints_fit c.
Definition renorm_cont (c : cont) : cont :=
  mkcont (renorm (c1 c)) (renorm (c2 c)) (l1 c) (l2 c) (n1 c) (n2 c).

Lemma moderate_prr x : moderate x -> prr x.
Proof.
  intros H. split; [now apply write_length|]. apply write_real_noLF. now apply moderate_man.
Qed.

Lemma write_renorm x : moderate x -> write_real (renorm x) = write_real x.
Proof. apply renorm_ok. Qed.
Lemma renorm_okr x : moderate x -> okr (renorm x).
Proof. apply renorm_ok. Qed.

Lemma pr_base_renorm c : moderate_cont c -> pr_base (renorm_cont c) = pr_base c.
Proof.
  intros (H1 & H2 & _). unfold pr_base, renorm_cont. cbn [c1 c2 l1 l2 n1 n2].
  now rewrite !write_renorm.
Qed.
Lemma renorm_okcont c : moderate_cont c -> okcont (renorm_cont c).
Proof.
  intros (H1 & H2 & H3 & H4 & H5 & H6). unfold okcont, renorm_cont. cbn [c1 c2 l1 l2 n1 n2].
  repeat split; try (apply renorm_okr; auto); try (apply in_cols_fits; auto; lia).
Qed.

(** LIST *)
Definition renorm_list (l : listr) : listr :=
  mklist (renorm (lC1 l)) (renorm (lC2 l)) (lL1 l) (lL2 l) (lN2 l) (map renorm (lB l)).

Lemma flat_map_map {A B C} (f : B -> list C) (g : A -> B) l :
  flat_map f (map g l) = flat_map (fun x => f (g x)) l.
Proof. induction l; simpl; congruence. Qed.

Lemma chunks_map {A B} (g : A -> B) k (l : list A) : chunks k (map g l) = map (map g) (chunks k l).
Proof.
  unfold chunks. rewrite map_length. generalize (length l) as f. intros f. revert l.
  induction f as [|f IH]; intros l; [reflexivity|].
  destruct l as [|a l]; [reflexivity|].
  cbn [map chunk_aux]. rewrite <- (map_cons g a l). rewrite firstn_map, skipn_map.
  cbn [map]. f_equal. apply IH.
Qed.

Lemma flat_map_ext_Forall {A B} (f g : A -> list B) l :
  Forall (fun x => f x = g x) l -> flat_map f l = flat_map g l.
Proof. induction 1; simpl; congruence. Qed.

Lemma pr_zip_map {A} (pe : A -> text) (g : A -> A) w k mat mf mt l : (0 < k)%nat ->
  Forall (fun x => pe (g x) = pe x) l ->
  pr_zip pe w k mat mf mt (map g l) = pr_zip pe w k mat mf mt l.
Proof.
  intros Hk. unfold pr_zip. rewrite chunks_map, flat_map_map.
  remember (length l) as n eqn:Hn. revert l Hn.
  induction n as [n IH] using lt_wf_ind. intros l Hn Hl.
  destruct l as [|a l'] eqn:El; [reflexivity|]. rewrite <- El in *.
  assert (Hne : l <> []) by congruence. rewrite chunks_cons by auto. cbn [flat_map].
  assert (Hsp := Hl). rewrite <- (firstn_skipn k l) in Hsp. apply Forall_app in Hsp.
  destruct Hsp as [F1 F2]. f_equal.
  - unfold pr_zline. rewrite flat_map_map, map_length. f_equal. now apply flat_map_ext_Forall.
  - apply (IH (length (skipn k l))); auto. rewrite skipn_length.
    assert (length l <> 0)%nat by (destruct l; simpl; congruence). lia.
Qed.

(** a LIST whose integer fields fit and whose reals are moderate *)
Definition moderate_list (l : listr) : Prop :=
  moderate (lC1 l) /\ moderate (lC2 l) /\ in_cols 11 (lL1 l) /\ in_cols 11 (lL2 l)
  /\ in_cols 11 (lN2 l) /\ in_cols 11 (Z.of_nat (length (lB l))) /\ Forall moderate (lB l).

Lemma Forall_map_renorm l : Forall moderate l -> Forall okr (map renorm l).
Proof. intros H. apply Forall_map. eapply Forall_impl; [|exact H]. exact renorm_okr. Qed.

Lemma renorm_list_ok l mat mf mt : moderate_list l ->
  oklist (renorm_list l) /\ pr_list (renorm_list l) mat mf mt = pr_list l mat mf mt
  /\ nc_list (renorm_list l) = nc_list l.
Proof.
  intros (H1 & H2 & H3 & H4 & H5 & H6 & H7). split; [|split].
  - unfold oklist, renorm_list, npl. cbn [lC1 lC2 lL1 lL2 lN2 lB]. rewrite map_length.
    repeat split; try (apply renorm_okr; auto); try (apply in_cols_fits; auto; lia).
    now apply Forall_map_renorm.
  - unfold pr_list, renorm_list, npl, pr_cont, pr_base. cbn [lC1 lC2 lL1 lL2 lN2 lB c1 c2 l1 l2 n1 n2].
    rewrite map_length, !write_renorm by auto. f_equal.
    apply pr_zip_map; [lia|]. eapply Forall_impl; [|exact H7]. exact write_renorm.
  - unfold nc_list, npl, renorm_list. cbn [lB]. now rewrite map_length.
Qed.

(** TAB2 and TAB1 *)
Definition renorm_tab2 (t : tab2) : tab2 :=
  mktab2 (renorm (tC1 t)) (renorm (tC2 t)) (tL1 t) (tL2 t) (tbnd t) (tint t).
Definition renorm_tab1 (t : tab1) : tab1 :=
  mktab1 (renorm_tab2 (tbase t)) (map renorm (tx t)) (map renorm (ty t)).

(** what the constructor accepts, plus the column widths *)
Definition moderate_tab2 (t : tab2) : Prop :=
  moderate (tC1 t) /\ moderate (tC2 t) /\ in_cols 11 (tL1 t) /\ in_cols 11 (tL2 t)
  /\ in_cols 11 (Z.of_nat (length (tbnd t))) /\ 0 <= last (tbnd t) 0
  /\ tbnd t <> [] /\ length (tbnd t) = length (tint t)
  /\ ascending Z.le (tbnd t)
  /\ Forall (in_cols 11) (tbnd t) /\ Forall (in_cols 11) (tint t).
Definition moderate_tab1 (t : tab1) : Prop :=
  moderate_tab2 (tbase t) /\ length (tx t) = length (ty t) /\ ascending real_le (tx t)
  /\ last (tbnd (tbase t)) 0 = Z.of_nat (length (tx t))
  /\ Forall moderate (tx t) /\ Forall moderate (ty t).

Lemma sorted_Z l : is_sorted Z.ltb l = true <-> ascending Z.le l.
Proof.
  induction l as [|a [|b l] IH]; simpl; try tauto.
  rewrite andb_true_iff. rewrite <- IH. rewrite negb_true_iff, Z.ltb_ge. tauto.
Qed.
Lemma sorted_R l : is_sorted rlt l = true <-> ascending real_le l.
Proof.
  induction l as [|a [|b l] IH]; simpl; try tauto.
  rewrite andb_true_iff. rewrite <- IH. unfold rlt, real_le. rewrite negb_involutive, rle_spec. tauto.
Qed.
Lemma sorted_renorm l : Forall moderate l -> is_sorted rlt l = true -> is_sorted rlt (map renorm l) = true.
Proof.
  induction l as [|a [|b l] IH]; intros F H; auto.
  inversion F as [|? ? Ma F']; subst. inversion F' as [|? ? Mb F'']; subst.
  cbn [is_sorted map] in *. apply andb_true_iff in H. destruct H as [H1 H2].
  apply andb_true_iff. split; [|now apply IH].
  unfold rlt in *. rewrite negb_involutive in *. now apply renorm_mono.
Qed.

Lemma renorm_tab2_ok t mat mf mt : moderate_tab2 t ->
  oktab2 (renorm_tab2 t) /\ pr_tab2 (renorm_tab2 t) mat mf mt = pr_tab2 t mat mf mt
  /\ nc_tab2 (renorm_tab2 t) = nc_tab2 t.
Proof.
  intros (H1 & H2 & H3 & H4 & H5 & H6 & H7 & H8 & H9 & H10 & H11). split; [|split].
  - unfold oktab2, renorm_tab2, tnr, tn2. cbn [tC1 tC2 tL1 tL2 tbnd tint].
    repeat split; try (apply renorm_okr; auto); try (apply in_cols_fits; auto; lia); auto.
    + now apply sorted_Z.
    + eapply Forall_impl; [|exact H10]. intros; apply in_cols_fits; auto; lia.
    + eapply Forall_impl; [|exact H11]. intros; apply in_cols_fits; auto; lia.
  - unfold pr_tab2, renorm_tab2, tnr, tn2, pr_cont, pr_base.
    cbn [tC1 tC2 tL1 tL2 tbnd tint c1 c2 l1 l2 n1 n2]. now rewrite !write_renorm.
  - reflexivity.
Qed.

Lemma combine_map {A B C D} (f : A -> C) (g : B -> D) a b :
  combine (map f a) (map g b) = map (fun p => (f (fst p), g (snd p))) (combine a b).
Proof. revert b. induction a as [|x a IH]; intros [|y b]; simpl; auto. now rewrite IH. Qed.

Lemma renorm_tab1_ok t mat mf mt : moderate_tab1 t ->
  oktab1 (renorm_tab1 t) /\ pr_tab1 (renorm_tab1 t) mat mf mt = pr_tab1 t mat mf mt
  /\ nc_tab1 (renorm_tab1 t) = nc_tab1 t.
Proof.
  intros (H1 & H2 & H3 & H4 & H5 & H6).
  destruct (renorm_tab2_ok (tbase t) mat mf mt H1) as (K1 & K2 & K3). split; [|split].
  - unfold oktab1, renorm_tab1, tnp. cbn [tbase tx ty]. rewrite !map_length.
    repeat split; try apply K1; auto.
    + apply sorted_renorm; auto. now apply sorted_R.
    + now apply Forall_map_renorm.
    + now apply Forall_map_renorm.
  - unfold pr_tab1, renorm_tab1. cbn [tbase tx ty]. rewrite K2. f_equal.
    rewrite combine_map. apply pr_zip_map; [lia|].
    eapply Forall_impl; [|apply (Forall_combine _ _ _ _ H5 H6)].
    intros p [A B]. unfold pr_pair_real. cbn [fst snd]. now rewrite !write_renorm.
  - unfold nc_tab1, tnp, renorm_tab1. cbn [tbase tx]. now rewrite map_length, K3.
Qed.
