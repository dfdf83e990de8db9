(** PropRecords.v -- the properties of the record layer (C01-C17, C35, C41, C42).
    Vocabulary: Spec.v.  Every theorem is followed by a concrete instance. *)
From Coq Require Import QArith Lqa ZifyBool ZifyNat String.
From Verif Require Import Base Disco DiscoProofs Records RecordProofs RecordRT RecordSound Layout
  RealRound RealProofs Spec Normal LineFacts.
Open Scope Z_scope.
Open Scope list_scope.
Notation length := List.length.

(** ** C01 CONT *)
Theorem C01_cont_round_trip : forall c mat mf mt rest ln,
  endf_cont c -> good_tail mat mf mt ->
  rd_cont mat mf mt (mkst (pr_cont c mat mf mt ++ rest) ln) = Ok c (mkst rest (ln + 1)).
Proof. intros. apply reads_cont; [now apply endf_okcont|now apply good_oktail]. Qed.

(** for any doubles of moderate size: the rounded record comes back *)
Theorem C01_cont_round_trip_rounded : forall c mat mf mt rest ln,
  moderate_cont c -> good_tail mat mf mt ->
  rd_cont mat mf mt (mkst (pr_cont c mat mf mt ++ rest) ln)
  = Ok (renorm_cont c) (mkst rest (ln + 1)).
Proof.
  intros c mat mf mt rest ln H Ht.
  assert (K := reads_cont (renorm_cont c) mat mf mt (renorm_okcont c H) (good_oktail _ _ _ Ht)).
  unfold pr_cont in *. rewrite pr_base_renorm in K by auto. apply K.
Qed.

Definition r_one : real := mkreal false 4503599627370496 (-52).
Definition r_pi : real := mkreal false 7074238532074879 (-51). (* 3.141593 *)
Definition r_tiny : real := mkreal true 5071867400799899 (-155). (* -1.11050e-31 *)

Ltac endf D E := right; exists D, E; split; [vm_compute; split; congruence|split; [lia|vm_compute; reflexivity]].
Lemma endf_one : endf_real r_one.
Proof. endf 1000000 0. Qed.
Lemma endf_pi : endf_real r_pi.
Proof. endf 3141593 0. Qed.
Lemma endf_tiny : endf_real r_tiny.
Proof. endf 111050 (-31). Qed.

(** discharge the side conditions of the concrete instances *)
Ltac inst :=
  repeat match goal with
  | |- endf_real _ => first [apply endf_one | apply endf_pi | apply endf_tiny]
  | |- Forall _ [] => constructor
  | |- Forall _ (_ :: _) => constructor
  | |- _ /\ _ => split
  | |- in_cols _ _ => split; vm_compute; reflexivity
  | |- (_ < _)%Z => vm_compute; reflexivity
  | |- (_ <= _)%Z => vm_compute; congruence
  | |- @eq Z _ _ => vm_compute; reflexivity
  | |- @eq nat _ _ => vm_compute; reflexivity
  | |- _ <> _ => discriminate
  | |- real_le _ _ => apply Qle_bool_iff; vm_compute; reflexivity
  | |- True => exact I
  end.

Definition ex_cont : cont := mkcont r_pi r_tiny 0 (-7) 12345 (-1).
Example C01_example : endf_cont ex_cont /\ good_tail 9228 3 102.
Proof. unfold endf_cont, ints_fit, good_tail; cbn [ex_cont c1 c2 l1 l2 n1 n2]; inst. Qed.

(** ** C02 LIST *)
Lemma endf_list_ok l : endf_list l -> oklist l.
Proof.
  intros (H1 & H2 & H3 & H4 & H5 & H6 & H7). unfold oklist, npl.
  repeat split; try (apply endf_okr; auto); try (apply in_cols_fits; auto; lia).
  eapply Forall_impl; [|exact H7]. exact endf_okr.
Qed.
Theorem C02_list_round_trip : forall l mat mf mt rest ln,
  endf_list l -> good_tail mat mf mt ->
  rd_list mat mf mt (mkst (pr_list l mat mf mt ++ rest) ln)
  = Ok l (mkst rest (ln + (1 + (Z.of_nat (length (lB l)) + 5) / 6))).
Proof. intros. apply reads_list; [now apply endf_list_ok|now apply good_oktail]. Qed.

(** every double of moderate size comes back as the double nearest to its
    printed decimal: the list is the rounded one *)
Theorem C02_list_round_trip_rounded : forall l mat mf mt rest ln,
  moderate_list l -> good_tail mat mf mt ->
  rd_list mat mf mt (mkst (pr_list l mat mf mt ++ rest) ln)
  = Ok (mklist (renorm (lC1 l)) (renorm (lC2 l)) (lL1 l) (lL2 l) (lN2 l) (map renorm (lB l)))
       (mkst rest (ln + (1 + (Z.of_nat (length (lB l)) + 5) / 6))).
Proof.
  intros l mat mf mt rest ln H Ht. destruct (renorm_list_ok l mat mf mt H) as (K1 & K2 & K3).
  rewrite <- K2. assert (R := reads_list _ mat mf mt K1 (good_oktail _ _ _ Ht) rest ln).
  rewrite R. rewrite K3. reflexivity.
Qed.
Definition ex_list : listr :=
  mklist r_pi r_one 2 (-3) 0 [r_one; r_pi; r_tiny; r_one; r_one; r_one; r_pi].
Example C02_example : endf_list ex_list.
Proof. unfold endf_list; cbn [ex_list lC1 lC2 lL1 lL2 lN2 lB]; inst. Qed.

(** ** C03, C04 TAB1, TAB2 *)
Lemma endf_tab2_ok t : endf_tab2 t -> oktab2 t.
Proof.
  intros (H1 & H2 & H3 & H4 & H5 & H6 & H7 & H8 & H9 & H10 & H11). unfold oktab2, tnr, tn2.
  repeat split; try (apply endf_okr; auto); try (apply in_cols_fits; auto; lia); auto.
  - now apply sorted_Z.
  - eapply Forall_impl; [|exact H10]. intros; apply in_cols_fits; auto; lia.
  - eapply Forall_impl; [|exact H11]. intros; apply in_cols_fits; auto; lia.
Qed.
Lemma endf_tab1_ok t : endf_tab1 t -> oktab1 t.
Proof.
  intros (H1 & H2 & H3 & H4 & H5 & H6). unfold oktab1.
  split; [now apply endf_tab2_ok|]. split; [auto|]. split; [now apply sorted_R|].
  split; [exact H4|]. split; (eapply Forall_impl; [exact endf_okr|auto]).
Qed.
Theorem C04_tab2_round_trip : forall t mat mf mt rest ln,
  endf_tab2 t -> good_tail mat mf mt ->
  rd_tab2 mat mf mt (mkst (pr_tab2 t mat mf mt ++ rest) ln)
  = Ok t (mkst rest (ln + (1 + (Z.of_nat (length (tbnd t)) + 2) / 3))).
Proof. intros. apply reads_tab2; [now apply endf_tab2_ok|now apply good_oktail]. Qed.

Theorem C03_tab1_round_trip : forall t mat mf mt rest ln,
  endf_tab1 t -> good_tail mat mf mt ->
  rd_tab1 mat mf mt (mkst (pr_tab1 t mat mf mt ++ rest) ln)
  = Ok t (mkst rest (ln + (1 + (Z.of_nat (length (tbnd (tbase t))) + 2) / 3
                             + (Z.of_nat (length (tx t)) + 2) / 3))).
Proof. intros. apply reads_tab1; [now apply endf_tab1_ok|now apply good_oktail]. Qed.

Theorem C03_tab1_round_trip_rounded : forall t mat mf mt rest ln,
  moderate_tab1 t -> good_tail mat mf mt ->
  exists t', rd_tab1 mat mf mt (mkst (pr_tab1 t mat mf mt ++ rest) ln)
      = Ok t' (mkst rest (ln + (1 + (Z.of_nat (length (tbnd (tbase t))) + 2) / 3
                             + (Z.of_nat (length (tx t)) + 2) / 3)))
    /\ tbnd (tbase t') = tbnd (tbase t) /\ tint (tbase t') = tint (tbase t)
    /\ tx t' = map renorm (tx t) /\ ty t' = map renorm (ty t)
    /\ tC1 (tbase t') = renorm (tC1 (tbase t)) /\ tC2 (tbase t') = renorm (tC2 (tbase t))
    /\ tL1 (tbase t') = tL1 (tbase t) /\ tL2 (tbase t') = tL2 (tbase t).
Proof.
  intros t mat mf mt rest ln H Ht. destruct (renorm_tab1_ok t mat mf mt H) as (K1 & K2 & K3).
  exists (renorm_tab1 t). rewrite <- K2.
  assert (R := reads_tab1 _ mat mf mt K1 (good_oktail _ _ _ Ht) rest ln).
  rewrite R. rewrite K3. repeat split.
Qed.
Theorem C04_tab2_round_trip_rounded : forall t mat mf mt rest ln,
  moderate_tab2 t -> good_tail mat mf mt ->
  rd_tab2 mat mf mt (mkst (pr_tab2 t mat mf mt ++ rest) ln)
  = Ok (mktab2 (renorm (tC1 t)) (renorm (tC2 t)) (tL1 t) (tL2 t) (tbnd t) (tint t))
       (mkst rest (ln + (1 + (Z.of_nat (length (tbnd t)) + 2) / 3))).
Proof.
  intros t mat mf mt rest ln H Ht. destruct (renorm_tab2_ok t mat mf mt H) as (K1 & K2 & K3).
  rewrite <- K2. assert (R := reads_tab2 _ mat mf mt K1 (good_oktail _ _ _ Ht) rest ln).
  rewrite R. rewrite K3. reflexivity.
Qed.

Definition ex_tab2 : tab2 := mktab2 r_pi r_one 1 0 [1; 2; 2; 4] [2; 5; 1; 4].
Definition ex_tab1 : tab1 := mktab1 ex_tab2 [r_tiny; r_one; r_one; r_pi] [r_one; r_pi; r_tiny; r_tiny].
Example C04_example : endf_tab2 ex_tab2.
Proof. unfold endf_tab2; cbn [ex_tab2 tC1 tC2 tL1 tL2 tbnd tint ascending]; inst. Qed.
Example C03_example : endf_tab1 ex_tab1.
Proof. split; [exact C04_example|]; cbn [ex_tab1 tx ty ascending tbase]; inst. Qed.

(** ** C05 TEXT, TPID *)
(** a text of at most 66 characters, filled with blanks to 66 *)
Theorem C05_text_round_trip : forall t mat mf mt rest ln,
  (length t <= 66)%nat -> noLF t -> good_tail mat mf mt ->
  exists t', rd_text mat mf mt (mkst (pr_text t mat mf mt ++ rest) ln)
             = Ok t' (mkst rest (ln + 1))
    /\ length t' = 66%nat /\ t' = t ++ blanks (66 - length t)
    /\ pr_text t' mat mf mt = pr_text t mat mf mt.
Proof.
  intros t mat mf mt rest ln H1 H2 Ht. exists (lj 66 t). split.
  - apply reads_text; auto using good_oktail.
  - split; [now apply lj_length|]. split; [reflexivity|].
    unfold pr_text. f_equal. unfold lj at 1. rewrite lj_length by auto.
    change (66 - 66)%nat with 0%nat. apply app_nil_r.
Qed.
(** a tape identification built from any newline-free string holds the string
    cut or filled to 66 characters; with the tape number as MAT it is read back *)
Theorem C05_tpid_round_trip : forall t n rest ln,
  noLF t -> in_cols 4 n ->
  length (tptext (make_tpid t n)) = 66%nat
  /\ tptext (make_tpid t n) = firstn 66 (t ++ blanks 66)
  /\ rd_tpid (mkst (pr_tpid (make_tpid t n) n 0 0 ++ rest) ln)
     = Ok (make_tpid t n) (mkst rest (ln + 1)).
Proof.
  intros t n rest ln H Hn. split; [apply order66_length|]. split.
  - unfold make_tpid, tptext, order66. destruct (66 <? length t)%nat eqn:E.
    + apply Nat.ltb_lt in E. rewrite firstn_app.
      replace (66 - length t)%nat with 0%nat by lia. simpl. now rewrite app_nil_r.
    + apply Nat.ltb_ge in E. rewrite firstn_app, firstn_all2 by lia. unfold lj. f_equal.
      unfold blanks. symmetry. replace 66%nat with ((66 - length t) + length t)%nat at 2 by lia.
      rewrite repeat_app, firstn_app, repeat_length, Nat.sub_diag. simpl.
      rewrite app_nil_r. apply firstn_all2. rewrite repeat_length. lia.
  - apply (reads_tpid (make_tpid t n) n).
    + apply order66_length.
    + now apply order66_noLF.
    + apply in_cols_fits; auto.
Qed.
Example C05_example : noLF (list_ascii_of_string "this is some text"%string) /\ in_cols 4 1234.
Proof. split; [intros H; simpl in H; intuition discriminate|vm_compute; split; reflexivity]. Qed.

(** ** C06 DIR *)
Theorem C06_dir_round_trip : forall d mat mf mt rest ln,
  in_cols 33 (dmf d) -> in_cols 11 (dmt d) -> in_cols 11 (dnc d) -> in_cols 11 (dmod d) ->
  good_tail mat mf mt ->
  rd_dir mat mf mt (mkst (pr_dir d mat mf mt ++ rest) ln) = Ok d (mkst rest (ln + 1)).
Proof.
  intros. apply reads_dir; [|now apply good_oktail].
  repeat split; apply in_cols_fits; auto; lia.
Qed.
Example C06_example : in_cols 33 3 /\ in_cols 11 102 /\ in_cols 11 1871 /\ in_cols 11 (-5).
Proof. vm_compute. repeat split. Qed.

(** ** C07 INTG *)
(** the values without trailing zeros: what is left ends in a non-zero value and
    only zeros were removed *)
Definition without_trailing_zeros (l l' : list Z) : Prop :=
  (exists n, l = l' ++ repeat 0 n) /\ (l' = [] \/ last l' 0 <> 0).
Lemma strip0_spec l : without_trailing_zeros l (strip0 l).
Proof.
  induction l as [|a l [[n IH] IH']].
  - split; [exists 0%nat; reflexivity|now left].
  - cbn [strip0]. destruct (strip0 l) as [|b l'] eqn:E.
    + destruct (Z.eqb_spec a 0) as [->|Ha].
      * split; [exists (S n); simpl; now rewrite IH|now left].
      * split; [exists n; simpl; now rewrite IH|right; exact Ha].
    + split; [exists n; simpl; now rewrite IH|right]. destruct IH' as [K|K]; [discriminate|exact K].
Qed.
Theorem C07_intg_round_trip : forall nd g mat mf mt rest ln,
  (2 <= nd <= 6)%nat -> 0 <= gi g < 10 ^ 5 -> 0 <= gj g < 10 ^ 5 ->
  (length (gk g) <= intg_cap nd)%nat -> Forall (in_cols (nd + 1)) (gk g) -> good_tail mat mf mt ->
  exists k', rd_intg nd (intg_cap nd) mat mf mt
               (mkst (pr_intg nd (intg_cap nd) g mat mf mt ++ rest) ln)
             = Ok (mkintg (gi g) (gj g) k') (mkst rest (ln + 1))
    /\ without_trailing_zeros (gk g) k'.
Proof.
  intros nd g mat mf mt rest ln Hn H1 H2 H3 H4 Ht. exists (strip0 (gk g)). split.
  - apply reads_intg; [|now apply good_oktail].
    unfold okintg. change (10 ^ 5) with 100000 in *. split; [lia|]. split; [lia|].
    split; [apply fits_nonneg; [lia|change (10 ^ Z.of_nat 5) with 100000; lia]|].
    split; [apply fits_nonneg; [lia|change (10 ^ Z.of_nat 5) with 100000; lia]|].
    split; [auto|]. eapply Forall_impl; [|exact H4]. intros; apply in_cols_fits; auto; lia.
  - apply strip0_spec.
Qed.
(** the constructor and the reader keep the capacity *)
Theorem C07_intg_capacity : forall nd cap mat mf mt s g s',
  (make_intg cap (gi g) (gj g) (gk g) = Val g <-> (length (gk g) <= cap)%nat)
  /\ (rd_intg nd cap mat mf mt s = Ok g s' -> (length (gk g) <= cap)%nat).
Proof.
  intros nd cap mat mf mt s g s'. split.
  - unfold make_intg. destruct (cap <? length (gk g))%nat eqn:E.
    + apply Nat.ltb_lt in E. split; [discriminate|lia].
    + apply Nat.ltb_ge in E. destruct g. split; auto.
  - intros H. apply on_err_ok in H.
    apply bind_ok in H as (i & s1 & _ & H). apply bind_ok in H as (j & s2 & _ & H).
    apply bind_ok in H as (u & s3 & _ & H). apply bind_ok in H as (ks & s4 & _ & H).
    apply bind_ok in H as (v & s5 & _ & H). apply bind_ok in H as (r & s6 & Hr & H).
    apply bind_ok in H as (w & s7 & _ & H). inversion H; subst. clear H.
    unfold make_intg in Hr. destruct (cap <? length (strip0 ks))%nat eqn:E; [discriminate|].
    inversion Hr; subst. simpl. apply Nat.ltb_ge in E. lia.
Qed.
Example C07_example : Forall (in_cols 4) [-999; 0; 12; 0; 0] /\ (length [-999; 0; 12; 0; 0]%Z <= intg_cap 3)%nat.
Proof. split; [repeat constructor; vm_compute; reflexivity|simpl; lia]. Qed.
