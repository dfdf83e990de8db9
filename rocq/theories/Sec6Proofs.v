(** Sec6Proofs.v -- Files 6 and 26 satisfy [section_rt]. *)
From Coq Require Import ZifyBool ZifyNat.
From Verif Require Import Base Disco DiscoProofs Records RecordProofs RecordRT RecordSound Layout
  RealRound RealProofs Spec Normal LineFacts Sections SecSpec Codec SectionProofs SecKit CodecKit
  Sec9 Sec9Spec Sec9Proofs Sec4 Sec4Spec Sec4Proofs Sec6 Sec6Spec.
Open Scope Z_scope.

(** ** strides *)
Lemma nth_error_stride k (Hk : (0 < k)%nat) : forall fuel l, (length l <= fuel)%nat -> forall i,
  nth_error (map (fun c => nth 0 c rzero) (chunks fuel k l)) i = if (i * k <? length l)%nat then Some (nth (i * k) l rzero) else None.
Proof.
  induction fuel as [|fuel IH]; intros l L i.
  - destruct l; [|cbn in L; lia]. destruct i; reflexivity.
  - destruct l as [|x l]; [destruct i; reflexivity|]. cbn [chunks]. set (y := x :: l) in *. cbn [map]. destruct i as [|i].
    + cbn [nth_error Nat.mul]. replace (0 <? length y)%nat with true by reflexivity. destruct k; [lia|]. reflexivity.
    + cbn [nth_error]. rewrite IH by (rewrite skipn_length; subst y; cbn [length] in *; lia). rewrite skipn_length. cbn [Nat.mul].
      destruct (Nat.ltb_spec (i * k) (length y - k)), (Nat.ltb_spec (k + i * k) (length y)); try lia; [|reflexivity].
      f_equal. rewrite <- (firstn_skipn k y) at 2. rewrite app_nth2 by (rewrite firstn_length; lia).
      rewrite firstn_length. f_equal. lia.
Qed.
Lemma stride_nth k l i : (0 < k)%nat -> nth_error (stride k l) i = if (i * k <? length l)%nat then Some (nth (i * k) l rzero) else None.
Proof. intros Hk. now apply nth_error_stride. Qed.
Lemma stride_length k l n : (0 < k)%nat -> (n <= length (stride k l))%nat <-> (n = 0 \/ (n - 1) * k < length l)%nat.
Proof.
  intros Hk. destruct n as [|n]; [split; [auto|lia]|].
  assert (E : (nth_error (stride k l) n <> None) <-> (n < length (stride k l))%nat) by apply nth_error_Some.
  rewrite stride_nth in E by exact Hk. replace (Datatypes.S n - 1)%nat with n by lia.
  destruct (Nat.ltb_spec (n * k) (length l)).
  - split; [lia|]. intros _. apply E. discriminate.
  - split; [|lia]. intros K. destruct (proj2 E K). reflexivity.
Qed.
Lemma ascending_nth {A} (R : A -> A -> Prop) : forall l, ascending R l <->
  forall i a b, nth_error l i = Some a -> nth_error l (S i) = Some b -> R a b.
Proof.
  induction l as [|x l IH]; [split; [intros _ [|i]; discriminate|intros; exact I]|].
  destruct l as [|y l]; [split; [intros _ [|i]; [discriminate|destruct i; discriminate]|intros; exact I]|].
  change (ascending R (x :: y :: l)) with (R x y /\ ascending R (y :: l)). rewrite IH. split.
  - intros [H K] [|i] a b; [intros [= <-] [= <-]; exact H|apply K].
  - intros H. split; [exact (H 0%nat x y eq_refl eq_refl)|]. intros i. exact (H (Datatypes.S i)).
Qed.
Lemma nth_error_skipn {A} n : forall (l : list A) i, nth_error (skipn n l) i = nth_error l (n + i).
Proof. induction n as [|n IH]; intros l i; [reflexivity|]. destruct l; [now destruct i|]. apply IH. Qed.

Lemma int_op_val z x : int_op z = Val x <-> x = z /\ int32 z.
Proof.
  unfold int_op, in32, int32. destruct (Z.leb_spec (-2147483648) z), (Z.ltb_spec z 2147483648); cbn [andb];
    (split; [intros E; try discriminate; injection E as <-; lia|intros [-> ?]; try lia; reflexivity]).
Qed.
Lemma obind_val {A B} (o : out A) (f : A -> out B) b : obind o f = Val b <-> exists a, o = Val a /\ f a = Val b.
Proof. destruct o; cbn; (split; [intros E|intros (? & E & ?)]); try discriminate E; [eauto|injection E as <-; assumption]. Qed.
Lemma ensure_val b : ensure b = Val tt <-> b = true.
Proof. unfold ensure. destruct b; split; congruence. Qed.
Lemma as_int_get z n : as_int z n -> i32 z = n. Proof. apply as_int_eq. Qed.

(** ** the checks accept exactly the consistent lists *)
Lemma drop_ok_spec l : drop_ok l <-> (2 + lL2 l <=? 0) = false /\ ((lL1 l <? 0) || (Z.of_nat (length (EP l)) <? lL1 l)) = false.
Proof.
  unfold drop_ok. destruct (Z.leb_spec (2 + lL2 l) 0) as [H|H]; [split; [lia|intros [? _]; discriminate]|].
  set (k := Z.to_nat (2 + lL2 l)). assert (Hk : (0 < k)%nat) by lia.
  assert (S := fun n => stride_length k (lB l) n Hk). fold (EP l) in S. change (EP l) with (stride k (lB l)). unfold len.
  destruct (Z.ltb_spec (lL1 l) 0); [cbn; split; [lia|intros [_ ?]; discriminate]|]. cbn [orb].
  specialize (S (Z.to_nat (lL1 l))). replace (lL2 l + 2) with (Z.of_nat k) by lia.
  destruct (Z.ltb_spec (Z.of_nat (length (stride k (lB l)))) (lL1 l)); split; intros; try tauto; try nia.
Qed.
Lemma energies_ok_spec l : drop_ok l -> is_sorted rlt (skipn (Z.to_nat (lL1 l)) (EP l)) = true <-> energies_ok l.
Proof.
  intros (H1 & H2 & _). rewrite sorted_R, ascending_nth. unfold energies_ok, value, len.
  set (k := Z.to_nat (2 + lL2 l)). assert (Hk : (0 < k)%nat) by lia. change (EP l) with (stride k (lB l)). split.
  - intros H i Hi Hl. specialize (H (Z.to_nat i - Z.to_nat (lL1 l))%nat). rewrite !nth_error_skipn, !stride_nth in H by exact Hk.
    replace (Z.to_nat (lL1 l) + (Z.to_nat i - Z.to_nat (lL1 l)))%nat with (Z.to_nat i) in H by lia.
    replace (Z.to_nat (lL1 l) + S (Z.to_nat i - Z.to_nat (lL1 l)))%nat with (S (Z.to_nat i)) in H by lia.
    assert (E1 : (Z.to_nat i * k = Z.to_nat (i * (lL2 l + 2)))%nat) by nia.
    assert (E2 : (S (Z.to_nat i) * k = Z.to_nat ((i + 1) * (lL2 l + 2)))%nat) by nia.
    rewrite E1, E2 in H. 
    destruct (Nat.ltb_spec (Z.to_nat (i * (lL2 l + 2))) (length (lB l))); [|nia].
    destruct (Nat.ltb_spec (Z.to_nat ((i + 1) * (lL2 l + 2))) (length (lB l))); [|nia]. now apply H.
  - intros H i a b. rewrite !nth_error_skipn, !stride_nth by exact Hk.
    destruct (Nat.ltb_spec ((Z.to_nat (lL1 l) + i) * k) (length (lB l))); [|discriminate].
    destruct (Nat.ltb_spec ((Z.to_nat (lL1 l) + S i) * k) (length (lB l))); [|discriminate]. intros [= <-] [= <-].
    specialize (H (lL1 l + Z.of_nat i) ltac:(lia)).
    replace (Z.to_nat ((lL1 l + Z.of_nat i) * (lL2 l + 2))) with ((Z.to_nat (lL1 l) + i) * k)%nat in H by nia.
    replace (Z.to_nat ((lL1 l + Z.of_nat i + 1) * (lL2 l + 2))) with ((Z.to_nat (lL1 l) + S i) * k)%nat in H by nia.
    apply H. nia.
Qed.
Lemma size1_spec l : size1 l = Val tt <-> size1_ok l.
Proof.
  unfold size1, size1_ok. split.
  - intros E. apply obind_val in E. destruct E as (a & E1 & E). apply int_op_val in E1. destruct E1 as [-> I1].
    apply obind_val in E. destruct E as (p & E2 & E). apply int_op_val in E2. destruct E2 as [-> I2].
    apply ensure_val in E. exists (i32 (lL2 l)), (i32 (lN2 l)), (i32 (npl l)).
    split; [apply as_int_i32|]. split; [apply as_int_i32|]. split; [apply as_int_i32|]. split; [exact I1|lia].
  - intros (na & nep & nw & A & B & C & I1 & E). assert (In : int32 nw) by apply C. apply as_int_get in A, B, C. 
    apply obind_val. exists (na + 2). split; [apply int_op_val; rewrite A; auto|].
    apply obind_val. exists nw. split; [apply int_op_val; rewrite B, <- E; auto|]. apply ensure_val. unfold npl. fold (len (lB l)). lia.
Qed.
Lemma base1_spec l : base1 l = Val tt <-> inv_base1 l.
Proof.
  unfold base1, inv_base1. rewrite <- size1_spec. assert (D := drop_ok_spec l).
  destruct (2 + lL2 l <=? 0); [split; [discriminate|intros (K & _); apply D in K; destruct K; discriminate]|].
  destruct ((lL1 l <? 0) || (Z.of_nat (length (EP l)) <? lL1 l)); [split; [discriminate|intros (K & _); apply D in K; destruct K; discriminate]|].
  assert (D' : drop_ok l) by now apply D. rewrite <- (energies_ok_spec l D'). destruct (is_sorted rlt _); split; try tauto; try discriminate.
  intros (_ & K & _). discriminate.
Qed.
Lemma kalbach1_spec l : kalbach1 l = Val tt <-> inv_base1 l /\ (as_int (lL2 l) 1 \/ as_int (lL2 l) 2).
Proof.
  unfold kalbach1. rewrite obind_val, !as_int_eq. split.
  - intros ([] & E & K). apply base1_spec in E. apply ensure_val in K. split; [exact E|lia].
  - intros [E K]. exists tt. split; [now apply base1_spec|]. apply ensure_val. lia.
Qed.
Lemma size_tab_spec l : size_tab l = Val tt <-> values_are l twice.
Proof.
  unfold size_tab, values_are, twice. rewrite obind_val. split.
  - intros (p & E & K). apply int_op_val in E. destruct E as [-> _]. apply ensure_val in K.
    exists (i32 (lN2 l)), (i32 (npl l)). split; [apply as_int_i32|]. split; [apply as_int_i32|lia].
  - intros (nl & nw & A & B & E). assert (In : int32 nw) by apply B. apply as_int_get in A, B. exists nw.
    split; [apply int_op_val; rewrite A, <- E; auto|apply ensure_val; unfold npl; fold (len (lB l)); lia].
Qed.
Lemma check2_spec l : check2 l = Val tt <-> inv_law2 l.
Proof.
  unfold check2, inv_law2. destruct (Z.eqb_spec (lL1 l) 0) as [E|E].
  - rewrite ensure_val. split.
    + intros K. left. split; [exact E|]. exists (i32 (lN2 l)), (i32 (npl l)). split; [apply as_int_i32|]. split; [apply as_int_i32|lia].
    + intros [[_ (nl & nw & A & B & K)]|[K _]]; [|lia]. apply as_int_get in A, B. unfold npl. fold (len (lB l)). lia.
  - destruct ((lL1 l =? 12) || (lL1 l =? 14)) eqn:E2; [rewrite size_tab_spec|].
    + split; [intros; right; split; [lia|assumption]|intros [[? _]|[_ ?]]; [lia|assumption]].
    + split; [discriminate|intros [[? _]|[? _]]; lia].
Qed.
Lemma size_leg_spec l : size_leg l = Val tt <-> values_are l (fun n => n + 1).
Proof.
  unfold size_leg, values_are. rewrite obind_val. split.
  - intros (p & E & K). apply int_op_val in E. destruct E as [-> _]. apply ensure_val in K.
    exists (i32 (lN2 l)), (i32 (npl l)). split; [apply as_int_i32|]. split; [apply as_int_i32|lia].
  - intros (nl & nw & A & B & E). assert (In : int32 nw) by apply B. apply as_int_get in A, B. exists nw.
    split; [apply int_op_val; rewrite A, <- E; auto|apply ensure_val; unfold npl; fold (len (lB l)); lia].
Qed.
Lemma size_amp_spec l : size_amp l = Val tt <-> exists nl nw, as_int (lN2 l) nl /\ as_int (len (lB l)) nw /\ int32 (3 * nl) /\ int32 (3 * nl + 3)
      /\ (nw = 3 * nl + 3 \/ nw = 4 * nl + 3).
Proof.
  unfold size_amp. rewrite obind_val. split.
  - intros (p & E & K). apply int_op_val in E. destruct E as [-> I1]. apply obind_val in K. destruct K as (p & E & K). apply int_op_val in E. destruct E as [-> I2].
    exists (i32 (lN2 l)), (i32 (npl l)). split; [apply as_int_i32|]. split; [apply as_int_i32|]. split; [exact I1|]. split; [exact I2|].
    destruct (Z.eqb_spec (i32 (npl l)) (3 * i32 (lN2 l) + 3)) as [Q|Q]; [left; exact Q|right].
    apply obind_val in K. destruct K as (p & E & K). apply int_op_val in E. destruct E as [-> I3]. apply obind_val in K. destruct K as (p & E & K). apply int_op_val in E. destruct E as [-> I4].
    apply ensure_val in K. lia.
  - intros (nl & nw & A & B & I1 & I2 & E). assert (In : int32 nw) by apply B. apply as_int_get in A, B. rewrite A. unfold npl. fold (len (lB l)). rewrite B.
    exists (3 * nl). split; [now apply int_op_val|]. apply obind_val. exists (3 * nl + 3). split; [now apply int_op_val|].
    destruct (Z.eqb_spec nw (3 * nl + 3)) as [Q|Q]; [reflexivity|]. destruct E as [E|E]; [congruence|].
    apply obind_val. exists (4 * nl). split; [apply int_op_val; split; [reflexivity|unfold int32 in *; lia]|]. apply obind_val. exists nw. split; [apply int_op_val; rewrite <- E; auto|].
    apply ensure_val. lia.
Qed.
Lemma check5_spec l : check5 l = Val tt <-> inv_law5 l.
Proof.
  unfold check5, inv_law5, ltp5. destruct (Z.eqb_spec (lL1 l) 1) as [E|E]; [rewrite size_amp_spec|destruct (Z.eqb_spec (lL1 l) 2) as [E2|E2]; [rewrite size_leg_spec|]].
  - split; [intros; left; auto|]. intros [[_ K]|[[? _]|[? _]]]; [exact K|lia|lia].
  - split; [intros; right; left; auto|]. intros [[? _]|[[_ K]|[? _]]]; [lia|exact K|lia].
  - destruct ((lL1 l =? 12) || (lL1 l =? 14) || (lL1 l =? 15)) eqn:E3; [rewrite size_tab_spec|].
    + split; [intros; right; right; split; [lia|assumption]|]. intros [[? _]|[[? _]|[_ K]]]; [lia|lia|exact K].
    + split; [discriminate|intros [[? _]|[[? _]|[? _]]]; lia].
Qed.

(** ** combinators *)
Lemma cod_out {A} rep inv (rd : Z -> Z -> Z -> M A) pr nc (chk : A -> out unit) (P : A -> Prop) : cod rep inv rd pr nc ->
  (forall x, chk x = Val tt <-> P x) ->
  cod rep (fun x => inv x /\ P x) (fun mat mf mt => x <- rd mat mf mt ;; lift (chk x) ;;; ret x) pr nc.
Proof.
  intros H K. split; intros mat mf mt.
  - intros x G R [I1 I2]. eapply reads_k; [eapply reads_bind_r; [now apply H|]|]. 
    + apply K in I2. rewrite I2. cbn [lift]. apply reads_ret.
    + lia.
  - intros x G R [I1 I2]. now apply H.
  - apply consumes_bind; [apply H|intros]. apply consumes_bind; [apply consumes_lift|intros; apply consumes_ret].
  - eapply post_bind; [apply H|intros x Ix]. eapply post_bind; [apply post_lift|cbv beta; intros [] E]. apply post_ret. split; [exact Ix|now apply K].
Qed.
Lemma cod_checked chk P : (forall l, chk l = Val tt <-> P l) -> cod endf_list P (rd_checked chk) pr_list nc_list.
Proof.
  intros K. apply (cod_imp _ _ _ _ _ (cod_out _ _ _ _ _ chk P cod_list K)); [|tauto]. intros x R I. split; [exact R|split; [exact Logic.I|exact I]].
Qed.
Lemma cod_iseqw {A} rep inv (rd : tab2 -> Z -> Z -> Z -> M A) pr nc : (forall t, cod rep (inv t) (rd t) pr nc) ->
  cod (rep_seqw rep) (inv_seqw inv) (rd_iseqw rd) (pr_iseq pr) (nc_iseq nc).
Proof.
  intros H. split; intros mat mf mt.
  - intros [t l] G [R1 R2] (I1 & I2 & I3 & I4). cbn [istab isrec] in *. unfold rd_iseqw, pr_iseq, nc_iseq. cbn [istab isrec].
    eapply reads_bind; [exact (co_reads _ _ _ _ _ cod_tab2 mat mf mt t G R1 I1)|cbv beta].
    eapply reads_k; [eapply reads_bind_r; [exact (co_reads _ _ _ _ _ (cod_while _ _ _ _ _ (tn2 t) (H t)) mat mf mt l G R2 (conj I4 I2))|]|].
    + unfold make_iseq. replace (u32 (Z.of_nat (length l)) =? 0) with false by (symmetry; apply Z.eqb_neq; exact I3).
      unfold tn2. rewrite <- I2. fold (len l). rewrite Z.eqb_refl. cbn [negb no_more lift]. apply reads_ret.
    + unfold nc_all. lia.
  - intros [t l] G [R1 R2] (I1 & I2 & I3 & I4). cbn [istab isrec] in *. unfold pr_iseq, nc_iseq. cbn [istab isrec].
    apply layout_app; [exact (co_layout _ _ _ _ _ cod_tab2 mat mf mt t G R1 I1)|].
    exact (co_layout _ _ _ _ _ (cod_while _ _ _ _ _ (tn2 t) (H t)) mat mf mt l G R2 (conj I4 I2)).
  - unfold rd_iseqw. apply consumes_bind; [apply cod_tab2|intros t]. apply consumes_bind; [apply (co_consumes _ _ _ _ _ (cod_while _ _ _ _ _ (tn2 t) (H t)))|intros; apply consumes_lift].
  - unfold rd_iseqw. eapply post_bind; [apply cod_tab2|intros t It]. eapply post_bind; [apply (co_post _ _ _ _ _ (cod_while _ _ _ _ _ (tn2 t) (H t)))|cbv beta; intros l [F L]].
    eapply post_weaken; [apply post_lift|]. cbv beta. intros q E. unfold make_iseq in E.
    destruct (Z.eqb_spec (u32 (Z.of_nat (length l))) 0) as [|N]; [discriminate|]. destruct (negb _); [discriminate|]. injection E as <-.
    split; [exact It|]. cbn [istab isrec]. split; [exact L|]. split; [exact N|exact F].
Qed.
Lemma cod_law1_rec t : cod endf_list (inv_law1 t) (rd_law1_rec (tL1 t)) pr_list nc_list.
Proof.
  unfold rd_law1_rec. destruct (lang_base (tL1 t) || (tL1 t =? 2) || (tL1 t =? 3)) eqn:E.
  - assert (K : forall l, check1 (tL1 t) l = Val tt <-> inv_law1 t l).
    { intros l. unfold check1, inv_law1. destruct (Z.eq_dec (tL1 t) 2) as [Q|Q]; [rewrite Q; apply kalbach1_spec|].
      destruct (Z.eq_dec (tL1 t) 3) as [Q'|Q']; [rewrite Q'; cbn; tauto|].
      assert (B : lang_base (tL1 t) = true) by (destruct (lang_base (tL1 t)); [reflexivity|]; cbn [orb] in E; lia). rewrite B. unfold lang_base in B.
      assert (Q1 : tL1 t = 1 \/ tL1 t = 11 \/ tL1 t = 12 \/ tL1 t = 13 \/ tL1 t = 14 \/ tL1 t = 15) by lia.
      destruct Q1 as [->|[->|[->|[->|[->| ->]]]]]; apply base1_spec. }
    apply (cod_checked _ _ K).
  - assert (K : forall l, ~ inv_law1 t l).
    { intros l. unfold inv_law1. unfold lang_base in E.
      destruct (tL1 t) as [|p|p]; auto. do 5 (try (destruct p as [p|p|]; auto; try (cbn in E; discriminate))). }
    split; intros mat mf mt.
    + intros x G R I. destruct (K x I).
    + intros x G R I. destruct (K x I).
    + apply consumes_throw.
    + apply post_throw.
Qed.
Lemma cod_law1 : cod (rep_seqw endf_list) (inv_seqw inv_law1) rd_law1 (pr_iseq pr_list) (nc_iseq nc_list).
Proof. apply (cod_iseqw endf_list inv_law1 (fun t => rd_law1_rec (tL1 t))). intros t. apply cod_law1_rec. Qed.
Lemma cod_law2 : cod (rep_seqw endf_list) (inv_seqw (fun _ => inv_law2)) rd_law2 (pr_iseq pr_list) (nc_iseq nc_list).
Proof. apply (cod_iseqw endf_list (fun _ => inv_law2) (fun _ => rd_checked check2)). intros t. apply cod_checked, check2_spec. Qed.
Lemma cod_law5 : cod (rep_seqw endf_list) (inv_seqw (fun _ => inv_law5)) rd_law5 (pr_iseq pr_list) (nc_iseq nc_list).
Proof. apply (cod_iseqw endf_list (fun _ => inv_law5) (fun _ => rd_checked check5)). intros t. apply cod_checked, check5_spec. Qed.
Lemma cod_law7 : cod (rep_seq (rep_seq rep_tab1)) (inv_seq (inv_seq inv_tab1 any) any) rd_law7 (pr_iseq (pr_iseq pr_tab1)) (nc_iseq (nc_iseq nc_tab1)).
Proof. apply cod_iseq0, cod_iseq0, cod_tab1. Qed.

Lemma elsewhere_spec n : elsewhere n = true <-> n = -4 \/ n = -5 \/ n = -14 \/ n = -15.
Proof. unfold elsewhere. lia. Qed.
Definition law_allowed (hmt : Z) (d : law6) : Prop := LAW6 d < 0 -> hmt = 18.
Lemma cod_law6 hmt law : cod (fun d => rep_law6 d /\ law_allowed hmt d /\ law = LAW6 d) (fun d => inv_law6 d /\ law = LAW6 d) (rd_law6 hmt law) pr_law6 nc_law6.
Proof.
  unfold rd_law6. destruct (elsewhere law) eqn:Ee.
  { apply elsewhere_spec in Ee. split; intros mat mf mt.
    - intros d G (R & A & E) (I & _). destruct d; cbn in E; try lia. subst law. apply reads_require_bind; [unfold law_allowed in A; cbn in A; lia|apply reads_ret].
    - intros d G (R & A & E) (I & _). destruct d; cbn in E; try lia. apply layout_nil.
    - apply consumes_bind; [apply consumes_require|intros; apply consumes_ret].
    - eapply post_bind; [apply post_require|cbv beta; intros _ _]. apply post_ret. split; [exact Ee|reflexivity]. }
  assert (Nz : forall n, inv_law6 (Elsewhere n) -> law <> n) by (intros n K Q; subst n; apply elsewhere_spec in K; congruence).
  destruct (Z.eqb_spec law 0) as [->|]; [|destruct (Z.eqb_spec law 1) as [->|]; [|destruct (Z.eqb_spec law 2) as [->|];
    [|destruct (Z.eqb_spec law 3) as [->|]; [|destruct (Z.eqb_spec law 4) as [->|]; [|destruct (Z.eqb_spec law 5) as [->|];
    [|destruct (Z.eqb_spec law 6) as [->|]; [|destruct (Z.eqb_spec law 7) as [->|]]]]]]]].
  - apply cod_ret; [|split; [exact I|reflexivity]|reflexivity|reflexivity]. intros x ? ?; conj; destruct x; cbn in *; try lia. reflexivity.
  - eapply (cod_inj Continuum); [apply cod_law1|try branch..].
  - eapply (cod_inj TwoBody); [apply cod_law2|try branch..].
  - apply cod_ret; [|split; [exact I|reflexivity]|reflexivity|reflexivity]. intros x ? ?; conj; destruct x; cbn in *; try lia. reflexivity.
  - apply cod_ret; [|split; [exact I|reflexivity]|reflexivity|reflexivity]. intros x ? ?; conj; destruct x; cbn in *; try lia. reflexivity.
  - eapply (cod_inj ChargedElastic); [apply cod_law5|try branch..].
  - eapply (cod_inj NBody); [apply cod_cont|try branch..].
  - eapply (cod_inj LabAngle); [apply cod_law7|try branch..].
  - apply cod_throw. intros x ? ?; conj. destruct x; cbn [LAW6] in *; try lia.
Qed.
Lemma cod_product6 hmt : cod (fun p => rep_product rep_law6 p /\ law_allowed hmt (p_law p)) (inv_product LAW6 inv_law6) (rd_product6 hmt) (pr_product pr_law6) (nc_product nc_law6).
Proof.
  refine (cod_imp _ _ _ _ _ (cod_dep (@mkproduct law6) p_mult p_law rep_tab1 inv_tab1 rd_tab1 pr_tab1 nc_tab1 _ _ (fun a => rd_law6 hmt (LAW a)) (fun _ => pr_law6) (fun _ => nc_law6) _ _ _ cod_tab1 (fun a => cod_law6 hmt (LAW a))) _ _ _ _).
  - now intros [].
  - reflexivity.
  - reflexivity.
  - intros [p d] [[R1 R2] R3] (I1 & I2 & I3). cbn [p_mult p_law] in *. apply as_int_eq in I2. unfold LAW. auto.
  - intros [p d] (I1 & I2 & I3). cbn [p_mult p_law] in *. split; [exact I1|]. split; [apply as_int_eq, I3|exact I2].
Qed.
Lemma post_allowed6 hmt n mat mf mt : post (rd_all (rd_product6 hmt) n mat mf mt) (Forall (fun p => law_allowed hmt (p_law p))).
Proof.
  unfold rd_all, rd_sequence. eapply post_bind; [apply post_require|intros _ _].
  eapply post_weaken; [apply post_rd_n with (Q := fun p => law_allowed hmt (p_law p))|cbv beta; tauto].
  unfold rd_product6. eapply post_bind; [apply post_true|intros m _]. eapply post_bind with (Q := law_allowed hmt); [|intros d Hd; apply post_ret; exact Hd].
  unfold rd_law6. destruct (elsewhere (LAW m)).
  { eapply post_bind; [apply post_require|cbv beta; intros _ E]. apply post_ret. intros _. lia. }
  assert (P : forall d, 0 <= LAW6 d -> law_allowed hmt d) by (unfold law_allowed; lia).
  repeat match goal with
  | |- post (if ?b then _ else _) _ => destruct b
  | |- post (ret _) _ => apply post_ret, P; cbn; lia
  | |- post (throw _) _ => apply post_throw
  | |- post (bind _ _) _ => eapply post_bind; [apply post_true|intros]
  end.
Qed.
Lemma Forall_and2 {A} (P Q : A -> Prop) l : Forall P l -> Forall Q l -> Forall (fun x => P x /\ Q x) l.
Proof. intros H K. now apply Forall_and_iff. Qed.
Lemma body_6 : body_codm sec_6 rep_body6 inv_body6.
Proof.
  split.
  - cbn; lia.
  - exact I.
  - intros b R (I1 & I2 & _). cbn. ints4; apply cols32; auto. apply i32_range.
  - intros h awr _. cbn [sec_6 k_read k_print k_nc k_ints]. unfold rd_body6.
    assert (C := cod_all _ _ _ _ _ (n1 (sbase h)) (cod_product6 (smt h))).
    split; intros mat mf mt.
    + intros [jp lct ps] G (R & A & E) (I1 & I2 & I3 & I4). unfold head_ints in E. injection E as E1 E2 E3 E4. cbn [jp6 lct6 products6] in *.
      rewrite E1, E2, (i32_id jp I1), (i32_id lct I2). apply (reads_bind_ret _ (mkbody6 jp lct)).
      apply (co_reads _ _ _ _ _ C); [exact G|apply Forall_and2; [exact R|exact A]|]. split; [exact I3|]. rewrite E3, isize_len by exact I4. symmetry. apply i32_id, int32_len, I4.
    + intros [jp lct ps] G (R & A & E) (I1 & I2 & I3 & I4). unfold head_ints in E. injection E as E1 E2 E3 E4. cbn [jp6 lct6 products6] in *.
      apply (co_layout _ _ _ _ _ C); [exact G|apply Forall_and2; [exact R|exact A]|]. split; [exact I3|]. rewrite E3, isize_len by exact I4. symmetry. apply i32_id, int32_len, I4.
    + apply consumes_bind; [apply C|intros; apply consumes_ret].
    + eapply post_bind; [apply C|cbv beta; intros ps [F L]]. apply post_ret. unfold inv_body6. cbn [jp6 lct6 products6].
      split; [apply i32_range|]. split; [apply i32_range|]. split; [exact F|]. rewrite L. apply i32_pos_bound.
  - intros h mat mf. cbn [sec_6 k_read]. unfold rd_body6. eapply post_bind; [apply post_allowed6|]. intros ps F. apply post_ret. exact F.
Qed.
Lemma rt_6 : section_rt sec_6 rep_body6 inv_body6.
Proof. apply bodym_section, body_6. Qed.

(** ** 26 *)
Lemma cod_law1_26 : cod (rep_seqw endf_list) (fun q => tL1 (istab q) = 1 /\ inv_seqw (fun _ => inv_base1) q) rd_law1_26 (pr_iseq pr_list) (nc_iseq nc_list).
Proof.
  assert (C := cod_iseqw endf_list (fun _ => inv_base1) (fun _ => rd_checked base1) _ _ (fun _ => cod_checked _ _ base1_spec)).
  assert (E : forall mat mf mt s, rd_law1_26 mat mf mt s = (match rd_tab2 mat mf mt s with Ok t s1 => if tL1 t =? 1 then rd_iseqw (fun _ => rd_checked base1) mat mf mt s else Err EStd s1 | Err e s1 => Err e s1 | UB => UB end)).
  { intros mat mf mt s. unfold rd_law1_26, rd_iseqw, bind. destruct (rd_tab2 mat mf mt s) as [t s1| |]; [|reflexivity|reflexivity]. unfold require. destruct (tL1 t =? 1); reflexivity. }
  split; intros mat mf mt.
  - intros q G R [I1 I2]. intros rest ln. rewrite E.
    rewrite (co_reads _ _ _ _ _ C mat mf mt q G R I2 rest ln).
    assert (Q := co_reads _ _ _ _ _ cod_tab2 mat mf mt (istab q) G (proj1 R) (proj1 I2) (flat_map (fun c => pr_list c mat mf mt) (isrec q) ++ rest) ln).
    unfold pr_iseq. rewrite <- app_assoc, Q. rewrite I1. reflexivity.
  - intros q G R [I1 I2]. now apply (co_layout _ _ _ _ _ C).
  - unfold rd_law1_26. apply consumes_bind; [apply cod_tab2|intros t]. apply consumes_bind; [apply consumes_require|intros].
    apply consumes_bind; [|intros; apply consumes_lift]. apply (co_consumes _ _ _ _ _ (cod_while _ _ _ _ _ _ (cod_checked _ _ base1_spec))).
  - intros s q s' K. assert (K2 := K). rewrite E in K. destruct (rd_tab2 mat mf mt s) as [t s1| |] eqn:Et; [|discriminate|discriminate]. destruct (Z.eqb_spec (tL1 t) 1); [|discriminate].
    split; [|exact (co_post _ _ _ _ _ C _ _ _ _ _ _ K)].
    unfold rd_iseqw, bind in K. rewrite Et in K. destruct (rd_while _ _ _ _ _ s1) as [l s2| |]; [|discriminate|discriminate]. unfold make_iseq in K.
    destruct (_ =? 0); [discriminate|]. destruct (negb _); [discriminate|]. cbn in K. injection K as <- _. assumption.
Qed.
Lemma check_tab26_spec l : check_tab26 l = Val tt <-> (as_int (lL1 l) 12 \/ as_int (lL1 l) 14) /\ values_are l twice.
Proof.
  unfold check_tab26, lang2. rewrite !as_int_eq. destruct ((i32 (lL1 l) =? 12) || (i32 (lL1 l) =? 14)) eqn:E.
  - rewrite size_tab_spec. split; [intros; split; [lia|assumption]|tauto].
  - split; [discriminate|lia].
Qed.
Lemma cod_law26 law : cod (fun d => rep_law26 d /\ law = LAW26 d) (fun d => inv_law26 d /\ law = LAW26 d) (rd_law26 law) pr_law26 nc_law26.
Proof.
  unfold rd_law26. destruct (Z.eqb_spec law 1) as [->|]; [|destruct (Z.eqb_spec law 2) as [->|]; [|destruct (Z.eqb_spec law 8) as [->|]]].
  - eapply (cod_inj Continuum26); [apply cod_law1_26|branch..].
  - eapply (cod_inj TwoBody26); [apply (cod_iseq0 _ _ _ _ _ (cod_checked _ _ check_tab26_spec))|branch..].
  - eapply (cod_inj Transfer26); [apply cod_tab1|branch..].
  - apply cod_throw. intros x ? ?; conj; destruct x; cbn in *; lia.
Qed.
Lemma cod_product26 : cod (rep_product rep_law26) (inv_product LAW26 inv_law26) rd_product26 (pr_product pr_law26) (nc_product nc_law26).
Proof.
  refine (cod_imp _ _ _ _ _ (cod_dep (@mkproduct law26) p_mult p_law rep_tab1 inv_tab1 rd_tab1 pr_tab1 nc_tab1 _ _ (fun a => rd_law26 (LAW a)) (fun _ => pr_law26) (fun _ => nc_law26) _ _ _ cod_tab1 (fun a => cod_law26 (LAW a))) _ _ _ _).
  - now intros [].
  - reflexivity.
  - reflexivity.
  - intros [p d] [R1 R2] (I1 & I2 & I3). cbn [p_mult p_law] in *. apply as_int_eq in I2. unfold LAW. auto.
  - intros [p d] (I1 & I2 & I3). cbn [p_mult p_law] in *. split; [exact I1|]. split; [apply as_int_eq, I3|exact I2].
Qed.
Lemma body_26 : body_cod sec_26 (Forall (rep_product rep_law26)) (many_of (inv_product LAW26 inv_law26)).
Proof.
  split; [cbn; lia|exact I| |].
  - intros m R I. cbn. ints4. apply cols32, i32_range.
  - intros h awr _. apply (cod_imp _ _ _ _ _ (cod_all _ _ _ _ _ (n1 (sbase h)) cod_product26)).
    + intros l [R E] [I1 I2]. unfold head_ints in E. injection E as E1 E2 E3 E4. rewrite E3. split; [exact R|]. split; [exact I1|]. rewrite isize_len by exact I2. symmetry. apply i32_id, int32_len, I2.
    + intros l [F L]. split; [exact F|]. rewrite L. apply i32_pos_bound.
Qed.
Lemma rt_26 : section_rt sec_26 (Forall (rep_product rep_law26)) (many_of (inv_product LAW26 inv_law26)).
Proof. apply body_section, body_26. Qed.
