(** PropEqual.v -- C61: records compare equal when all their fields do. *)
From Coq Require Import ZifyBool ZifyNat QArith Lqa.
From Verif Require Import Base Disco DiscoProofs Records RecordProofs RecordRT RecordSound Layout Normal LineFacts RealRound RealProofs Spec Sections SecSpec Codec
  PropRecords PropRecords2 PropRecords3 ExKit Equal.
Open Scope Z_scope.

(** ** specification *)
(** the same number *)
Definition same_number (x y : real) : Prop := (valQ x == valQ y)%Q.
Definition same_numbers : list real -> list real -> Prop := Forall2 same_number.
Definition same_cont (a b : cont) : Prop :=
  same_number (c1 a) (c1 b) /\ same_number (c2 a) (c2 b) /\ l1 a = l1 b /\ l2 a = l2 b /\ n1 a = n1 b /\ n2 a = n2 b.
Definition same_list (a b : listr) : Prop :=
  same_number (lC1 a) (lC1 b) /\ same_number (lC2 a) (lC2 b) /\ lL1 a = lL1 b /\ lL2 a = lL2 b /\ lN2 a = lN2 b /\ same_numbers (lB a) (lB b).
Definition same_tab2 (a b : tab2) : Prop :=
  same_number (tC1 a) (tC1 b) /\ same_number (tC2 a) (tC2 b) /\ tL1 a = tL1 b /\ tL2 a = tL2 b /\ tbnd a = tbnd b /\ tint a = tint b.
Definition same_tab1 (a b : tab1) : Prop := same_tab2 (tbase a) (tbase b) /\ same_numbers (tx a) (tx b) /\ same_numbers (ty a) (ty b).
(** finite IEEE 754 doubles: zero, normal and subnormal numbers *)
Definition is_double (x : real) : Prop :=
  (rman x = 0 /\ rexp x = 0) \/ (0 < rman x < 2 ^ 53 /\ -1074 <= rexp x <= 971 /\ (2 ^ 52 <= rman x \/ rexp x = -1074)).
Definition no_minus_zero (x : real) : Prop := ~ (rneg x = true /\ rman x = 0).
Definition plain (x : real) : Prop := is_double x /\ no_minus_zero x.

(** ** proofs *)
Lemma req_spec x y : req x y = true <-> same_number x y.
Proof.
  unfold req, same_number. rewrite andb_true_iff, !rle_spec. split; [intros [A B]; now apply Qle_antisym|intros E; rewrite E; split; apply Qle_refl].
Qed.
Lemma eq_list_spec {A} (eqb : A -> A -> bool) (R : A -> A -> Prop) : (forall a b, eqb a b = true <-> R a b) -> forall l m, eq_list eqb l m = true <-> Forall2 R l m.
Proof.
  intros H. induction l as [|a l IH]; intros [|b m]; cbn.
  1: split; auto. 1, 2: split; intros K; [discriminate K|inversion K].
  rewrite andb_true_iff, H, IH. split; [intros [K1 K2]; now constructor|intros K; inversion K; auto].
Qed.
Lemma Forall2_eq {A} (l m : list A) : Forall2 eq l m <-> l = m.
Proof. split; [intros F; induction F; congruence|intros ->; induction m; auto]. Qed.
Lemma same_sym x y : same_number x y -> same_number y x. Proof. unfold same_number. now intros ->. Qed.
Ltac eqs := repeat rewrite andb_true_iff; rewrite ?req_spec, ?Z.eqb_eq.
Theorem C61_control_exactly : forall a b, eq_cont a b = true <-> same_cont a b.
Proof. intros a b. unfold eq_cont, same_cont. eqs. split; intros K; intuition (try apply same_sym; auto). Qed.
Theorem C61_list_exactly : forall a b, eq_listr a b = true <-> same_list a b.
Proof. intros a b. unfold eq_listr, same_list. eqs. rewrite (eq_list_spec req same_number req_spec). unfold same_numbers. tauto. Qed.
Lemma eq_ints l m : eq_list Z.eqb l m = true <-> l = m.
Proof. rewrite (eq_list_spec Z.eqb eq Z.eqb_eq). apply Forall2_eq. Qed.
Theorem C61_tab2_exactly : forall a b, eq_tab2 a b = true <-> same_tab2 a b.
Proof. intros a b. unfold eq_tab2, same_tab2. eqs. rewrite !eq_ints. tauto. Qed.
Theorem C61_tab1_exactly : forall a b, eq_tab1 a b = true <-> same_tab1 a b.
Proof. intros a b. unfold eq_tab1, same_tab1. eqs. rewrite C61_tab2_exactly, !(eq_list_spec req same_number req_spec). unfold same_numbers. tauto. Qed.
Theorem C61_text_exactly : forall a b, eq_text a b = true <-> a = b.
Proof. intros a b. unfold eq_text. rewrite andb_true_r, (eq_list_spec Ascii.eqb eq Ascii.eqb_eq), Forall2_eq. intuition. Qed.
Theorem C61_directory_exactly : forall a b, eq_dir a b = true <-> a = b.
Proof.
  intros [a1 a2 a3 a4] [b1 b2 b3 b4]. unfold eq_dir. cbn. eqs. split; [intros (-> & -> & -> & -> & _); reflexivity|intros E; injection E as -> -> -> ->; auto].
Qed.
(** the operator != is the negation, for every record *)
Theorem C61_not_equal : forall A (e : A -> A -> bool) a b, not_eq e a b = true <-> ~ e a b = true.
Proof. intros. unfold not_eq. now rewrite negb_true_iff, not_true_iff_false. Qed.

(** an equivalence *)
Definition equivalence {A} (e : A -> A -> bool) : Prop :=
  (forall a, e a a = true) /\ (forall a b, e a b = true -> e b a = true) /\ (forall a b c, e a b = true -> e b c = true -> e a c = true).
Lemma sn_refl x : same_number x x. Proof. unfold same_number. reflexivity. Qed.
Lemma sn_trans x y z : same_number x y -> same_number y z -> same_number x z. Proof. unfold same_number. intros -> H. exact H. Qed.
Lemma sns_refl l : same_numbers l l. Proof. induction l; constructor; auto using sn_refl. Qed.
Lemma sns_sym l m : same_numbers l m -> same_numbers m l. Proof. intros F. induction F; constructor; auto using same_sym. Qed.
Lemma sns_trans l m n : same_numbers l m -> same_numbers m n -> same_numbers l n.
Proof. intros F. revert n. induction F; intros n G; inversion G; subst; constructor; eauto using sn_trans. apply IHF. assumption. Qed.
Lemma equiv_of {A} (e : A -> A -> bool) (R : A -> A -> Prop) : (forall a b, e a b = true <-> R a b) -> (forall a, R a a) -> (forall a b, R a b -> R b a) -> (forall a b c, R a b -> R b c -> R a c) -> equivalence e.
Proof. intros H R1 R2 R3. repeat split; intros *; rewrite ?H; eauto. Qed.
Theorem C61_equivalence : equivalence eq_cont /\ equivalence eq_listr /\ equivalence eq_tab2 /\ equivalence eq_tab1 /\ equivalence eq_text /\ equivalence eq_dir.
Proof.
  split; [apply (equiv_of _ _ C61_control_exactly)|split; [apply (equiv_of _ _ C61_list_exactly)|split; [apply (equiv_of _ _ C61_tab2_exactly)|split; [apply (equiv_of _ _ C61_tab1_exactly)|
    split; [apply (equiv_of _ _ C61_text_exactly)|apply (equiv_of _ _ C61_directory_exactly)]]]]]; try congruence; unfold same_cont, same_list, same_tab1, same_tab2;
    intuition (try congruence; eauto using sn_refl, same_sym, sn_trans, sns_refl, sns_sym, sns_trans).
Qed.

(** ** equal records are identical, but for the sign of zero *)
Lemma man_nonneg x : is_double x -> 0 <= rman x. Proof. intros [[E _]|[H _]]; lia. Qed.
Lemma abs_same x y : is_double x -> is_double y -> same_number x y -> (absQ x == absQ y)%Q /\ (rneg x = rneg y \/ (rman x = 0 /\ rman y = 0)).
Proof.
  intros Dx Dy E. unfold same_number in E. rewrite !valQ_sign in E. assert (Ax := absQ_nonneg x (man_nonneg x Dx)). assert (Ay := absQ_nonneg y (man_nonneg y Dy)).
  assert (Z0 : forall z, 0 <= rman z -> (absQ z == 0)%Q -> rman z = 0).
  { intros z Hz H. unfold absQ in H. assert (P := bp_pos 2 (rexp z) ltac:(lia)). destruct (Z.eq_dec (rman z) 0) as [|N]; [assumption|]. assert (Q1 : (1 <= inject_Z (rman z))%Q) by (change 1%Q with (inject_Z 1); apply ile; lia). nra. }
  destruct (rneg x) eqn:Nx, (rneg y) eqn:Ny; (split; [lra|]); auto; right; split; apply Z0; try apply man_nonneg; auto; lra.
Qed.
Lemma double_unique m e m' e' : 0 < m < 2 ^ 53 -> 0 < m' < 2 ^ 53 -> -1074 <= e -> -1074 <= e' -> (2 ^ 52 <= m \/ e = -1074) -> (2 ^ 52 <= m' \/ e' = -1074) ->
  (inject_Z m * bp 2 e == inject_Z m' * bp 2 e')%Q -> m = m' /\ e = e'.
Proof.
  assert (W : forall m e m' e', 0 < m < 2 ^ 53 -> 0 < m' < 2 ^ 53 -> -1074 <= e -> (2 ^ 52 <= m' \/ e' = -1074) -> e <= e' -> (inject_Z m * bp 2 e == inject_Z m' * bp 2 e')%Q -> m = m' /\ e = e').
  { clear. intros m e m' e' Hm Hm' He N' L E. assert (X : (bp 2 e' == inject_Z (2 ^ (e' - e)) * bp 2 e)%Q) by (rewrite <- bp_int by lia; rewrite <- bp_plus by lia; f_equiv; lia).
    rewrite X in E. assert (P := bp_pos 2 e ltac:(lia)). assert (E' : (inject_Z m == inject_Z (m' * 2 ^ (e' - e)))%Q) by (rewrite inject_Z_mult; nra).
    assert (Em : m = m' * 2 ^ (e' - e)) by (unfold Qeq in E'; cbn in E'; lia). destruct (Z.eq_dec e e') as [->|Ne]; [split; [rewrite Em, Z.sub_diag; cbn; lia|reflexivity]|].
    exfalso. assert (2 <= 2 ^ (e' - e)) by (change 2 with (2 ^ 1) at 1; apply Z.pow_le_mono_r; lia). destruct N' as [N'|N']; [nia|lia]. }
  intros Hm Hm' He He' N N' E. destruct (Z_le_gt_dec e e').
  - eapply W; eauto.
  - destruct (W m' e' m e) as [A B]; auto; try lia. symmetry. exact E.
Qed.
Lemma same_double x y : plain x -> plain y -> same_number x y -> x = y.
Proof.
  intros [Dx Zx] [Dy Zy] E. destruct (abs_same x y Dx Dy E) as [A S]. destruct x as [sx mx ex], y as [sy my ey]. unfold absQ, is_double, no_minus_zero in *. cbn [rneg rman rexp] in *.
  destruct S as [S|[-> ->]].
  - subst sy. destruct Dx as [[-> ->]|(M1 & R1 & N1)], Dy as [[-> ->]|(M2 & R2 & N2)].
    + reflexivity.
    + exfalso. assert (P := bp_pos 2 ey ltac:(lia)). assert (Q1 : (1 <= inject_Z my)%Q) by (change 1%Q with (inject_Z 1); apply ile; lia). assert (inject_Z 0 * bp 2 0 == 0)%Q by reflexivity. nra.
    + exfalso. assert (P := bp_pos 2 ex ltac:(lia)). assert (Q1 : (1 <= inject_Z mx)%Q) by (change 1%Q with (inject_Z 1); apply ile; lia). assert (inject_Z 0 * bp 2 0 == 0)%Q by reflexivity. nra.
    + destruct (double_unique mx ex my ey) as [-> ->]; auto; lia.
  - destruct Dx as [[_ ->]|[]]; [|lia]. destruct Dy as [[_ ->]|[]]; [|lia]. destruct sx; [destruct Zx; auto|]. destruct sy; [destruct Zy; auto|]. reflexivity.
Qed.
Lemma same_doubles l m : Forall plain l -> Forall plain m -> same_numbers l m -> l = m.
Proof. intros F G H. revert F G. induction H; intros F G; [reflexivity|]. inversion F; inversion G; subst. f_equal; [now apply same_double|auto]. Qed.
Theorem C61_identical_control : forall a b, Forall plain [c1 a; c2 a; c1 b; c2 b] -> eq_cont a b = true -> a = b.
Proof.
  intros [a1 a2 a3 a4 a5 a6] [b1 b2 b3 b4 b5 b6] F E. apply C61_control_exactly in E. destruct E as (E1 & E2 & E3 & E4 & E5 & E6). cbn in *. subst.
  rewrite !Forall_cons_iff in F. destruct F as (F1 & F2 & F3 & F4 & _). f_equal; now apply same_double.
Qed.
Theorem C61_identical_list : forall a b, Forall plain (lC1 a :: lC2 a :: lB a) -> Forall plain (lC1 b :: lC2 b :: lB b) -> eq_listr a b = true -> a = b.
Proof.
  intros [a1 a2 a3 a4 a5 a6] [b1 b2 b3 b4 b5 b6] F G E. apply C61_list_exactly in E. destruct E as (E1 & E2 & E3 & E4 & E5 & E6). cbn in *. subst.
  rewrite !Forall_cons_iff in F, G. destruct F as (F1 & F2 & F3), G as (G1 & G2 & G3). f_equal; (now apply same_double) || (now apply same_doubles).
Qed.
Theorem C61_identical_tab2 : forall a b, Forall plain [tC1 a; tC2 a; tC1 b; tC2 b] -> eq_tab2 a b = true -> a = b.
Proof.
  intros [a1 a2 a3 a4 a5 a6] [b1 b2 b3 b4 b5 b6] F E. apply C61_tab2_exactly in E. destruct E as (E1 & E2 & E3 & E4 & E5 & E6). cbn in *. subst.
  rewrite !Forall_cons_iff in F. destruct F as (F1 & F2 & F3 & F4 & _). f_equal; now apply same_double.
Qed.
Theorem C61_identical_tab1 : forall a b, Forall plain [tC1 (tbase a); tC2 (tbase a); tC1 (tbase b); tC2 (tbase b)] -> Forall plain (tx a ++ ty a) -> Forall plain (tx b ++ ty b) -> eq_tab1 a b = true -> a = b.
Proof.
  intros a b F G H E. unfold eq_tab1 in E. apply andb_prop in E. destruct E as [E E3]. apply andb_prop in E. destruct E as [E1 E2]. apply C61_identical_tab2 in E1; [|exact F].
  apply (eq_list_spec req same_number req_spec) in E2. apply (eq_list_spec req same_number req_spec) in E3. apply Forall_app in G. apply Forall_app in H.
  destruct a, b. cbn in *. subst. f_equal; apply same_doubles; tauto.
Qed.
(** so they print the same lines; a negative zero is the exception *)
Theorem C61_minus_zero_refuted : exists a b mat mf mt, eq_cont a b = true /\ Forall is_double [c1 a; c2 a; c1 b; c2 b] /\ pr_cont a mat mf mt <> pr_cont b mat mf mt.
Proof.
  exists (mkcont rzero rzero 0 0 0 0), (mkcont (mkreal true 0 0) rzero 0 0 0 0), 125, 3, 102. split; [vm_compute; reflexivity|]. split; [repeat constructor|]. vm_compute. discriminate.
Qed.

(** ** what is read is a double, and which records compare equal after a round trip *)
Lemma rne_nonneg a b : 0 <= a -> 0 < b -> 0 <= rne a b.
Proof. intros Ha Hb. assert (E := rne_exact 0 b Hb). rewrite Z.mul_0_l in E. rewrite <- E. apply rne_mono; nia. Qed.
Lemma rnd_double a b m e : 0 < a -> 0 < b -> rnd 2 53 (-1074) a b = (m, e) -> m <> 0 -> 0 < m < 2 ^ 53 /\ -1074 <= e /\ (2 ^ 52 <= m \/ e = -1074).
Proof.
  intros Ha Hb E N. assert (P52 : 0 < 2 ^ 52) by (apply Z.pow_pos_nonneg; lia). destruct (Z_le_gt_dec (-1074) (flog 2 a b - (53 - 1))) as [L|L].
  - destruct (rnd_spec 2 53 (-1074) ltac:(lia) ltac:(lia) a b m e Ha Hb L E) as (M & _ & C). change (53 - 1) with 52 in *. split; [lia|]. split; [lia|]. left. lia.
  - destruct (rne_at_range 2 53 (-1074) ltac:(lia) ltac:(lia) a b Ha Hb) as [R _]. unfold rne_at, rexp0 in R. unfold rnd in E. rewrite Z.max_r in R by lia. rewrite Z.max_r in E by lia.
    assert (H0 : 0 <= rne (scn 2 a (-1074)) (scd 2 b (-1074))).
    { apply rne_nonneg; [apply Z.lt_le_incl, scn_pos; lia|apply scd_pos; lia]. }
    destruct (Z.eqb_spec (rne (scn 2 a (-1074)) (scd 2 b (-1074))) (2 ^ 53)) as [K|K]; injection E as <- <-; [change (53 - 1) with 52; change (2 ^ 53) with (2 * 2 ^ 52); lia|lia].
Qed.
Lemma to_double_double s a b x : 0 <= a -> 0 < b -> to_double s a b = Some x -> is_double x.
Proof.
  intros Ha Hb E. unfold to_double in E. destruct (Z.eqb_spec a 0); [injection E as <-; left; auto|]. destruct (rnd 2 53 (-1074) a b) as [m e] eqn:R.
  destruct (Z.eqb_spec m 0); [injection E as <-; left; auto|]. destruct (Z.ltb_spec 971 e); [discriminate|]. injection E as <-. destruct (rnd_double a b m e) as (A & B & C); auto; [lia|]. right. cbn. auto.
Qed.
Theorem C61_read_doubles : forall t x, read_real t = Some x -> is_double x.
Proof.
  intros t x E. unfold read_real in E. destruct (drop_blanks t) as [|c t1]; [injection E as <-; left; auto|]. destruct (take_sign _) as [neg t2]. destruct (span is_digit t2) as [ip t3].
  destruct (match t3 with [] => _ | _ => _ end) as [fp t4]. destruct (ip ++ fp) as [|d ds] eqn:Ed; [discriminate|]. destruct (read_exp t4) as [[k t5]|]; [|discriminate]. destruct (all_blank t5); [|discriminate].
  unfold dec_double in E. pose proof (value_nonneg (d :: ds)). destruct (Z.ltb_spec (k - Z.of_nat (length fp)) 0).
  - eapply to_double_double; [| |exact E]; [lia|apply Z.pow_pos_nonneg; lia].
  - eapply to_double_double; [| |exact E]; [|lia]. apply Z.mul_nonneg_nonneg; [lia|apply Z.pow_nonneg; lia].
Qed.
(** the number is the one of its own 11 columns *)
Definition prints_exactly (x : real) : Prop := exists y, read_real (write_real x) = Some y /\ same_number x y.
Lemma exact_renorm x : moderate x -> (same_number x (renorm x) <-> prints_exactly x).
Proof.
  intros M. destruct (renorm_ok x M) as (R & _). unfold prints_exactly. split; [intros E; eauto|]. intros (y & E & S). rewrite R in E. injection E as <-. exact S.
Qed.
Lemma exact_renorms l : Forall moderate l -> (same_numbers l (map renorm l) <-> Forall prints_exactly l).
Proof.
  intros F. induction F as [|x l M F IH]; cbn; [split; constructor|]. split; intros K; inversion K; subst; constructor; try (apply exact_renorm; assumption); now apply IH.
Qed.
Theorem C61_read_back_control : forall c mat mf mt rest ln, good_tail mat mf mt -> moderate_cont c ->
  exists c' s, rd_cont mat mf mt (mkst (pr_cont c mat mf mt ++ rest) ln) = Ok c' s /\ (eq_cont c c' = true <-> prints_exactly (c1 c) /\ prints_exactly (c2 c)).
Proof.
  intros c mat mf mt rest ln T M. do 2 eexists. split; [apply C01_cont_round_trip_rounded; auto|]. rewrite C61_control_exactly. destruct M as (M1 & M2 & _). unfold same_cont, renorm_cont. cbn.
  rewrite !exact_renorm by assumption. tauto.
Qed.
Theorem C61_read_back_list : forall l mat mf mt rest ln, good_tail mat mf mt -> moderate_list l ->
  exists l' s, rd_list mat mf mt (mkst (pr_list l mat mf mt ++ rest) ln) = Ok l' s /\ (eq_listr l l' = true <-> Forall prints_exactly (lC1 l :: lC2 l :: lB l)).
Proof.
  intros l mat mf mt rest ln T M. do 2 eexists. split; [apply C02_list_round_trip_rounded; auto|]. rewrite C61_list_exactly. destruct M as (M1 & M2 & _ & _ & _ & _ & M3). unfold same_list. cbn [lC1 lC2 lL1 lL2 lN2 lB].
  rewrite !exact_renorm by assumption. rewrite exact_renorms by assumption. rewrite !Forall_cons_iff. tauto.
Qed.
Theorem C61_read_back_tab1 : forall t mat mf mt rest ln, good_tail mat mf mt -> moderate_tab1 t ->
  exists t' s, rd_tab1 mat mf mt (mkst (pr_tab1 t mat mf mt ++ rest) ln) = Ok t' s /\ (eq_tab1 t t' = true <-> Forall prints_exactly (tC1 (tbase t) :: tC2 (tbase t) :: tx t ++ ty t)).
Proof.
  intros t mat mf mt rest ln T M. destruct (renorm_tab1_ok t mat mf mt M) as (K & P & _). exists (renorm_tab1 t). eexists. split.
  - rewrite <- P. apply (reads_tab1 _ _ _ _ K); [now apply good_oktail].
  - rewrite C61_tab1_exactly. destruct M as ((M1 & M2 & _) & _ & _ & _ & M3 & M4). unfold same_tab1, same_tab2, renorm_tab1, renorm_tab2. cbn [tbase tC1 tC2 tL1 tL2 tbnd tint tx ty].
    rewrite !exact_renorm by assumption. rewrite !exact_renorms by assumption. rewrite !Forall_cons_iff, Forall_app. tauto.
Qed.
(** a text that is shorter than its 66 columns comes back padded and is not equal *)
Theorem C61_read_back_text : forall t mat mf mt rest ln, good_tail mat mf mt -> (length t <= 66)%nat -> noLF t ->
  exists t' s, rd_text mat mf mt (mkst (pr_text t mat mf mt ++ rest) ln) = Ok t' s /\ (eq_text t t' = true <-> length t = 66%nat).
Proof.
  intros t mat mf mt rest ln T L N. destruct (C05_text_round_trip t mat mf mt rest ln L N T) as (t' & R & L' & E & _). exists t'. eexists. split; [exact R|]. rewrite C61_text_exactly. split.
  - intros ->. exact L'.
  - intros H. rewrite E, H. symmetry. apply app_nil_r.
Qed.
Example C61_example : eq_listr (mklist r_pi r_one 1 2 3 [r_tiny; r_one]) (mklist r_pi r_one 1 2 3 [r_tiny; r_one]) = true /\ eq_listr (mklist r_pi r_one 1 2 3 [r_tiny; r_one]) (mklist r_pi r_one 1 2 3 [r_tiny; r_pi]) = false
  /\ plain r_pi /\ ~ prints_exactly r_third /\ moderate r_third.
Proof.
  split; [vm_compute; reflexivity|]. split; [vm_compute; reflexivity|]. split; [split; [right; vm_compute; intuition congruence|intros [H _]; discriminate H]|]. split.
  - intros (y & E & S). apply req_spec in S. vm_compute in E. injection E as <-. vm_compute in S. discriminate S.
  - right. vm_compute. intuition congruence.
Qed.
