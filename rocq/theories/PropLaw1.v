(** PropLaw1.v -- C64: the records of MF6 LAW = 1 by name. *)
From Coq Require Import ZifyBool ZifyNat QArith.
From Verif Require Import Base Disco DiscoProofs Records RecordProofs RecordRT RecordSound Layout Normal LineFacts RealRound RealProofs Spec Sections SecSpec Codec SectionProofs SecKit CodecKit
  PropRecords PropRecords3 Sec9 Sec9Spec Sec9Proofs PropSec9 Sec4Spec Sec4Proofs Sec6 Sec6Spec Sec6Proofs Sec6Safe Sec33 Sec33Spec Sec33Proofs ExKit PropSec6 PropSec33
  Sec8 Sec8Spec Sec8Proofs PropSec8 Sec7 Sec7Spec Sec7Proofs PropSec7 Sec2 Sec2Spec Sec2Proofs PropSec2 PropSec28 PropViews Law1.
Open Scope Z_scope.

(** ** specification *)
(** for each of the n energies a set of m cosines, ascending, and m probabilities *)
Definition sets_of (m : Z) (mus fs : list (list real)) : Prop :=
  Forall2 (fun c p => len c = m /\ len p = m /\ ascending real_le c) mus fs.

(** ** proofs: rows *)
Definition rows_tab (es f0s : list real) (mus fs : list (list real)) : list (list real) :=
  map (fun q => fst (fst q) :: snd (fst q) :: interleave2 (fst (snd q)) (snd (snd q))) (combine (combine es f0s) (combine mus fs)).
Lemma f2_cons {A B} (R : A -> B -> Prop) a b l k : Forall2 R (a :: l) (b :: k) -> R a b /\ Forall2 R l k.
Proof. intros H. inversion H; subst. auto. Qed.
Lemma tab_rows_spec h : forall es f0s mus fs b, length es = length f0s -> length es = length mus -> length es = length fs ->
  tab_rows h es f0s mus fs = Val b <-> b = concat (rows_tab es f0s mus fs) /\ sets_of h mus fs.
Proof.
  unfold sets_of. induction es as [|e es IH]; intros [|f f0s] [|m mus] [|p fs] b L1 L2 L3; try discriminate.
  - cbn. split; [intros [= <-]; split; [reflexivity|constructor]|intros (-> & _); reflexivity].
  - injection L1 as L1. injection L2 as L2. injection L3 as L3. cbn [tab_rows rows_tab combine map concat fst snd].
    destruct (is_sorted rlt m) eqn:Sm; cbn [negb].
    + destruct ((length m =? length p)%nat) eqn:Q1; cbn [negb orb].
      * destruct (Z.eqb_spec (Z.of_nat (length m)) h) as [Q2|Q2]; cbn [negb].
        -- split.
           ++ intros E. apply obind_val in E. destruct E as (r & E & K). injection K as <-. apply IH in E; auto. destruct E as (-> & S). split; [reflexivity|]. constructor; [|exact S]. unfold len. split; [lia|]. split; [lia|now apply sorted_R].
           ++ intros (-> & S). apply f2_cons in S. destruct S as (_ & S'). rewrite (proj2 (IH f0s mus fs (concat (rows_tab es f0s mus fs)) L1 L2 L3) (conj eq_refl S')). reflexivity.
        -- split; [discriminate|]. intros (_ & S). apply f2_cons in S. destruct S as ((A & _) & _). unfold len in A. lia.
      * split; [discriminate|]. intros (_ & S). apply f2_cons in S. destruct S as ((A & B & _) & _). unfold len in *. lia.
    + split; [discriminate|]. intros (_ & S). apply f2_cons in S. destruct S as ((_ & _ & A) & _). apply sorted_R in A. congruence.
Qed.
Lemma rows_tab_sizes m : forall es f0s mus fs, sets_of (Z.of_nat m) mus fs -> Forall (fun r => length r = (2 + 2 * m)%nat) (rows_tab es f0s mus fs).
Proof.
  intros es f0s mus fs S. unfold rows_tab. apply Forall_map. apply Forall_forall. intros ((e, f), (c, p)) H. apply in_combine_r in H. cbn [fst snd length].
  assert (K : len c = Z.of_nat m /\ len p = Z.of_nat m). { clear - S H. induction S as [|c' p' mus fs (A & B & _) S IH]; [destruct H|]. destruct H as [[= -> ->]|H]; auto. }
  rewrite interleave_len by (unfold len in K; lia). unfold len in K. lia.
Qed.
Lemma rows_tab_length es f0s mus fs : length es = length f0s -> length es = length mus -> length es = length fs -> length (rows_tab es f0s mus fs) = length es.
Proof. intros A B C. unfold rows_tab. rewrite map_length, !combine_length. lia. Qed.
(** the columns of the rows *)
Lemma rows_energy es f0s mus fs : length es = length f0s -> length es = length mus -> length es = length fs -> map (fun r => nth 0 r rzero) (rows_tab es f0s mus fs) = es.
Proof.
  intros A B C. unfold rows_tab. rewrite map_map. cbn [nth]. rewrite <- (map_map fst fst), combine_fst by (rewrite !combine_length; lia). now apply combine_fst.
Qed.
Lemma rows_f0 es f0s mus fs : length es = length f0s -> length es = length mus -> length es = length fs -> map (fun r => nth 1 r rzero) (rows_tab es f0s mus fs) = f0s.
Proof.
  intros A B C. unfold rows_tab. rewrite map_map. cbn [nth]. rewrite <- (map_map fst snd), combine_fst by (rewrite !combine_length; lia). now apply combine_snd.
Qed.
Lemma rows_mu m es f0s mus fs : sets_of m mus fs -> length es = length f0s -> length es = length mus -> length es = length fs ->
  map (fun c => stride 2 (skipn 2 c)) (rows_tab es f0s mus fs) = mus /\ map (fun c => stride 2 (skipn 3 c)) (rows_tab es f0s mus fs) = fs.
Proof.
  unfold sets_of, rows_tab. intros S. revert es f0s. induction S as [|c p mus fs (A & B & _) S IH]; intros [|e es] [|f f0s] L1 L2 L3; try discriminate; [split; reflexivity|].
  cbn [combine map fst snd]. injection L1 as L1. injection L2 as L2. injection L3 as L3. destruct (IH es f0s L1 L2 L3) as (I1 & I2). rewrite I1, I2. cbn [skipn].
  assert (Lc : length c = length p) by (unfold len in *; lia). split; [now rewrite stride_first|]. f_equal. destruct c as [|x c].
  - destruct p; [reflexivity|discriminate].
  - change (match interleave2 (x :: c) p with [] => [] | _ :: l => l end) with (tl (interleave2 (x :: c) p)). apply stride_snd; [exact Lc|discriminate].
Qed.
Lemma as_int_small z n : as_int z n -> int32 z -> n = z.
Proof. intros A H. apply as_int_get in A. rewrite i32_id in A by exact H. congruence. Qed.

(** ** TabulatedDistribution *)
(** a record that was made: everything given comes back under its name *)
Theorem C64_tabulated : forall lang energy nd na es f0s mus fs l, 0 <= na < 2 ^ 31 -> len es < 2 ^ 31 -> make_tabd1 lang energy nd na es f0s mus fs = Val l ->
  11 <= lang <= 15 /\ len f0s = len es /\ len mus = len es /\ len fs = len es /\ sets_of (na / 2) mus fs
  /\ lC1 l = rzero /\ lC2 l = energy /\ lL1 l = nd /\ lL2 l = na /\ lN2 l = len es
  /\ (es <> [] -> na mod 2 = 0 /\ EP l = es /\ F0 l = Val f0s /\ td_MU l = mus /\ td_F l = fs).
Proof.
  intros lang energy nd na es f0s mus fs l Hn He. unfold make_tabd1. destruct (Nat.eqb_spec (length es) (length f0s)) as [L1|]; [|discriminate]. destruct (Nat.eqb_spec (length es) (length mus)) as [L2|]; [|discriminate].
  destruct (Nat.eqb_spec (length es) (length fs)) as [L3|]; [|discriminate]. cbn [negb orb]. intros E. apply obind_val in E. destruct E as (b & E & K). apply tab_rows_spec in E; auto. destruct E as (-> & S).
  rewrite u32_id in S by lia. apply obind_val in K. destruct K as ([] & K & Q). destruct (lang_tab lang) eqn:Hl; [|discriminate]. injection Q as <-.
  split; [unfold lang_tab in Hl; lia|]. unfold len. do 3 (split; [lia|]). split; [exact S|]. do 5 (split; [reflexivity|]).
  intros Ne. set (m := Z.to_nat (na / 2)). assert (Hm : Z.of_nat m = na / 2) by (unfold m; rewrite Z2Nat.id; [reflexivity|apply Z.div_pos; lia]). rewrite <- Hm in S.
  assert (Sz := rows_tab_sizes m es f0s mus fs S). assert (Lr := rows_tab_length es f0s mus fs L1 L2 L3). assert (Lc := concat_len _ _ Sz). rewrite Lr in Lc.
  assert (Pe : 0 < len es) by (unfold len; destruct es; [congruence|cbn [length]; lia]).
  apply base1_spec in K. destruct K as (D & _ & (a & n & w & A1 & A2 & A3 & A4 & A5)). cbn [lL2 lN2 lB] in *. apply as_int_small in A1; [|unfold int32; lia]. apply as_int_small in A2; [|unfold int32, len in *; lia]. subst a n.
  assert (Ev : na mod 2 = 0 /\ Z.to_nat (2 + na) = (2 + 2 * m)%nat).
  { assert (DM := Z.div_mod na 2 ltac:(lia)). assert (MB := Z.mod_pos_bound na 2 ltac:(lia)). destruct A3 as (_ & A3). unfold len in *. rewrite Lc in A3. subst w.
    replace (Z.of_nat (length es * (2 + 2 * m)) - Z.of_nat (length es) * (na + 2)) with (- (Z.of_nat (length es) * (na mod 2))) in A3 by (rewrite Nat2Z.inj_mul, Nat2Z.inj_add, Nat2Z.inj_mul, Hm; lia).
    assert (Cs : na mod 2 = 0 \/ na mod 2 = 1) by lia. destruct Cs as [Cs|Cs]; [split; [exact Cs|]; lia|]. exfalso. rewrite Cs, Z.mul_1_r in A3.
    apply Z.mod_opp_l_z in A3; [|lia]. rewrite Z.opp_involutive in A3. rewrite Z.mod_small in A3 by lia. lia. }
  destruct Ev as (Ev & Ek). split; [exact Ev|].
  assert (Ch : chunks (length (concat (rows_tab es f0s mus fs))) (Z.to_nat (2 + na)) (concat (rows_tab es f0s mus fs)) = rows_tab es f0s mus fs) by (rewrite Ek; apply chunks_rows; [lia|exact Sz|lia]).
  split; [unfold EP, stride; cbn [lB lL2]; rewrite Ch; now apply rows_energy|]. split.
  - unfold F0. cbn [lB lL2]. rewrite Ek. destruct (concat (rows_tab es f0s mus fs)) as [|x r] eqn:Ec; [cbn in Lc; unfold len in Pe; lia|]. f_equal.
    change r with (tl (x :: r)). rewrite <- Ec. rewrite (stride_second (2 + 2 * m) ltac:(lia) _ x Sz) by (rewrite Ec; reflexivity). now apply rows_f0.
  - unfold td_MU, td_F, chunk_rows. cbn [lB lL2]. rewrite Ch. now apply (rows_mu (Z.of_nat m)).
Qed.
(** and what is accepted: the discrete energies first, the others ascending *)
Theorem C64_tabulated_accepted : forall lang energy nd m es f0s mus fs, 11 <= lang <= 15 -> 0 <= nd <= len es -> 0 <= m -> len es * (2 * m + 2) < 2 ^ 31 -> 2 * m + 2 < 2 ^ 31 ->
  len f0s = len es -> len mus = len es -> len fs = len es -> sets_of m mus fs -> ascending real_le (skipn (Z.to_nat nd) es) ->
  exists l, make_tabd1 lang energy nd (2 * m) es f0s mus fs = Val l.
Proof.
  intros lang energy nd m es f0s mus fs Hl Hd Hm Hs Hs' L1 L2 L3 S As. unfold len in L1, L2, L3. assert (L1' : length es = length f0s) by lia. assert (L2' : length es = length mus) by lia. assert (L3' : length es = length fs) by lia.
  unfold make_tabd1. rewrite <- L1', <- L2', <- L3', Nat.eqb_refl. cbn [negb orb]. rewrite u32_id by lia. replace (2 * m / 2) with m by (rewrite Z.mul_comm, Z.div_mul; lia).
  rewrite (proj2 (tab_rows_spec m es f0s mus fs (concat (rows_tab es f0s mus fs)) L1' L2' L3') (conj eq_refl S)). cbn [obind].
  set (k := Z.to_nat m). assert (Hk : Z.of_nat k = m) by lia. rewrite <- Hk in S. assert (Sz := rows_tab_sizes k es f0s mus fs S). assert (Lr := rows_tab_length es f0s mus fs L1' L2' L3'). assert (Lc := concat_len _ _ Sz). rewrite Lr in Lc.
  set (l := mklist _ _ _ _ _ _). assert (Ek : Z.to_nat (2 + 2 * m) = (2 + 2 * k)%nat) by lia.
  assert (Ep : EP l = es). { unfold EP, stride, l. cbn [lB lL2]. rewrite Ek. rewrite chunks_rows by (exact Sz || lia). now apply rows_energy. }
  assert (B : base1 l = Val tt).
  { unfold base1. rewrite Ep. unfold l. cbn [lL1 lL2]. unfold len in Hd. replace (2 + 2 * m <=? 0) with false by lia. replace ((nd <? 0) || (Z.of_nat (length es) <? nd)) with false by lia.
    rewrite (proj2 (sorted_R _) As). apply size1_spec. exists (2 * m), (len es), (len es * (2 * m + 2)). cbn [lL2 lN2 lB]. assert (P := len_nonneg es). assert (P' : 0 <= len es * (2 * m + 2)) by nia.
    split; [apply as_int_self; unfold int32; lia|]. split; [apply as_int_self; unfold int32; nia|]. split; [|split; [unfold int32; lia|reflexivity]].
    replace (len (concat (rows_tab es f0s mus fs))) with (len es * (2 * m + 2)) by (unfold len; rewrite Lc; lia). apply as_int_self. unfold int32. lia. }
  rewrite B. cbn [obind]. assert (T : lang_tab lang = true) by (unfold lang_tab; lia). rewrite T. eexists. reflexivity.
Qed.
(** refused *)
Theorem C64_tabulated_refused : forall lang energy nd na es f0s mus fs, 0 <= na < 2 ^ 31 ->
  len f0s <> len es \/ len mus <> len es \/ len fs <> len es \/ ~ sets_of (na / 2) mus fs -> make_tabd1 lang energy nd na es f0s mus fs = Throw EStd.
Proof.
  intros lang energy nd na es f0s mus fs Hn H. unfold make_tabd1. destruct (Nat.eqb_spec (length es) (length f0s)) as [L1|]; [|reflexivity]. destruct (Nat.eqb_spec (length es) (length mus)) as [L2|]; [|reflexivity].
  destruct (Nat.eqb_spec (length es) (length fs)) as [L3|]; [|reflexivity]. cbn [negb orb]. rewrite u32_id by lia. unfold len in H. destruct H as [H|[H|[H|H]]]; try lia.
  destruct (tab_rows (na / 2) es f0s mus fs) as [b|e|] eqn:E; [apply tab_rows_spec in E; tauto| |].
  - assert (G : e = EStd); [|now subst]. clear - E. revert f0s mus fs e E. induction es as [|x es IH]; intros [|f f0s] [|m mus] [|p fs] e E; try discriminate. cbn [tab_rows] in E.
    destruct (negb (is_sorted rlt m)); [congruence|]. destruct (_ || _); [congruence|]. destruct (tab_rows (na / 2) es f0s mus fs) eqn:K; cbn [obind] in E; try discriminate. injection E as <-. eapply IH. exact K.
  - exfalso. clear - E. revert f0s mus fs E. induction es as [|x es IH]; intros [|f f0s] [|m mus] [|p fs] E; try discriminate. cbn [tab_rows] in E.
    destruct (negb (is_sorted rlt m)); [congruence|]. destruct (_ || _); [congruence|]. destruct (tab_rows (na / 2) es f0s mus fs) eqn:K; cbn [obind] in E; try discriminate. eapply IH. exact K.
Qed.
(** a record that was read: cosine j and probability j of energy i are at their places in row i *)
Theorem C64_tabulated_read : forall l n, 0 <= lL2 l -> len (lB l) = n * (lL2 l + 2) -> 0 < n ->
  EP l = map (fun i => value (lB l) (Z.of_nat i * (lL2 l + 2))) (seq 0 (Z.to_nat n))
  /\ len (td_MU l) = n /\ len (td_F l) = n
  /\ forall i j, 0 <= i < n -> 0 <= j -> 2 * j + 1 < lL2 l ->
     value (nth (Z.to_nat i) (td_MU l) []) j = value (lB l) (i * (lL2 l + 2) + 2 + 2 * j) /\ value (nth (Z.to_nat i) (td_F l) []) j = value (lB l) (i * (lL2 l + 2) + 3 + 2 * j).
Proof.
  intros l n Ha L Hn. set (k := Z.to_nat (2 + lL2 l)). assert (Lk : length (lB l) = (Z.to_nat n * k)%nat) by (unfold len in L; unfold k; nia).
  destruct (chunk_rows_nth k (Z.to_nat n) l ltac:(lia) Lk) as (R & Rn). 
  assert (Rw : forall i j, (i < Z.to_nat n)%nat -> (j < k)%nat -> nth j (firstn k (skipn (i * k) (lB l))) rzero = nth (i * k + j) (lB l) rzero).
  { intros i j Hi Hj. assert (Q := row_element k (Z.to_nat n) l i j Hj Lk Hi). unfold element in Q. destruct (nth_error _ j) as [y|] eqn:N in Q; [|discriminate]. rewrite (nth_error_nth _ _ rzero N). now injection Q. }
  split.
  { unfold EP, stride. fold k. change (chunks (length (lB l)) k (lB l)) with (chunk_rows k l). rewrite R, map_map. apply map_ext_in. intros i Hi. apply in_seq in Hi. rewrite Rw by lia. unfold value. f_equal. unfold k. nia. }
  unfold td_MU, td_F, len. fold k. rewrite !map_length, Rn. split; [lia|]. split; [lia|]. intros i j Hi Hj Hj2.
  assert (Row : nth (Z.to_nat i) (chunk_rows k l) [] = firstn k (skipn (Z.to_nat i * k) (lB l))).
  { rewrite R. rewrite (nth_indep _ [] ((fun i => firstn k (skipn (i * k) (lB l))) 0%nat)) by (rewrite map_length, seq_length; lia). rewrite (map_nth (fun i => firstn k (skipn (i * k) (lB l)))). rewrite seq_nth by lia. reflexivity. }
  assert (St : forall d, (d + 2 * Z.to_nat j < k)%nat -> value (stride 2 (skipn d (firstn k (skipn (Z.to_nat i * k) (lB l))))) j = nth (Z.to_nat i * k + (d + 2 * Z.to_nat j)) (lB l) rzero).
  { intros d Hd. unfold value. assert (Lrow : length (firstn k (skipn (Z.to_nat i * k) (lB l))) = k) by (rewrite firstn_length, skipn_length; nia).
    assert (N := stride_nth 2 (skipn d (firstn k (skipn (Z.to_nat i * k) (lB l)))) (Z.to_nat j) ltac:(lia)). rewrite skipn_length, Lrow in N.
    destruct (Nat.ltb_spec (Z.to_nat j * 2) (k - d)); [|lia]. rewrite (nth_error_nth _ _ rzero N). rewrite nth_skipn. rewrite Rw by lia. f_equal. lia. }
  split.
  - rewrite (nth_indep _ [] ((fun c => stride 2 (skipn 2 c)) [])) by (rewrite map_length, Rn; lia). rewrite (map_nth (fun c => stride 2 (skipn 2 c))), Row, St by lia. unfold value. f_equal. unfold k. nia.
  - rewrite (nth_indep _ [] ((fun c => stride 2 (skipn 3 c)) [])) by (rewrite map_length, Rn; lia). rewrite (map_nth (fun c => stride 2 (skipn 3 c))), Row, St by lia. unfold value. f_equal. unfold k. nia.
Qed.

(** ** ThermalScatteringData *)
(** rows of n numbers, n at least 2: an energy, a probability and n - 2 cosines *)
Theorem C64_thermal : forall energy n rows, 2 <= n < 2 ^ 31 -> rows <> [] -> Forall (fun r => len r = n) rows -> len rows * n < 2 ^ 31 ->
  let l := make_thermal1 energy n (concat rows) in
  lC2 l = energy /\ lN2 l = n /\ th_NEP l = Val (len rows) /\ th_EP l = Val (map (fun r => value r 0) rows) /\ th_PP l = Val (map (fun r => value r 1) rows)
  /\ th_MU l = Val (map (skipn 2) rows).
Proof.
  intros energy n rows Hn Ne F B l. set (k := Z.to_nat n). assert (Fk : Forall (fun r => length r = k) rows) by (eapply Forall_impl; [|exact F]; intros r H; unfold len in H; lia).
  assert (Lc := concat_len k rows Fk). assert (Ch : chunks (length (concat rows)) k (concat rows) = rows) by (apply chunks_rows; [lia|exact Fk|lia]).
  assert (Pl : 0 < len rows) by (unfold len; destruct rows; [congruence|cbn [length]; lia]).
  split; [reflexivity|]. split; [reflexivity|]. unfold th_NEP, th_EP, th_PP, th_MU, chunk_rows, l. cbn [make_thermal1 lN2 lB npl]. replace (n =? 0) with false by lia. replace (n <=? 0) with false by lia. fold k. split; [|split; [|split]].
  - unfold npl. cbn [lB make_thermal1]. rewrite Lc. replace (Z.of_nat (length rows * k)) with (len rows * n) by (unfold len; nia). rewrite (i32_id (len rows * n)) by (unfold int32; nia).
    rewrite Z.quot_mul by lia. f_equal. apply i32_id. unfold int32. nia.
  - unfold stride. rewrite Ch. reflexivity.
  - unfold drop_exactly. destruct (concat rows) as [|x r] eqn:Ec; [cbn in Lc; unfold len in Pl; nia|]. replace ((1 <? 0) || (Z.of_nat (length (x :: r)) <? 1)) with false by (cbn [length]; lia). cbn [obind].
    change (skipn (Z.to_nat 1) (x :: r)) with (tl (x :: r)). rewrite <- Ec. rewrite (stride_second k ltac:(lia) rows x Fk) by (rewrite Ec; reflexivity). reflexivity.
  - rewrite Ch. rewrite <- (map_id rows) at 1. rewrite map_map. rewrite (all_val_some _ (skipn 2)); [reflexivity|]. eapply Forall_impl; [|exact Fk]. intros r Hr. cbn beta in Hr. unfold drop_exactly. replace ((2 <? 0) || (Z.of_nat (length r) <? 2)) with false by lia. reflexivity.
Qed.
(** a list of cosines for elastic scattering *)
Theorem C64_thermal_cosines : forall energy cosines, len cosines < 2 ^ 31 - 2 -> let l := make_thermal_cosines energy cosines in
  lC2 l = energy /\ th_LTT l = Val 6 /\ th_NEP l = Val 1 /\ th_EP l = Val [energy] /\ th_PP l = Val [of_int 1] /\ th_MU l = Val [cosines].
Proof.
  intros energy cosines H l. assert (P := len_nonneg cosines). assert (E : l = make_thermal1 energy (len cosines + 2) (concat [energy :: of_int 1 :: cosines])) by (unfold l, make_thermal_cosines, make_thermal1; cbn [concat]; now rewrite app_nil_r).
  split; [reflexivity|]. split; [unfold th_LTT, l; cbn [make_thermal_cosines lB lC2]; assert (Q : req energy energy = true) by (unfold req; rewrite (proj2 (rle_spec energy energy) (Qle_refl _)); reflexivity); now rewrite Q|].
  rewrite E. destruct (C64_thermal energy (len cosines + 2) [energy :: of_int 1 :: cosines] ltac:(lia) ltac:(discriminate)) as (_ & _ & A & B & C & D).
  - constructor; [|constructor]. unfold len. cbn [length]. lia.
  - unfold len at 1. cbn [length]. lia.
  - rewrite A, B, C, D. auto.
Qed.
(** which kind of data it is, is decided by the first value alone: elastic if it is the incident energy *)
Theorem C64_thermal_kind : forall l e es, lB l = e :: es ->
  ((valQ e == valQ (lC2 l))%Q -> th_LTT l = Val 6) /\ (~ (valQ e == valQ (lC2 l))%Q -> th_LTT l = Val 5).
Proof.
  intros l e es E. unfold th_LTT. rewrite E. unfold req. destruct (rle e (lC2 l)) eqn:A, (rle (lC2 l) e) eqn:B; cbn [andb]; split; intros H; try reflexivity; exfalso.
  - apply H. apply Qle_antisym; apply rle_spec; assumption.
  - assert (rle (lC2 l) e = true) by (apply rle_spec; rewrite H; apply Qle_refl). congruence.
  - assert (rle e (lC2 l) = true) by (apply rle_spec; rewrite H; apply Qle_refl). congruence.
  - assert (rle e (lC2 l) = true) by (apply rle_spec; rewrite H; apply Qle_refl). congruence.
Qed.
(** nothing is checked: also when a record is read, N2 = 0 makes these undefined *)
Theorem C64_thermal_refuted : exists l, rd_law1_rec 3 9228 6 5 (mkst (pr_list l 9228 6 5) 0) = Ok l (mkst [] 1) /\ th_NEP l = Undef /\ th_EP l = Undef /\ th_PP l = Undef /\ th_MU l = Undef /\ th_LTT l = Undef.
Proof.
  exists (mklist rzero r_one 0 0 0 []). split; [vm_compute; reflexivity|]. repeat split.
Qed.
(** ** the hypotheses are met *)
Example C64_example : exists l, make_tabd1 12 r_pi 1 4 [r_pi; r_tiny; r_one] [r_one; r_one; r_pi] [[r_tiny; r_one]; [r_one; r_one]; [r_one; r_pi]] [[r_pi; r_one]; [r_one; r_one]; [r_one; r_tiny]] = Val l
  /\ td_MU l = [[r_tiny; r_one]; [r_one; r_one]; [r_one; r_pi]] /\ sets_of 2 [[r_tiny; r_one]] [[r_pi; r_one]].
Proof.
  eexists. split; [vm_compute; reflexivity|]. split; [vm_compute; reflexivity|]. constructor; [|constructor]. split; [reflexivity|]. split; [reflexivity|]. apply sorted_R. vm_compute. reflexivity.
Qed.
