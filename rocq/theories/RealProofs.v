(** RealProofs.v -- writing and reading reals in 11 columns. *)
From Coq Require Import QArith Qpower Qabs Lqa ZifyBool.
From Verif Require Import Base Disco DiscoProofs RealRound.
Open Scope Z_scope.

(** number of significant digits printed for decimal exponent E *)
Definition zone (E : Z) : Z := if Z.abs E <? 10 then 7 else if Z.abs E <? 100 then 6 else 5.
Lemma zone_range E : 5 <= zone E <= 7.
Proof. unfold zone. destruct (_ <? _); [lia|]. destruct (_ <? _); lia. Qed.

(** ** the text of a formatted number *)
Lemma show_aux_lower fuel : forall n w, 0 <= n -> n < 10 ^ Z.of_nat fuel ->
  10 ^ Z.of_nat w <= n -> (S w <= length (show_aux fuel n []))%nat.
Proof.
  induction fuel as [|f IH]; intros n w H0 H1 H2.
  - change (10 ^ Z.of_nat 0) with 1 in H1. assert (0 < 10 ^ Z.of_nat w) by (apply Z.pow_pos_nonneg; lia). lia.
  - cbn [show_aux]. destruct (Z.ltb_spec n 10) as [L|L].
    + destruct w as [|w]; [simpl; lia|]. exfalso.
      rewrite Nat2Z.inj_succ, Z.pow_succ_r in H2 by lia.
      assert (0 < 10 ^ Z.of_nat w) by (apply Z.pow_pos_nonneg; lia). lia.
    + rewrite show_aux_app, app_length. cbn [length].
      destruct w as [|w]; [lia|]. assert (S w <= length (show_aux f (n / 10) []))%nat; [|lia].
      apply IH.
      * apply Z.div_pos; lia.
      * apply Z.div_lt_upper_bound; [lia|]. rewrite Nat2Z.inj_succ, Z.pow_succ_r in H1 by lia. lia.
      * apply Z.div_le_lower_bound; [lia|]. rewrite Nat2Z.inj_succ, Z.pow_succ_r in H2 by lia. lia.
Qed.

Lemma show_nonneg_length n k : 0 < k -> 10 ^ (k - 1) <= n < 10 ^ k ->
  length (show_nonneg n) = Z.to_nat k.
Proof.
  intros Hk H. assert (0 < 10 ^ (k - 1)) by (apply Z.pow_pos_nonneg; lia).
  assert (U : (length (show_nonneg n) <= Z.to_nat k)%nat).
  { apply show_aux_length; [lia|lia|]. rewrite Z2Nat.id by lia. lia. }
  assert (L : (S (Z.to_nat (k - 1)) <= length (show_nonneg n))%nat).
  { apply show_aux_lower; [lia| |rewrite Z2Nat.id by lia; lia].
    eapply Z.lt_le_trans; [apply log2_fuel; lia|]. apply Z.pow_le_mono_l. lia. }
  lia.
Qed.

(** zero padding does not change the value *)
Lemma value_app a b : value (a ++ b) = fold_left (fun x c => 10 * x + dval c) b (value a).
Proof. unfold value. apply fold_left_app. Qed.
Lemma value_zeros n ds : value (repeat "0"%char n ++ ds) = value ds.
Proof.
  induction n as [|n IH]; [reflexivity|]. cbn [repeat app]. unfold value in *. cbn [fold_left].
  exact IH.
Qed.

Definition fmt_digits (P D : Z) : text :=
  repeat "0"%char (Z.to_nat P - length (show_nonneg D)) ++ show_nonneg D.

Lemma fmt_zone s p d E :
  fmt s p d E = (if s then "-"%char else SP)
    :: firstn 1 (fmt_digits (zone E) (d * 10 ^ (zone E - p))) ++ "."%char ::
       skipn 1 (fmt_digits (zone E) (d * 10 ^ (zone E - p)))
    ++ (if E <? 0 then "-"%char else "+"%char) :: show_nonneg (Z.abs E).
Proof. reflexivity. Qed.

Lemma fmt_rescale s p d E : fmt s p d E = fmt s (zone E) (d * 10 ^ (zone E - p)) E.
Proof. rewrite !fmt_zone. rewrite Z.sub_diag, Z.pow_0_r, Z.mul_1_r. reflexivity. Qed.

Lemma fmt_digits_length P D : 0 < P -> 0 <= D < 10 ^ P -> length (fmt_digits P D) = Z.to_nat P.
Proof.
  intros HP H. unfold fmt_digits. rewrite app_length, repeat_length.
  assert (length (show_nonneg D) <= Z.to_nat P)%nat; [|lia].
  apply show_aux_length; [lia|lia|]. rewrite Z2Nat.id by lia. lia.
Qed.
Lemma fmt_digits_digits P D : 0 <= D -> Forall (fun c => is_digit c = true) (fmt_digits P D).
Proof.
  intros H. unfold fmt_digits. apply Forall_app. split; [|now apply show_nonneg_digits].
  apply Forall_forall. intros c Hc. apply repeat_spec in Hc. now subst.
Qed.
Lemma fmt_digits_value P D : 0 <= D -> value (fmt_digits P D) = D.
Proof. intros H. unfold fmt_digits. rewrite value_zeros. now apply show_nonneg_value. Qed.

Lemma fmt_length s D E : 0 <= D < 10 ^ zone E -> Z.abs E < 1000 ->
  length (fmt s (zone E) D E) = 11%nat.
Proof.
  intros H HE. rewrite fmt_zone, Z.sub_diag, Z.pow_0_r, Z.mul_1_r.
  assert (Z1 := zone_range E).
  cbn [length]. rewrite app_length. cbn [length]. rewrite app_length. cbn [length].
  assert (L := fmt_digits_length (zone E) D ltac:(lia) H).
  rewrite firstn_length, skipn_length, L.
  assert (K : length (show_nonneg (Z.abs E)) = Z.to_nat (8 - zone E)).
  { unfold zone. destruct (Z.ltb_spec (Z.abs E) 10).
    - destruct (Z.eq_dec (Z.abs E) 0) as [->|]; [reflexivity|].
      apply show_nonneg_length; [lia|]. change (10 ^ (8 - 7 - 1)) with 1. change (10 ^ (8 - 7)) with 10. lia.
    - destruct (Z.ltb_spec (Z.abs E) 100).
      + apply show_nonneg_length; [lia|]. change (10 ^ (8 - 6 - 1)) with 10. change (10 ^ (8 - 6)) with 100. lia.
      + apply show_nonneg_length; [lia|]. change (10 ^ (8 - 5 - 1)) with 100. change (10 ^ (8 - 5)) with 1000. lia. }
  rewrite K. lia.
Qed.

Lemma span_nil_head p (c : ascii) t : p c = false -> span p (c :: t) = ([], c :: t).
Proof. intros H. simpl. now rewrite H. Qed.

Lemma all_digits_span ds c t : Forall (fun c => is_digit c = true) ds -> is_digit c = false ->
  span is_digit (ds ++ c :: t) = (ds, c :: t).
Proof. intros H K. apply span_all; auto. Qed.

Lemma span_end ds : Forall (fun c => is_digit c = true) ds -> span is_digit ds = (ds, []).
Proof. intros H. rewrite <- (app_nil_r ds) at 1. now apply span_all. Qed.

Lemma read_fmt s D E : 0 <= D < 10 ^ zone E ->
  read_real (fmt s (zone E) D E) = dec_double s D (E - (zone E - 1)).
Proof.
  intros H. rewrite fmt_zone, Z.sub_diag, Z.pow_0_r, Z.mul_1_r. assert (Z1 := zone_range E).
  assert (L := fmt_digits_length (zone E) D ltac:(lia) H).
  assert (F := fmt_digits_digits (zone E) D ltac:(lia)).
  assert (V := fmt_digits_value (zone E) D ltac:(lia)).
  destruct (fmt_digits (zone E) D) as [|c ds]; [simpl in L; lia|].
  cbn [firstn skipn app]. assert (Hc := Forall_inv F). assert (Hds := Forall_inv_tail F).
  set (ex := (if E <? 0 then "-"%char else "+"%char) :: show_nonneg (Z.abs E)).
  unfold read_real.
  assert (Hbl := is_digit_noblank c Hc).
  assert (Drop : drop_blanks ((if s then "-"%char else SP) :: c :: "."%char :: ds ++ ex)
                 = if s then "-"%char :: c :: "."%char :: ds ++ ex else c :: "."%char :: ds ++ ex).
  { destruct s; [reflexivity|]. unfold drop_blanks. simpl. now rewrite Hbl. }
  rewrite Drop.
  assert (Sg : take_sign (if s then "-"%char :: c :: "."%char :: ds ++ ex else c :: "."%char :: ds ++ ex)
               = (s, c :: "."%char :: ds ++ ex)).
  { destruct s; [reflexivity|]. unfold take_sign.
    rewrite (is_digit_not c "-"%char), (is_digit_not c "+"%char) by auto. reflexivity. }
  assert (Body : forall t0, t0 = c :: "."%char :: ds ++ ex ->
    (let (ip, t3) := span is_digit t0 in
     let (fp, t4) := match t3 with
                     | [] => ([], [])
                     | c :: t' => if Ascii.eqb c "."%char then span is_digit t' else ([], t3)
                     end in
     match ip ++ fp with
     | [] => None
     | _ => match read_exp t4 with
            | Some (k, t5) => if all_blank t5
                then dec_double s (value (ip ++ fp)) (k - Z.of_nat (length fp)) else None
            | None => None
            end
     end) = dec_double s D (E - (zone E - 1))).
  { intros t0 ->. simpl span at 1. rewrite Hc.
    rewrite Ascii.eqb_refl.
    assert (Sp : span is_digit (ds ++ ex) = (ds, ex)).
    { unfold ex. apply all_digits_span; auto. destruct (E <? 0); reflexivity. }
    rewrite Sp. cbn [app].
    assert (Re : read_exp ex = Some (E, [])).
    { unfold ex, read_exp.
      assert (Fx := show_nonneg_digits (Z.abs E) ltac:(lia)).
      assert (Vx := show_nonneg_value (Z.abs E) ltac:(lia)).
      destruct (show_nonneg_cons (Z.abs E)) as (c0 & t0 & E0).
      destruct (Z.ltb_spec E 0); simpl; rewrite span_end by auto; rewrite E0 in *;
        rewrite Vx; f_equal; f_equal; lia. }
    rewrite Re. cbn [all_blank forallb]. rewrite V. f_equal. cbn [length] in L. lia. }
  destruct s; rewrite Sg; now apply Body.
Qed.

(** ** values *)
Definition valQ (x : real) : Q := (inject_Z (rsig x) * bp 2 (rexp x))%Q.
Definition absQ (x : real) : Q := (inject_Z (rman x) * bp 2 (rexp x))%Q.

Lemma rle_spec x y : rle x y = true <-> (valQ x <= valQ y)%Q.
Proof.
  unfold rle, valQ. set (e := Z.min (rexp x) (rexp y)).
  assert (Hx : (bp 2 (rexp x) == inject_Z (2 ^ (rexp x - e)) * bp 2 e)%Q).
  { rewrite <- bp_int by lia. rewrite <- bp_plus by lia. f_equiv. lia. }
  assert (Hy : (bp 2 (rexp y) == inject_Z (2 ^ (rexp y - e)) * bp 2 e)%Q).
  { rewrite <- bp_int by lia. rewrite <- bp_plus by lia. f_equiv. lia. }
  rewrite Hx, Hy. assert (P := bp_pos 2 e ltac:(lia)). rewrite Z.leb_le.
  rewrite inj_le, !inject_Z_mult.
  set (a := inject_Z (rsig x)). set (b := inject_Z (rsig y)).
  set (u := inject_Z (2 ^ (rexp x - e))). set (v := inject_Z (2 ^ (rexp y - e))).
  set (B := bp 2 e) in *. split; intros; nra.
Qed.

Lemma frac1 m : (frac m 1 == inject_Z m)%Q.
Proof. unfold frac. field. Qed.

Lemma dec_frac m e : (frac (scn 2 m (- e)) (scd 2 1 (- e)) == inject_Z m * bp 2 e)%Q.
Proof. rewrite sc_frac by lia. now rewrite frac1, Z.opp_involutive. Qed.

(** to_double on fractions of normal size *)
Lemma to_double_spec s a b : 0 < a -> 0 < b ->
  (bp 2 (-1022) <= frac a b)%Q -> (frac a b < bp 2 1023)%Q ->
  exists m e, to_double s a b = Some (mkreal s m e)
    /\ rnd 2 53 (-1074) a b = (m, e)
    /\ 2 ^ 52 <= m < 2 ^ 53 /\ -1074 <= e <= 971
    /\ (Qabs (frac a b - inject_Z m * bp 2 e) <= bp 2 (-53) * frac a b)%Q.
Proof.
  intros Ha Hb L1 L2. destruct (flog_spec 2 a b ltac:(lia) Ha Hb) as [F1 F2].
  set (f := flog 2 a b) in *.
  assert (Hf1 : -1022 <= f).
  { assert (-1022 < f + 1); [|lia]. apply (bp_lt_inv 2); [lia|]. lra. }
  assert (Hf2 : f < 1023). { apply (bp_lt_inv 2); [lia|]. lra. }
  destruct (rnd 2 53 (-1074) a b) as [m e] eqn:E.
  destruct (rnd_spec 2 53 (-1074) ltac:(lia) ltac:(lia) a b m e Ha Hb) as (M & A & C).
  { fold f. lia. } { exact E. }
  fold f in A, C. change (53 - 1) with 52 in *.
  exists m, e. unfold to_double. replace (a =? 0) with false by lia. rewrite E.
  assert (0 < 2 ^ 52) by (apply Z.pow_pos_nonneg; lia).
  replace (m =? 0) with false by lia.
  assert (He : -1074 <= e <= 971) by lia.
  replace (971 <? e) with false by lia.
  split; [reflexivity|]. split; [reflexivity|]. split; [lia|]. split; [lia|].
  eapply Qle_trans; [exact A|].
  assert (S : ((1 # 2) * bp 2 (f - 52) == bp 2 (-53) * bp 2 f)%Q).
  { rewrite <- bp_plus by lia. replace (-53 + f) with (-1 + (f - 52)) by lia.
    rewrite (bp_plus 2 (-1)) by lia. reflexivity. }
  rewrite S. assert (P := bp_pos 2 (-53) ltac:(lia)). nra.
Qed.

(** dec_double as to_double of a fraction of value n * 10^k *)
Lemma dec_double_frac s n k : 0 < n -> exists a b, 0 < a /\ 0 < b
  /\ dec_double s n k = to_double s a b /\ (frac a b == inject_Z n * bp 10 k)%Q.
Proof.
  intros Hn. unfold dec_double. destruct (Z.ltb_spec k 0).
  - exists n, (10 ^ (- k)). assert (0 < 10 ^ (- k)) by (apply Z.pow_pos_nonneg; lia).
    repeat split; auto. assert (E := frac_mul n (10 ^ (- k)) ltac:(lia)).
    rewrite <- bp_int in E by lia. assert (O := bp_opp 10 k ltac:(lia)).
    rewrite <- E. rewrite <- Qmult_assoc. rewrite (Qmult_comm (bp 10 (- k))), O. ring.
  - exists (n * 10 ^ k), 1. assert (0 < 10 ^ k) by (apply Z.pow_pos_nonneg; lia).
    repeat split; auto; try nia. rewrite frac1, inject_Z_mult, <- bp_int by lia. reflexivity.
Qed.

(** the decimal with zone digits survives: the central lemma *)
Lemma bp_ratio : (10 ^ 8 * bp 2 (-53) < 1 # 2)%Q.
Proof. reflexivity. Qed.

Lemma to_dec_near p D K m e : 0 < m -> 1 <= p <= 7 -> -90000 < K ->
  10 ^ (p - 1) <= D < 10 ^ p ->
  (Qabs (inject_Z D * bp 10 K - inject_Z m * bp 2 e) <= bp 2 (-53) * (inject_Z D * bp 10 K))%Q ->
  to_dec p m e = (D, K + (p - 1)).
Proof.
  intros Hm Hp HK HD HA. unfold to_dec.
  assert (Px : 0 < scn 2 m (- e)) by (apply scn_pos; lia).
  assert (Py : 0 < scd 2 1 (- e)) by (apply scd_pos; lia).
  assert (FE := dec_frac m e).
  assert (R : rnd 10 p (-100000) (scn 2 m (- e)) (scd 2 1 (- e)) = (D, K)).
  { assert (B10 : (bp 10 K == 10 * bp 10 (K - 1))%Q).
    { replace K with (1 + (K - 1)) at 1 by lia. rewrite bp_plus by lia. now rewrite bp1. }
    assert (P := bp_pos 10 (K - 1) ltac:(lia)).
    assert (HD7 : D <= 10 ^ 7).
    { assert (10 ^ p <= 10 ^ 7) by (apply Z.pow_le_mono_r; lia). lia. }
    assert (HD0 : 0 < 10 ^ (p - 1)) by (apply Z.pow_pos_nonneg; lia).
    apply ile in HD7. assert (QD : (0 <= inject_Z D)%Q) by (change 0%Q with (inject_Z 0); apply ile; lia).
    assert (Small : (bp 2 (-53) * (inject_Z D * bp 10 K) < (1 # 2) * bp 10 (K - 1))%Q).
    { rewrite B10. assert (C := bp_ratio).
      change (10 ^ 8)%Q with (inject_Z (10 ^ 8)) in C.
      assert (P2 := bp_pos 2 (-53) ltac:(lia)).
      change (inject_Z (10 ^ 7)) with (10000000%Q) in HD7. change (inject_Z (10 ^ 8)) with (100000000%Q) in C.
      set (d := inject_Z D) in *. set (T := bp 2 (-53)) in *. set (B := bp 10 (K - 1)) in *.
      assert (d * 10 * T <= 100000000 * T)%Q by nra.
      setoid_replace (T * (d * (10 * B)))%Q with ((d * 10 * T) * B)%Q by ring. nra. }
    apply Qabs_Qle_condition in HA. destruct HA as [A1 A2].
    apply rnd_unique; try lia; rewrite FE; lra. }
  rewrite R. reflexivity.
Qed.

(** a p-digit decimal is also a q-digit one, q >= p *)
Lemma scale_digits P D K q : 0 < P -> P <= q -> 10 ^ (P - 1) <= D < 10 ^ P ->
  10 ^ (q - 1) <= D * 10 ^ (q - P) < 10 ^ q
  /\ (inject_Z (D * 10 ^ (q - P)) * bp 10 (K - (q - P)) == inject_Z D * bp 10 K)%Q.
Proof.
  intros HP Hq HD. split.
  - replace (q - 1) with (P - 1 + (q - P)) by lia. replace q with (P + (q - P)) at 4 by lia.
    rewrite !Z.pow_add_r by lia. assert (0 < 10 ^ (q - P)) by (apply Z.pow_pos_nonneg; lia). nia.
  - rewrite inject_Z_mult, <- bp_int by lia. rewrite <- Qmult_assoc, <- bp_plus by lia.
    replace (q - P + (K - (q - P))) with K by lia. reflexivity.
Qed.

Definition zdec (E D : Z) : Prop := 10 ^ (zone E - 1) <= D < 10 ^ zone E.
(** the value D * 10^(E - zone E + 1), of decimal exponent E *)
Definition decQ (E D : Z) : Q := (inject_Z D * bp 10 (E - (zone E - 1)))%Q.

Lemma zdec_pos E D : zdec E D -> 0 < D.
Proof.
  intros [H _]. assert (Z1 := zone_range E).
  assert (0 < 10 ^ (zone E - 1)) by (apply Z.pow_pos_nonneg; lia). lia.
Qed.

(** the double nearest to an ENDF decimal of normal size prints as that decimal
    and hence survives printing and reading *)
Lemma dec_survives s E D : zdec E D -> Z.abs E < 1000 ->
  (bp 2 (-1022) <= decQ E D)%Q -> (decQ E D < bp 2 1023)%Q ->
  exists y, dec_double s D (E - (zone E - 1)) = Some y
    /\ write_real y = fmt s (zone E) D E /\ okr y /\ rneg y = s
    /\ 2 ^ 52 <= rman y < 2 ^ 53 /\ -1074 <= rexp y <= 971.
Proof.
  intros HD HE L1 L2. assert (Dp := zdec_pos E D HD). assert (Z1 := zone_range E).
  destruct (dec_double_frac s D (E - (zone E - 1)) Dp) as (a & b & Ha & Hb & Ed & Ef).
  unfold decQ in *. rewrite <- Ef in L1, L2.
  destruct (to_double_spec s a b Ha Hb L1 L2) as (m & e & Et & _ & Hm & He & A).
  rewrite Ef in A.
  exists (mkreal s m e). rewrite Ed. split; [exact Et|].
  assert (Pm : 0 < m) by (assert (0 < 2 ^ 52) by (apply Z.pow_pos_nonneg; lia); lia).
  assert (T : forall q, zone E <= q <= 7 -> to_dec q m e = (D * 10 ^ (q - zone E), E)).
  { intros q Hq.
    destruct (scale_digits (zone E) D (E - (zone E - 1)) q) as [Sd Sv]; [lia|lia|exact HD|].
    rewrite (to_dec_near q (D * 10 ^ (q - zone E)) (E - (zone E - 1) - (q - zone E)) m e); auto; try lia.
    - f_equal. lia.
    - rewrite Sv. exact A. }
  assert (W : write_real (mkreal s m e) = fmt s (zone E) D E).
  { unfold write_real. cbn [rman rexp rneg]. replace (m =? 0) with false by lia.
    rewrite (T 7) by lia. unfold zone in *.
    destruct (Z.abs E <? 10) eqn:E10.
    - rewrite Z.sub_diag, Z.pow_0_r, Z.mul_1_r. reflexivity.
    - rewrite (T 6) by (destruct (Z.abs E <? 100); lia).
      destruct (Z.abs E <? 100) eqn:E100.
      + rewrite Z.sub_diag, Z.pow_0_r, Z.mul_1_r. reflexivity.
      + rewrite (T 5) by lia. rewrite Z.sub_diag, Z.pow_0_r, Z.mul_1_r. reflexivity. }
  assert (HD' : 0 <= D < 10 ^ zone E) by (destruct HD; lia).
  split; [exact W|]. split; [|simpl; auto].
  split.
  - rewrite W. now apply fmt_length.
  - rewrite W, read_fmt by auto. rewrite Ed. exact Et.
Qed.

(** ** writing an arbitrary double of normal size *)

(** finite doubles of moderate size: zero, or 2^-998 <= |x| < 2^1011 *)
Definition moderate (x : real) : Prop :=
  (rman x = 0 /\ rexp x = 0) \/ (2 ^ 52 <= rman x < 2 ^ 53 /\ -1050 <= rexp x <= 958).

Lemma flog_bounds a b v lo hi : 0 < a -> 0 < b -> (frac a b == v)%Q ->
  (bp 10 lo <= v)%Q -> (v < bp 10 hi)%Q -> lo <= flog 10 a b < hi.
Proof.
  intros Ha Hb E L1 L2. destruct (flog_spec 10 a b ltac:(lia) Ha Hb) as [F1 F2].
  rewrite E in F1, F2. split.
  - assert (lo < flog 10 a b + 1); [|lia]. apply (bp_lt_inv 10); [lia|]. lra.
  - apply (bp_lt_inv 10); [lia|]. lra.
Qed.

(** what to_dec returns *)
Lemma to_dec_spec p m e : 1 <= p <= 7 -> 0 < m ->
  (bp 10 (-400) <= inject_Z m * bp 2 e)%Q -> (inject_Z m * bp 2 e < bp 10 400)%Q ->
  exists d E, to_dec p m e = (d, E) /\ 10 ^ (p - 1) <= d < 10 ^ p
    /\ -400 <= E <= 400
    /\ (inject_Z d * bp 10 (E - (p - 1)) == val 10 (rnd 10 p (-100000) (scn 2 m (- e)) (scd 2 1 (- e))))%Q
    /\ ((1 # 2) * (inject_Z m * bp 2 e) <= inject_Z d * bp 10 (E - (p - 1)))%Q
    /\ (inject_Z d * bp 10 (E - (p - 1)) <= 2 * (inject_Z m * bp 2 e))%Q.
Proof.
  intros Hp Hm L1 L2. unfold to_dec.
  assert (Px : 0 < scn 2 m (- e)) by (apply scn_pos; lia).
  assert (Py : 0 < scd 2 1 (- e)) by (apply scd_pos; lia).
  assert (FE := dec_frac m e).
  set (x := scn 2 m (- e)) in *. set (y := scd 2 1 (- e)) in *.
  assert (Hf := flog_bounds x y _ (-400) 400 Px Py FE L1 L2).
  destruct (rnd 10 p (-100000) x y) as [d k] eqn:R.
  destruct (rnd_spec 10 p (-100000) ltac:(lia) ltac:(lia) x y d k Px Py ltac:(lia) R) as (M & A & C).
  destruct (flog_spec 10 x y ltac:(lia) Px Py) as [F1 F2].
  exists d, (k + (p - 1)). split; [reflexivity|]. split; [exact M|]. split; [lia|].
  replace (k + (p - 1) - (p - 1)) with k by lia. split; [reflexivity|].
  assert (Hle : (bp 10 (flog 10 x y - (p - 1)) <= frac x y)%Q).
  { eapply Qle_trans; [|exact F1]. apply bp_le; lia. }
  apply Qabs_Qle_condition in A. destruct A as [A1 A2]. rewrite FE in *.
  set (v := (inject_Z m * bp 2 e)%Q) in *. set (w := (inject_Z d * bp 10 k)%Q) in *. lra.
Qed.

(** the three roundings *)
Definition r10 (p : Z) (x : real) : Q :=
  val 10 (rnd 10 p (-100000) (scn 2 (rman x) (- rexp x)) (scd 2 1 (- rexp x))).

Lemma moderate_bounds x : moderate x -> rman x <> 0 ->
  (bp 2 (-998) <= absQ x)%Q /\ (absQ x < bp 2 1011)%Q.
Proof.
  intros [[H _]|[[M1 M2] [E1 E2]]] Hn; [congruence|]. unfold absQ.
  apply ile in M1. apply ilt in M2. rewrite <- bp_int in M1, M2 by lia.
  assert (P := bp_pos 2 (rexp x) ltac:(lia)).
  assert (L1 : (bp 2 (-1050) <= bp 2 (rexp x))%Q) by (apply bp_le; lia).
  assert (L2 : (bp 2 (rexp x) <= bp 2 958)%Q) by (apply bp_le; lia).
  assert (P52 := bp_pos 2 52 ltac:(lia)).
  split.
  - replace (-998) with (52 + -1050) by lia. rewrite bp_plus by lia. nra.
  - replace 1011 with (53 + 958) by lia. rewrite bp_plus by lia. nra.
Qed.

Lemma bp_dec_lo : (bp 10 (-400) <= bp 2 (-998))%Q. Proof. apply Qle_bool_iff. vm_compute. reflexivity. Qed.
Lemma bp_dec_hi : (bp 2 1011 < bp 10 400)%Q.
Proof. apply Qnot_le_lt. intros H. apply Qle_bool_iff in H. vm_compute in H. discriminate. Qed.

Lemma dec_exp p d E : 1 <= p -> 10 ^ (p - 1) <= d < 10 ^ p ->
  (bp 10 E <= inject_Z d * bp 10 (E - (p - 1)))%Q
  /\ (inject_Z d * bp 10 (E - (p - 1)) < bp 10 (E + 1))%Q.
Proof.
  intros Hp [H1 H2]. apply ile in H1. apply ilt in H2. rewrite <- bp_int in H1, H2 by lia.
  assert (P := bp_pos 10 (E - (p - 1)) ltac:(lia)). split.
  - replace E with (p - 1 + (E - (p - 1))) at 1 by lia. rewrite bp_plus by lia. nra.
  - replace (E + 1) with (p + (E - (p - 1))) by lia. rewrite bp_plus by lia. nra.
Qed.

Lemma exp_range p d E N : 1 <= p -> 10 ^ (p - 1) <= d < 10 ^ p ->
  (Z.abs E < N <-> (bp 10 (1 - N) <= inject_Z d * bp 10 (E - (p - 1)))%Q
                   /\ (inject_Z d * bp 10 (E - (p - 1)) < bp 10 N)%Q).
Proof.
  intros Hp Hd. destruct (dec_exp p d E Hp Hd) as [L1 L2]. split.
  - intros H. split.
    + eapply Qle_trans; [|exact L1]. apply bp_le; lia.
    + eapply Qlt_le_trans; [exact L2|]. apply bp_le; lia.
  - intros [H1 H2].
    assert (1 - N < E + 1) by (apply (bp_lt_inv 10); [lia|lra]).
    assert (E < N) by (apply (bp_lt_inv 10); [lia|lra]). lia.
Qed.

(** which rounding is printed *)
Definition in7 (x : real) : Prop := (bp 10 (-9) <= r10 7 x)%Q /\ (r10 7 x < bp 10 10)%Q.
Definition in6 (x : real) : Prop := (bp 10 (-99) <= r10 6 x)%Q /\ (r10 6 x < bp 10 100)%Q.

(** every moderate double prints as an ENDF decimal *)
Lemma write_shape x : moderate x -> rman x <> 0 ->
  exists E D, write_real x = fmt (rneg x) (zone E) D E /\ zdec E D /\ Z.abs E < 1000
    /\ (bp 2 (-1022) <= decQ E D)%Q /\ (decQ E D < bp 2 1023)%Q
    /\ ((in7 x /\ decQ E D == r10 7 x)
        \/ (~ in7 x /\ in6 x /\ decQ E D == r10 6 x)
        \/ (~ in7 x /\ ~ in6 x /\ decQ E D == r10 5 x))%Q.
Proof.
  intros Hm Hn. destruct (moderate_bounds x Hm Hn) as [B1 B2].
  assert (Pm : 0 < rman x).
  { destruct Hm as [[H _]|[[H _] _]]; [congruence|].
    assert (0 < 2 ^ 52) by (apply Z.pow_pos_nonneg; lia). lia. }
  assert (C1 := bp_dec_lo). assert (C2 := bp_dec_hi).
  assert (N1 : (bp 2 (-1022) <= bp 2 (-999))%Q) by (apply bp_le; lia).
  assert (N2 : (bp 2 (-998) == 2 * bp 2 (-999))%Q) by reflexivity.
  assert (N3 : (bp 2 1012 == 2 * bp 2 1011)%Q) by reflexivity.
  assert (N4 : (bp 2 1012 <= bp 2 1023)%Q) by (apply bp_le; lia).
  assert (T : forall p, 1 <= p <= 7 -> exists d E, to_dec p (rman x) (rexp x) = (d, E)
      /\ 10 ^ (p - 1) <= d < 10 ^ p /\ Z.abs E < 1000
      /\ (inject_Z d * bp 10 (E - (p - 1)) == r10 p x)%Q
      /\ (bp 2 (-1022) <= r10 p x)%Q /\ (r10 p x < bp 2 1023)%Q).
  { intros p Hp. unfold absQ in *.
    destruct (to_dec_spec p (rman x) (rexp x) Hp Pm) as (d & E & T1 & T2 & T3 & T4 & T5 & T6); [lra|lra|].
    exists d, E. split; [exact T1|]. split; [exact T2|]. split; [lia|]. split; [exact T4|].
    unfold r10. rewrite <- T4. split; lra. }
  assert (Fin : forall p d E, 1 <= p <= zone E -> 10 ^ (p - 1) <= d < 10 ^ p -> Z.abs E < 1000 ->
      (inject_Z d * bp 10 (E - (p - 1)) == r10 p x)%Q ->
      (bp 2 (-1022) <= r10 p x)%Q -> (r10 p x < bp 2 1023)%Q ->
      fmt (rneg x) p d E = fmt (rneg x) (zone E) (d * 10 ^ (zone E - p)) E
      /\ zdec E (d * 10 ^ (zone E - p)) /\ Z.abs E < 1000
      /\ (bp 2 (-1022) <= decQ E (d * 10 ^ (zone E - p)))%Q
      /\ (decQ E (d * 10 ^ (zone E - p)) < bp 2 1023)%Q
      /\ (decQ E (d * 10 ^ (zone E - p)) == r10 p x)%Q).
  { intros p d E Hp Hd HE Ev R1 R2.
    destruct (scale_digits p d (E - (p - 1)) (zone E)) as [S1 S2]; [lia|lia|exact Hd|].
    assert (V : (decQ E (d * 10 ^ (zone E - p)) == r10 p x)%Q).
    { unfold decQ. replace (E - (zone E - 1)) with (E - (p - 1) - (zone E - p)) by lia.
      rewrite S2. exact Ev. }
    split; [apply fmt_rescale|]. split; [exact S1|]. split; [exact HE|]. rewrite V. split; [exact R1|]. split; [exact R2|reflexivity]. }
  destruct (T 7 ltac:(lia)) as (d7 & E7 & T7 & D7 & A7 & V7 & L7 & U7).
  assert (I7 := exp_range 7 d7 E7 10 ltac:(lia) D7). rewrite V7 in I7. change (1 - 10) with (-9) in I7.
  fold (in7 x) in I7.
  unfold write_real. replace (rman x =? 0) with false by lia. rewrite T7.
  destruct (Z.ltb_spec (Z.abs E7) 10) as [H7|H7].
  { exists E7, (d7 * 10 ^ (zone E7 - 7)).
    destruct (Fin 7 d7 E7) as (X1 & X2 & X3 & X4 & X5 & X6); auto.
    { unfold zone. replace (Z.abs E7 <? 10) with true by lia. lia. }
    repeat (split; [assumption|]). left. split; [now apply I7|exact X6]. }
  assert (Nin7 : ~ in7 x) by (intros K; apply I7 in K; lia).
  destruct (T 6 ltac:(lia)) as (d6 & E6 & T6 & D6 & A6 & V6 & L6 & U6).
  assert (I6 := exp_range 6 d6 E6 100 ltac:(lia) D6). rewrite V6 in I6. change (1 - 100) with (-99) in I6.
  fold (in6 x) in I6. rewrite T6.
  destruct (Z.ltb_spec (Z.abs E6) 100) as [H6|H6].
  { exists E6, (d6 * 10 ^ (zone E6 - 6)).
    destruct (Fin 6 d6 E6) as (X1 & X2 & X3 & X4 & X5 & X6); auto.
    { unfold zone. replace (Z.abs E6 <? 100) with true by lia. destruct (_ <? 10); lia. }
    repeat (split; [assumption|]). right. left. split; [exact Nin7|]. split; [now apply I6|exact X6]. }
  assert (Nin6 : ~ in6 x) by (intros K; apply I6 in K; lia).
  destruct (T 5 ltac:(lia)) as (d5 & E5 & T5 & D5 & A5 & V5 & L5 & U5). rewrite T5.
  exists E5, (d5 * 10 ^ (zone E5 - 5)).
  destruct (Fin 5 d5 E5) as (X1 & X2 & X3 & X4 & X5 & X6); auto.
  { assert (Z1 := zone_range E5). lia. }
  repeat (split; [assumption|]). right. right. auto.
Qed.

(** ** print, read, print again *)
(** the double read back from the printed form *)
Definition renorm (x : real) : real :=
  match read_real (write_real x) with Some y => y | None => x end.

Lemma renorm_zero x : rman x = 0 -> rexp x = 0 -> renorm x = x /\ okr x.
Proof.
  intros H1 H2. destruct x as [s m e]. simpl in *. subst.
  destruct s; split; try reflexivity; split; reflexivity.
Qed.

Lemma renorm_ok x : moderate x ->
  read_real (write_real x) = Some (renorm x) /\ okr (renorm x)
  /\ write_real (renorm x) = write_real x.
Proof.
  intros Hm. destruct (Z.eq_dec (rman x) 0) as [H0|H0].
  - assert (rexp x = 0).
    { destruct Hm as [[_ H]|[[H _] _]]; auto.
      assert (0 < 2 ^ 52) by (apply Z.pow_pos_nonneg; lia). lia. }
    destruct (renorm_zero x H0 H) as [E K]. rewrite E. split; [apply K|]. auto.
  - destruct (write_shape x Hm H0) as (E & D & W & Zd & HE & L1 & L2 & _).
    destruct (dec_survives (rneg x) E D Zd HE L1 L2) as (y & Dy & Wy & Ky & _).
    assert (R : read_real (write_real x) = Some y).
    { rewrite W, read_fmt; [exact Dy|]. assert (P := zdec_pos E D Zd). destruct Zd. lia. }
    unfold renorm. rewrite R. split; [reflexivity|]. split; [exact Ky|congruence].
Qed.

Lemma okr_renorm x : okr x -> renorm x = x.
Proof. intros [_ H]. unfold renorm. now rewrite H. Qed.

(** every moderate double prints in 11 columns *)
Lemma write_length x : moderate x -> length (write_real x) = 11%nat.
Proof.
  intros Hm. destruct (renorm_ok x Hm) as (_ & [K _] & <-). exact K.
Qed.

(** ** monotony *)
Lemma r10_mono p x y : 1 <= p -> 0 < rman x -> 0 < rman y -> (absQ x <= absQ y)%Q ->
  (r10 p x <= r10 p y)%Q.
Proof.
  intros Hp Hx Hy H. unfold r10. apply rnd_mono; try lia; try (apply scn_pos; lia); try (apply scd_pos; lia).
  rewrite !dec_frac. exact H.
Qed.

(** rounding of a power of ten is exact *)
Lemma rnd_pow10 p K x y : 1 <= p -> -90000 < K - p -> 0 < x -> 0 < y ->
  (frac x y == bp 10 K)%Q -> (val 10 (rnd 10 p (-100000) x y) == bp 10 K)%Q.
Proof.
  intros Hp HK Hx Hy E.
  assert (V : (inject_Z (10 ^ (p - 1)) * bp 10 (K - (p - 1)) == bp 10 K)%Q).
  { rewrite <- bp_int, <- bp_plus by lia. f_equiv. lia. }
  assert (P := bp_pos 10 (K - (p - 1) - 1) ltac:(lia)).
  rewrite (rnd_unique 10 p (-100000) ltac:(lia) Hp x y (10 ^ (p - 1)) (K - (p - 1))); auto.
  - split; [lia|]. apply Z.pow_lt_mono_r; lia.
  - lia.
  - rewrite V, E. lra.
  - rewrite V, E. lra.
Qed.

Lemma pow10_frac K : exists x y, 0 < x /\ 0 < y /\ (frac x y == bp 10 K)%Q.
Proof.
  exists (scn 10 1 (- K)), (scd 10 1 (- K)). split; [apply scn_pos; lia|].
  split; [apply scd_pos; lia|]. rewrite sc_frac by lia. rewrite frac1, Z.opp_involutive. ring.
Qed.

Lemma r10_ge_pow p K x : 1 <= p -> -90000 < K - p -> 0 < rman x -> (bp 10 K <= absQ x)%Q ->
  (bp 10 K <= r10 p x)%Q.
Proof.
  intros Hp HK Hx H. destruct (pow10_frac K) as (a & b & Ha & Hb & E).
  rewrite <- (rnd_pow10 p K a b) by auto. apply rnd_mono; try lia;
    try (apply scn_pos; lia); try (apply scd_pos; lia).
  rewrite dec_frac, E. exact H.
Qed.
Lemma r10_le_pow p K x : 1 <= p -> -90000 < K - p -> 0 < rman x -> (absQ x <= bp 10 K)%Q ->
  (r10 p x <= bp 10 K)%Q.
Proof.
  intros Hp HK Hx H. destruct (pow10_frac K) as (a & b & Ha & Hb & E).
  rewrite <- (rnd_pow10 p K a b) by auto. apply rnd_mono; try lia;
    try (apply scn_pos; lia); try (apply scd_pos; lia).
  rewrite dec_frac, E. exact H.
Qed.

(** reaching a power of ten with more digits means reaching it with fewer *)
Lemma r10_ge_fewer p q K x : 1 <= q < p -> p <= 7 -> -1000 < K < 1000 -> moderate x -> rman x <> 0 ->
  (bp 10 K <= r10 p x)%Q -> (bp 10 K <= r10 q x)%Q.
Proof.
  intros Hq Hp HK Hm Hn H. destruct (moderate_bounds x Hm Hn) as [B1 B2].
  assert (Pm : 0 < rman x).
  { destruct Hm as [[H0 _]|[[H0 _] _]]; [congruence|].
    assert (0 < 2 ^ 52) by (apply Z.pow_pos_nonneg; lia). lia. }
  destruct (Qlt_le_dec (absQ x) (bp 10 K)) as [L|L]; [|apply r10_ge_pow; auto; lia].
  assert (C1 := bp_dec_lo). assert (C2 := bp_dec_hi).
  assert (FE := dec_frac (rman x) (rexp x)). fold (absQ x) in FE.
  assert (Px : 0 < scn 2 (rman x) (- rexp x)) by (apply scn_pos; lia).
  assert (Py : 0 < scd 2 1 (- rexp x)) by (apply scd_pos; lia).
  unfold r10 in *.
  set (a := scn 2 (rman x) (- rexp x)) in *. set (b := scd 2 1 (- rexp x)) in *.
  assert (Hf := flog_bounds a b _ (-400) 400 Px Py FE ltac:(lra) ltac:(lra)).
  destruct (flog_spec 10 a b ltac:(lia) Px Py) as [F1 F2].
  assert (Hfk : flog 10 a b < K) by (apply (bp_lt_inv 10); [lia|]; rewrite FE in F1; lra).
  destruct (rnd 10 p (-100000) a b) as [d k] eqn:R.
  destruct (rnd_spec 10 p (-100000) ltac:(lia) ltac:(lia) a b d k Px Py ltac:(lia) R) as (M & A & _).
  unfold val in H. cbn [fst snd] in H.
  apply Qabs_Qle_condition in A. destruct A as [A1 A2].
  assert (Hle : (bp 10 (flog 10 a b - (p - 1)) <= bp 10 (K - p))%Q) by (apply bp_le; lia).
  assert (Hlt : (bp 10 (K - p) < bp 10 (K - q))%Q) by (apply bp_lt; lia).
  assert (V : (inject_Z (10 ^ (q - 1)) * bp 10 (K - (q - 1)) == bp 10 K)%Q).
  { rewrite <- bp_int, <- bp_plus by lia. f_equiv. lia. }
  rewrite (rnd_unique 10 q (-100000) ltac:(lia) ltac:(lia) a b (10 ^ (q - 1)) (K - (q - 1))); auto.
  - unfold val. cbn [fst snd]. rewrite V. lra.
  - split; [lia|]. apply Z.pow_lt_mono_r; lia.
  - lia.
  - replace (K - (q - 1) - 1) with (K - q) by lia. rewrite V, FE in *. lra.
  - replace (K - (q - 1) - 1) with (K - q) by lia. rewrite V, FE in *.
    assert (P := bp_pos 10 (K - q) ltac:(lia)). lra.
Qed.

(** the printed decimal is a monotone function of the magnitude *)
Lemma printed_mono x y dx dy : moderate x -> moderate y -> rman x <> 0 -> rman y <> 0 ->
  (absQ x <= absQ y)%Q ->
  ((in7 x /\ dx == r10 7 x) \/ (~ in7 x /\ in6 x /\ dx == r10 6 x)
     \/ (~ in7 x /\ ~ in6 x /\ dx == r10 5 x))%Q ->
  ((in7 y /\ dy == r10 7 y) \/ (~ in7 y /\ in6 y /\ dy == r10 6 y)
     \/ (~ in7 y /\ ~ in6 y /\ dy == r10 5 y))%Q ->
  (dx <= dy)%Q.
Proof.
  intros Mx My Nx Ny H Hx Hy.
  assert (Px : 0 < rman x).
  { destruct Mx as [[H0 _]|[[H0 _] _]]; [congruence|].
    assert (0 < 2 ^ 52) by (apply Z.pow_pos_nonneg; lia). lia. }
  assert (Py : 0 < rman y).
  { destruct My as [[H0 _]|[[H0 _] _]]; [congruence|].
    assert (0 < 2 ^ 52) by (apply Z.pow_pos_nonneg; lia). lia. }
  assert (M7 := r10_mono 7 x y ltac:(lia) Px Py H).
  assert (M6 := r10_mono 6 x y ltac:(lia) Px Py H).
  assert (M5 := r10_mono 5 x y ltac:(lia) Px Py H).
  (* x below the window of y, with fewer digits *)
  assert (Below : forall p q K, 1 <= q <= 7 -> 1 <= p <= 7 -> -1000 < K < 1000 ->
            ~ (bp 10 K <= r10 p x)%Q -> (r10 q x <= bp 10 K)%Q).
  { intros p q K Hq Hp HK Hl. apply r10_le_pow; try lia.
    destruct (Qlt_le_dec (absQ x) (bp 10 K)) as [L|L]; [lra|].
    elim Hl. apply r10_ge_pow; auto; lia. }
  destruct Hx as [[Ix Ex]|[(Ix & Jx & Ex)|(Ix & Jx & Ex)]];
  destruct Hy as [[Iy Ey]|[(Iy & Jy & Ey)|(Iy & Jy & Ey)]]; rewrite Ex, Ey; auto.
  - (* 7 then 6 *) unfold in7 in *. assert (G : (bp 10 10 <= r10 7 y)%Q).
    { destruct (Qlt_le_dec (r10 7 y) (bp 10 10)); auto. elim Iy. split; lra. }
    assert (K := r10_ge_fewer 7 6 10 y ltac:(lia) ltac:(lia) ltac:(lia) My Ny G). lra.
  - unfold in7 in *. assert (G : (bp 10 10 <= r10 7 y)%Q).
    { destruct (Qlt_le_dec (r10 7 y) (bp 10 10)); auto. elim Iy. split; lra. }
    assert (K := r10_ge_fewer 7 5 10 y ltac:(lia) ltac:(lia) ltac:(lia) My Ny G). lra.
  - (* 6 then 7 *) unfold in7 in *.
    assert (B := Below 7 6 (-9) ltac:(lia) ltac:(lia) ltac:(lia)).
    assert (~ (bp 10 (-9) <= r10 7 x)%Q) by (intros K; apply Ix; split; [exact K|lra]).
    specialize (B H0). lra.
  - (* 6 then 5 *) unfold in6 in *. assert (G : (bp 10 100 <= r10 6 y)%Q).
    { destruct (Qlt_le_dec (r10 6 y) (bp 10 100)); auto. elim Jy. split; lra. }
    assert (K := r10_ge_fewer 6 5 100 y ltac:(lia) ltac:(lia) ltac:(lia) My Ny G). lra.
  - (* 5 then 7 *) unfold in7 in *.
    assert (B := Below 7 5 (-9) ltac:(lia) ltac:(lia) ltac:(lia)).
    assert (~ (bp 10 (-9) <= r10 7 x)%Q) by (intros K; apply Ix; split; [exact K|lra]).
    specialize (B H0). lra.
  - (* 5 then 6 *) unfold in6 in *.
    assert (B := Below 6 5 (-99) ltac:(lia) ltac:(lia) ltac:(lia)).
    assert (~ (bp 10 (-99) <= r10 6 x)%Q) by (intros K; apply Jx; split; [exact K|lra]).
    specialize (B H0). lra.
Qed.

(** magnitude and sign of the value read back *)
Lemma renorm_abs x : moderate x -> rman x <> 0 ->
  exists E D a b, zdec E D /\ 0 < a /\ 0 < b /\ (frac a b == decQ E D)%Q
    /\ (absQ (renorm x) == val 2 (rnd 2 53 (-1074) a b))%Q /\ rneg (renorm x) = rneg x
    /\ 0 < rman (renorm x)
    /\ ((in7 x /\ decQ E D == r10 7 x) \/ (~ in7 x /\ in6 x /\ decQ E D == r10 6 x)
        \/ (~ in7 x /\ ~ in6 x /\ decQ E D == r10 5 x))%Q.
Proof.
  intros Hm H0. destruct (write_shape x Hm H0) as (E & D & W & Zd & HE & L1 & L2 & Hz).
  assert (Dp := zdec_pos E D Zd).
  destruct (dec_double_frac (rneg x) D (E - (zone E - 1)) Dp) as (a & b & Ha & Hb & Ed & Ef).
  fold (decQ E D) in Ef. exists E, D, a, b.
  assert (R : read_real (write_real x) = to_double (rneg x) a b).
  { rewrite W, read_fmt; [exact Ed|]. destruct Zd. lia. }
  rewrite <- Ef in L1, L2.
  destruct (to_double_spec (rneg x) a b Ha Hb L1 L2) as (m & e & Et & Er & Hmm & _).
  unfold renorm. rewrite R, Et. cbn [rneg rman]. rewrite Er. unfold absQ, val. cbn [rman rexp fst snd].
  repeat (split; [solve [auto|reflexivity]|]). split; [|exact Hz].
  assert (0 < 2 ^ 52) by (apply Z.pow_pos_nonneg; lia). lia.
Qed.

Lemma valQ_sign x : (valQ x == if rneg x then - absQ x else absQ x)%Q.
Proof.
  unfold valQ, absQ, rsig. destruct (rneg x); [|reflexivity]. rewrite inject_Z_opp. ring.
Qed.
Lemma absQ_nonneg x : 0 <= rman x -> (0 <= absQ x)%Q.
Proof.
  intros H. unfold absQ. apply ile in H. change (inject_Z 0) with 0%Q in H.
  assert (P := bp_pos 2 (rexp x) ltac:(lia)). nra.
Qed.

Lemma renorm_abs_mono x y : moderate x -> moderate y -> (absQ x <= absQ y)%Q ->
  (absQ (renorm x) <= absQ (renorm y))%Q.
Proof.
  intros Mx My H.
  destruct (Z.eq_dec (rman x) 0) as [Zx|Nx].
  { assert (Ex : rexp x = 0).
    { destruct Mx as [[_ K]|[[K _] _]]; auto. assert (0 < 2 ^ 52) by (apply Z.pow_pos_nonneg; lia). lia. }
    destruct (renorm_zero x Zx Ex) as [-> _]. unfold absQ at 1. rewrite Zx.
    setoid_replace (inject_Z 0 * bp 2 (rexp x))%Q with 0%Q by (change (inject_Z 0) with 0%Q; ring).
    apply absQ_nonneg. destruct (renorm_ok y My) as (_ & K & _). eapply read_real_man. apply K. }
  destruct (Z.eq_dec (rman y) 0) as [Zy|Ny].
  { exfalso. destruct (moderate_bounds x Mx Nx) as [B _]. assert (P := bp_pos 2 (-998) ltac:(lia)).
    unfold absQ at 2 in H. rewrite Zy in H. change (inject_Z 0) with 0%Q in H. lra. }
  destruct (renorm_abs x Mx Nx) as (E & D & a & b & Zd & Ha & Hb & F & A & _ & _ & C).
  destruct (renorm_abs y My Ny) as (E' & D' & a' & b' & Zd' & Ha' & Hb' & F' & A' & _ & _ & C').
  rewrite A, A'. apply rnd_mono; auto; try lia. rewrite F, F'.
  exact (printed_mono x y _ _ Mx My Nx Ny H C C').
Qed.

Lemma renorm_sign x : moderate x -> rneg (renorm x) = rneg x.
Proof.
  intros Mx. destruct (Z.eq_dec (rman x) 0) as [Zx|Nx].
  - assert (Ex : rexp x = 0).
    { destruct Mx as [[_ K]|[[K _] _]]; auto. assert (0 < 2 ^ 52) by (apply Z.pow_pos_nonneg; lia). lia. }
    now destruct (renorm_zero x Zx Ex) as [-> _].
  - destruct (renorm_abs x Mx Nx) as (E & D & a & b & _ & _ & _ & _ & _ & S & _). exact S.
Qed.

Lemma moderate_man x : moderate x -> 0 <= rman x.
Proof.
  intros [[-> _]|[[H _] _]]; [lia|]. assert (0 < 2 ^ 52) by (apply Z.pow_pos_nonneg; lia). lia.
Qed.

Lemma renorm_mono x y : moderate x -> moderate y -> rle x y = true ->
  rle (renorm x) (renorm y) = true.
Proof.
  intros Mx My H. apply rle_spec in H. apply rle_spec. rewrite !valQ_sign in *.
  rewrite (renorm_sign x Mx), (renorm_sign y My).
  assert (Ax := absQ_nonneg x (moderate_man x Mx)). assert (Ay := absQ_nonneg y (moderate_man y My)).
  assert (Rx : (0 <= absQ (renorm x))%Q).
  { apply absQ_nonneg. destruct (renorm_ok x Mx) as (_ & K & _). eapply read_real_man. apply K. }
  assert (Ry : (0 <= absQ (renorm y))%Q).
  { apply absQ_nonneg. destruct (renorm_ok y My) as (_ & K & _). eapply read_real_man. apply K. }
  destruct (rneg x), (rneg y).
  - assert (K := renorm_abs_mono y x My Mx ltac:(lra)). lra.
  - lra.
  - assert (K1 := renorm_abs_mono x y Mx My ltac:(lra)).
    assert (absQ y == 0)%Q by lra. assert (absQ x == 0)%Q by lra.
    assert (K2 := renorm_abs_mono y x My Mx ltac:(lra)).
    (* both are zero *)
    assert (Z0 : forall z, moderate z -> (absQ z == 0)%Q -> (absQ (renorm z) == 0)%Q).
    { intros z Mz Hz. destruct (Z.eq_dec (rman z) 0) as [Zz|Nz].
      - assert (Ez : rexp z = 0).
        { destruct Mz as [[_ K]|[[K _] _]]; auto. assert (0 < 2 ^ 52) by (apply Z.pow_pos_nonneg; lia). lia. }
        destruct (renorm_zero z Zz Ez) as [-> _]. exact Hz.
      - destruct (moderate_bounds z Mz Nz) as [B _]. assert (P := bp_pos 2 (-998) ltac:(lia)). lra. }
    rewrite (Z0 x Mx), (Z0 y My) by auto. lra.
  - apply renorm_abs_mono; auto.
Qed.

(** ** short decimals and integers *)
Lemma flog_ext b x y x' y' : 1 < b -> 0 < x -> 0 < y -> 0 < x' -> 0 < y' ->
  (frac x y == frac x' y')%Q -> flog b x y = flog b x' y'.
Proof.
  intros Hb Hx Hy Hx' Hy' E.
  destruct (flog_spec b x y Hb Hx Hy) as [F1 F2]. destruct (flog_spec b x' y' Hb Hx' Hy') as [G1 G2].
  assert (flog b x y < flog b x' y' + 1) by (apply (bp_lt_inv b); auto; lra).
  assert (flog b x' y' < flog b x y + 1) by (apply (bp_lt_inv b); auto; lra). lia.
Qed.

(** rounding depends on the value only *)
Lemma rnd_ext b p emin x y x' y' : 1 < b -> 0 < x -> 0 < y -> 0 < x' -> 0 < y' ->
  (frac x y == frac x' y')%Q -> rnd b p emin x y = rnd b p emin x' y'.
Proof.
  intros Hb Hx Hy Hx' Hy' E. unfold rnd. rewrite (flog_ext b x y x' y') by auto.
  set (e := Z.max _ emin).
  assert (R : rne (scn b x e) (scd b y e) = rne (scn b x' e) (scd b y' e)).
  { assert (P := scd_pos b y e Hy ltac:(lia)). assert (P' := scd_pos b y' e Hy' ltac:(lia)).
    apply Z.le_antisymm; apply rne_monoQ; auto; rewrite !sc_frac by auto; rewrite E; lra. }
  now rewrite R.
Qed.

Lemma to_double_ext s a b a' b' : 0 < a -> 0 < b -> 0 < a' -> 0 < b' ->
  (frac a b == frac a' b')%Q -> to_double s a b = to_double s a' b'.
Proof.
  intros. unfold to_double. rewrite (rnd_ext 2 53 (-1074) a b a' b') by (auto; lia).
  replace (a =? 0) with false by lia. replace (a' =? 0) with false by lia. reflexivity.
Qed.

(** a decimal n * 10^k whose digits fit the columns is read as a double that
    prints as the same number and survives print and read *)
Lemma short_decimal s n k : 0 < n ->
  let E := k + ndig 10 n - 1 in
  ndig 10 n <= zone E -> Z.abs E < 1000 ->
  (bp 2 (-1022) <= inject_Z n * bp 10 k)%Q -> (inject_Z n * bp 10 k < bp 2 1023)%Q ->
  exists x, dec_double s n k = Some x /\ okr x /\ rneg x = s
    /\ write_real x = fmt s (zone E) (n * 10 ^ (zone E - ndig 10 n)) E.
Proof.
  intros Hn E Hz HE L1 L2. destruct (ndig_spec 10 n ltac:(lia) Hn) as [J0 J].
  set (j := ndig 10 n) in *.
  destruct (scale_digits j n k (zone E) J0 Hz J) as [S1 S2].
  set (D := n * 10 ^ (zone E - j)) in *.
  assert (Ek : E - (zone E - 1) = k - (zone E - j)) by (unfold E; lia).
  assert (V : (decQ E D == inject_Z n * bp 10 k)%Q) by (unfold decQ; rewrite Ek; exact S2).
  destruct (dec_survives s E D S1 HE) as (y & Y1 & Y2 & Y3 & Y4 & _); [now rewrite V..|].
  exists y. split; [|auto].
  destruct (dec_double_frac s n k Hn) as (a & b & Ha & Hb & Ed & Ef).
  destruct (dec_double_frac s D (E - (zone E - 1)) (zdec_pos E D S1)) as (a' & b' & Ha' & Hb' & Ed' & Ef').
  rewrite Ed, <- Y1, Ed'. apply to_double_ext; auto. rewrite Ef, Ef'. symmetry. exact V.
Qed.

Lemma ndig_le n j : 0 < n < 10 ^ j -> ndig 10 n <= j.
Proof.
  intros H. destruct (ndig_spec 10 n ltac:(lia) ltac:(lia)) as [J0 J].
  assert (ndig 10 n - 1 < j); [|lia].
  apply (Z.pow_lt_mono_r_iff 10); [lia| |lia].
  destruct (Z.le_gt_cases 0 j); auto. rewrite Z.pow_neg_r in H by auto. lia.
Qed.

(** integers of at most seven digits (in particular ZA numbers) *)
Lemma okr_of_int z : Z.abs z < 10 ^ 7 -> okr (of_int z).
Proof.
  intros H. unfold of_int. destruct (Z.eq_dec z 0) as [->|Hz]; [split; reflexivity|].
  assert (Hn : 0 < Z.abs z) by lia.
  destruct (ndig_spec 10 (Z.abs z) ltac:(lia) Hn) as [J0 _].
  assert (J := ndig_le (Z.abs z) 7 ltac:(lia)).
  assert (C1 : (bp 2 (-1022) <= 1)%Q) by (change 1%Q with (bp 2 0); apply bp_le; lia).
  assert (C2 : (bp 2 24 <= bp 2 1023)%Q) by (apply bp_le; lia).
  assert (V : (inject_Z (Z.abs z) * bp 10 0 == inject_Z (Z.abs z))%Q) by (rewrite bp0; ring).
  destruct (short_decimal (z <? 0) (Z.abs z) 0 Hn) as (x & X1 & X2 & _).
  - unfold zone. replace (Z.abs _ <? 10) with true by lia. lia.
  - lia.
  - rewrite V. eapply Qle_trans; [exact C1|]. change 1%Q with (inject_Z 1). apply ile. lia.
  - rewrite V. eapply Qlt_le_trans; [|exact C2]. rewrite bp_int by lia. apply ilt.
    change (10 ^ 7) with 10000000 in H. change (2 ^ 24) with 16777216. lia.
  - unfold dec_double in X1. simpl in X1. rewrite Z.pow_0_r, Z.mul_1_r in X1. rewrite X1. exact X2.
Qed.

(** the double nearest to an integer below 2^53 is that integer *)
Lemma of_int_exact z : 0 < Z.abs z < 2 ^ 53 ->
  exists m e, of_int z = mkreal (z <? 0) m e /\ 0 < m
    /\ (inject_Z m * bp 2 e == inject_Z (Z.abs z))%Q.
Proof.
  intros H. set (a := Z.abs z) in *.
  assert (F : (frac a 1 == inject_Z a)%Q) by apply frac1.
  destruct (to_double_spec (z <? 0) a 1) as (m & e & T & R & Hm & He & _); try lia.
  { rewrite F. apply Qle_trans with 1%Q.
    - change 1%Q with (bp 2 0). apply bp_le; lia.
    - change 1%Q with (inject_Z 1). apply ile. lia. }
  { rewrite F. apply Qlt_le_trans with (bp 2 53); [|apply bp_le; lia].
    rewrite bp_int by lia. apply ilt. lia. }
  exists m, e. unfold of_int. fold a. rewrite T. split; [reflexivity|].
  split; [assert (0 < 2 ^ 52) by (apply Z.pow_pos_nonneg; lia); lia|].
  assert (V := rnd_val 2 53 (-1074) ltac:(lia) ltac:(lia) a 1). rewrite R in V.
  unfold val in V. cbn [fst snd] in V. rewrite V.
  destruct (flog_spec 2 a 1 ltac:(lia) ltac:(lia) ltac:(lia)) as [G1 G2]. rewrite F in G1, G2.
  assert (Hf : flog 2 a 1 < 53).
  { apply (bp_lt_inv 2); [lia|]. eapply Qle_lt_trans; [exact G1|]. rewrite bp_int by lia. apply ilt. lia. }
  assert (Hf0 : 0 <= flog 2 a 1).
  { assert (0 < flog 2 a 1 + 1); [|lia]. apply (bp_lt_inv 2); [lia|].
    eapply Qle_lt_trans; [|exact G2]. change (bp 2 0) with (inject_Z 1). apply ile. lia. }
  assert (He0 : rexp0 2 53 (-1074) a 1 = flog 2 a 1 - 52) by (unfold rexp0; lia).
  rewrite He0. set (g := flog 2 a 1) in *. unfold rne_at, scn, scd.
  destruct (Z.ltb_spec (g - 52) 0).
  - replace (rne (a * 2 ^ (- (g - 52))) 1) with (a * 2 ^ (- (g - 52))).
    2:{ symmetry. rewrite <- (Z.mul_1_r (a * _)) at 1. apply rne_exact. lia. }
    rewrite inject_Z_mult, <- bp_int by lia. rewrite <- Qmult_assoc, <- bp_plus by lia.
    replace (- (g - 52) + (g - 52)) with 0 by lia. rewrite bp0. ring.
  - replace (g - 52) with 0 by lia. rewrite Z.pow_0_r. change (1 * 1) with 1.
    rewrite <- (Z.mul_1_r a) at 1. rewrite rne_exact by lia. rewrite bp0. ring.
Qed.

Lemma round_of_int z : Z.abs z < 2 ^ 53 -> round_int (of_int z) = z.
Proof.
  intros H. destruct (Z.eq_dec z 0) as [->|Hz]; [reflexivity|].
  destruct (of_int_exact z ltac:(lia)) as (m & e & -> & Hm & V).
  unfold round_int. cbn [rman rexp rneg].
  assert (Pd : 0 < scd 2 1 (- e)) by (apply scd_pos; lia).
  assert (F := dec_frac m e). rewrite V in F.
  assert (M := frac_mul (scn 2 m (- e)) (scd 2 1 (- e)) Pd). rewrite F in M.
  rewrite <- inject_Z_mult in M. unfold inject_Z, Qeq in M. cbn [Qnum Qden] in M. rewrite !Z.mul_1_r in M.
  rewrite <- M. set (D := scd 2 1 (- e)) in *.
  replace (2 * (Z.abs z * D) + D) with (D + Z.abs z * (2 * D)) by ring.
  rewrite Z.div_add, Z.div_small by lia.
  destruct (Z.ltb_spec z 0); lia.
Qed.
