(** Sec32Corr.v -- lemmas about the compact correlation matrix of Sec32.v: the numbers and the lines. *)
From Coq Require Import QArith Qabs Qround Lqa ZifyBool ZifyNat.
From Verif Require Import Base Disco DiscoProofs Records RecordProofs RecordRT RealRound RealProofs Spec SecSpec
  SecKit CodecKit Sec9 Sec6 Sec6Proofs Sec33 Sec8 Sec8Proofs Sec7 Sec2 Sec32.
Open Scope Z_scope.

(** ** the numbers *)
Lemma trunc_between n x : 0 <= rman x -> 0 <= n ->
  (inject_Z n <= absQ x)%Q -> (absQ x < inject_Z (n + 1))%Q -> trunc x = if rneg x then - n else n.
Proof.
  intros Hm Hn L1 L2. unfold absQ in *. unfold trunc, rsig. destruct (Z.leb_spec 0 (rexp x)) as [He|He].
  - rewrite bp_int in L1, L2 by lia. rewrite <- inject_Z_mult in L1, L2. rewrite <- Zle_Qle in L1. rewrite <- Zlt_Qlt in L2.
    destruct (rneg x); rewrite ?Z.mul_opp_l; lia.
  - set (e := - rexp x) in *. assert (0 < 2 ^ e) by (apply Z.pow_pos_nonneg; lia).
    assert (B : (bp 2 (rexp x) * inject_Z (2 ^ e) == 1)%Q).
    { rewrite <- bp_int by lia. rewrite <- bp_plus by lia. replace (rexp x + e) with 0 by lia. reflexivity. }
    assert (P : (0 < inject_Z (2 ^ e))%Q) by (change 0%Q with (inject_Z 0); apply ilt; lia).
    assert (L1' : n * 2 ^ e <= rman x).
    { rewrite Zle_Qle. rewrite inject_Z_mult.
      apply Qle_trans with (inject_Z (rman x) * bp 2 (rexp x) * inject_Z (2 ^ e))%Q.
      - apply Qmult_le_compat_r; [exact L1|lra].
      - rewrite <- Qmult_assoc, B. lra. }
    assert (L2' : rman x < (n + 1) * 2 ^ e).
    { rewrite Zlt_Qlt. rewrite inject_Z_mult.
      apply Qle_lt_trans with (inject_Z (rman x) * bp 2 (rexp x) * inject_Z (2 ^ e))%Q.
      - rewrite <- Qmult_assoc, B. lra.
      - apply Qmult_lt_compat_r; [lra|exact L2]. }
    destruct (rneg x).
    + rewrite Z.quot_opp_l by lia. f_equal. rewrite Z.quot_div_nonneg by lia. symmetry.
      apply Z.div_unique with (rman x - n * 2 ^ e); lia.
    + rewrite Z.quot_div_nonneg by lia. symmetry. apply Z.div_unique with (rman x - n * 2 ^ e); lia.
Qed.

(** a double times an integer, in the normal range *)
Lemma times_spec x f : 0 < rman x -> 0 < f ->
  (bp 2 (-1022) <= absQ x * inject_Z f)%Q -> (absQ x * inject_Z f < bp 2 1023)%Q ->
  exists v, times x f = Some v /\ rneg v = rneg x /\ 0 < rman v
    /\ (Qabs (absQ x * inject_Z f - absQ v) <= bp 2 (-53) * (absQ x * inject_Z f))%Q.
Proof.
  intros Hm Hf L1 L2. unfold times, ris0. replace (rman x =? 0) with false by lia.
  assert (F : (frac (scn 2 (rman x * f) (- rexp x)) (scd 2 1 (- rexp x)) == absQ x * inject_Z f)%Q).
  { rewrite dec_frac. unfold absQ. rewrite inject_Z_mult. ring. }
  destruct (to_double_spec (rneg x) (scn 2 (rman x * f) (- rexp x)) (scd 2 1 (- rexp x))) as (m & e & T & _ & R & _ & A).
  - unfold scn. destruct (Z.ltb_spec (- rexp x) 0); [|nia]. apply Z.mul_pos_pos; [nia|]. apply Z.pow_pos_nonneg; lia.
  - unfold scd. destruct (Z.ltb_spec (- rexp x) 0); [lia|]. rewrite Z.mul_1_l. apply Z.pow_pos_nonneg; lia.
  - now rewrite F.
  - now rewrite F.
  - exists (mkreal (rneg x) m e). split; [exact T|]. split; [reflexivity|]. split; [cbn [rman]; lia|].
    unfold absQ at 2. cbn [rman rexp]. rewrite F in A. exact A.
Qed.

Lemma bp53 : (bp 2 (-53) * inject_Z (2 ^ 53) == 1)%Q.
Proof. reflexivity. Qed.
Lemma bp53_val : (bp 2 (-53) == 1 # 9007199254740992)%Q.
Proof. reflexivity. Qed.
Lemma of_int_1 : (valQ (of_int 1) == 1)%Q.
Proof. reflexivity. Qed.
Lemma low_le q : (1 # 100000000 <= q)%Q -> (bp 2 (-1022) <= q)%Q.
Proof.
  intros H. apply Qle_trans with (bp 2 (-30)); [apply bp_le; lia|].
  apply Qle_trans with (1 # 100000000)%Q; [|exact H]. now vm_compute.
Qed.
Lemma high_lt q : (q < 100000000000000)%Q -> (q < bp 2 1023)%Q.
Proof.
  intros H. apply Qlt_le_trans with 100000000000000%Q; [exact H|].
  apply Qle_trans with (bp 2 60); [now vm_compute|apply bp_le; lia].
Qed.
Lemma Qabs_split a b c : (Qabs (a - b) <= c)%Q -> (b - c <= a)%Q /\ (a <= b + c)%Q.
Proof. intros H. apply Qabs_Qle_condition in H. destruct H. split; lra. Qed.

(** what is printed for a number, in terms of the rounded product *)
Lemma convert_spec x f : 0 < rman x -> 0 < f ->
  (1 # 100000000 <= absQ x * inject_Z f)%Q -> (absQ x * inject_Z f < 100000000)%Q ->
  exists v n, (Qabs (absQ x * inject_Z f - v) <= bp 2 (-53) * (absQ x * inject_Z f))%Q
    /\ 0 <= n /\ (inject_Z n <= v)%Q /\ (v < inject_Z (n + 1))%Q
    /\ convert f x = Val (if Qle_bool v 1 then 0 else if rneg x then - n else n).
Proof.
  intros Hm Hf L1 L2. destruct (times_spec x f Hm Hf) as (v & T & N & P & A); [now apply low_le|apply high_lt; lra|].
  assert (P0 : (0 <= absQ v)%Q) by (apply absQ_nonneg; lia).
  exists (absQ v), (Qfloor (absQ v)). split; [exact A|].
  assert (F1 := Qfloor_le (absQ v)). assert (F2 := Qlt_floor (absQ v)).
  assert (F3 : 0 <= Qfloor (absQ v)) by (change 0 with (Qfloor 0); now apply Qfloor_resp_le).
  repeat (split; [assumption|]).
  unfold convert. rewrite T.
  assert (V : valQ (mkreal false (rman v) (rexp v)) = absQ v) by reflexivity.
  destruct (rle _ _) eqn:E.
  - apply rle_spec in E. rewrite V, of_int_1 in E. apply Qle_bool_iff in E. now rewrite E.
  - destruct (Qle_bool (absQ v) 1) eqn:E2.
    + apply Qle_bool_iff in E2. rewrite <- of_int_1, <- V in E2. apply rle_spec in E2. congruence.
    + rewrite (trunc_between (Qfloor (absQ v)) v) by (auto; lia). rewrite N.
      apply int_op_val. split; [reflexivity|]. apply Qabs_split in A. rewrite bp53_val in A.
      assert ((absQ v < 200000000)%Q) by lra.
      assert (inject_Z (Qfloor (absQ v)) < inject_Z 200000000)%Q by (eapply Qle_lt_trans; [exact F1|exact H]).
      rewrite <- Zlt_Qlt in H0. unfold int32. destruct (rneg x); lia.
Qed.

Lemma half_away_spec k f : 0 < Z.abs k < 10000000 -> 0 < f <= 1000000 ->
  exists x, to_double (k <? 0) (2 * Z.abs k + 1) (2 * f) = Some x
    /\ half_away k f = x /\ rneg x = (k <? 0) /\ 0 < rman x
    /\ (Qabs (frac (2 * Z.abs k + 1) (2 * f) - absQ x) <= bp 2 (-53) * frac (2 * Z.abs k + 1) (2 * f))%Q.
Proof.
  intros Hk Hf. assert (M := frac_mul (2 * Z.abs k + 1) (2 * f) ltac:(lia)).
  assert (K1 : (inject_Z 3 <= inject_Z (2 * Z.abs k + 1))%Q) by (apply ile; lia).
  assert (K2 : (inject_Z (2 * Z.abs k + 1) < inject_Z 20000000)%Q) by (apply ilt; lia).
  assert (K3 : (inject_Z (2 * f) <= inject_Z 2000000)%Q) by (apply ile; lia).
  assert (K4 : (inject_Z 2 <= inject_Z (2 * f))%Q) by (apply ile; lia).
  change (inject_Z 3) with 3%Q in *. change (inject_Z 20000000) with 20000000%Q in *.
  change (inject_Z 2000000) with 2000000%Q in *. change (inject_Z 2) with 2%Q in *.
  set (q := frac (2 * Z.abs k + 1) (2 * f)) in *.
  assert (Q1 : (1 # 1000000 <= q)%Q).
  { destruct (Qlt_le_dec q (1 # 1000000)); [exfalso|assumption]. nra. }
  assert (Q2 : (q < 100000000000000)%Q).
  { destruct (Qlt_le_dec q 100000000000000); [assumption|exfalso]. nra. }
  destruct (to_double_spec (k <? 0) (2 * Z.abs k + 1) (2 * f)) as (m & e & T & _ & R & _ & A); try lia.
  - apply low_le. fold q. lra.
  - apply high_lt. exact Q2.
  - exists (mkreal (k <? 0) m e). split; [exact T|]. split; [unfold half_away; now rewrite T|].
    split; [reflexivity|]. split; [cbn [rman]; lia|]. exact A.
Qed.
Lemma convert_half k f : 0 < Z.abs k < 10000000 -> 0 < f <= 1000000 -> convert f (half_away k f) = Val k.
Proof.
  intros Hk Hf. destruct (half_away_spec k f Hk Hf) as (x & _ & -> & N & P & A).
  apply Qabs_split in A. rewrite bp53_val in A.
  assert (M := frac_mul (2 * Z.abs k + 1) (2 * f) ltac:(lia)). set (q := frac (2 * Z.abs k + 1) (2 * f)) in *.
  assert (M' : (q * inject_Z f == inject_Z (Z.abs k) + (1 # 2))%Q).
  { rewrite inject_Z_plus, !inject_Z_mult in M. change (inject_Z 2) with 2%Q in M. change (inject_Z 1) with 1%Q in M. lra. }
  assert (K1 : (1 <= inject_Z (Z.abs k))%Q) by (change 1%Q with (inject_Z 1); apply ile; lia).
  assert (K2 : (inject_Z (Z.abs k) <= 10000000)%Q) by (change 10000000%Q with (inject_Z 10000000); apply ile; lia).
  assert (K4 : (1 <= inject_Z f)%Q) by (change 1%Q with (inject_Z 1); apply ile; lia).
  assert (B : (inject_Z (Z.abs k) + (1 # 2) - (1 # 8) < absQ x * inject_Z f)%Q
              /\ (absQ x * inject_Z f < inject_Z (Z.abs k) + (1 # 2) + (1 # 8))%Q).
  { set (a := inject_Z (Z.abs k)) in *. set (F := inject_Z f) in *. set (y := absQ x) in *.
    destruct A as [A1 A2].
    assert (A1' : (q * F <= (y + (1 # 9007199254740992) * q) * F)%Q) by (apply Qmult_le_compat_r; lra).
    assert (A2' : (y * F <= (q + (1 # 9007199254740992) * q) * F)%Q) by (apply Qmult_le_compat_r; lra).
    assert (E1 : ((y + (1 # 9007199254740992) * q) * F == y * F + (1 # 9007199254740992) * (q * F))%Q) by ring.
    assert (E2 : ((q + (1 # 9007199254740992) * q) * F == q * F + (1 # 9007199254740992) * (q * F))%Q) by ring.
    rewrite E1 in A1'. rewrite E2 in A2'. set (yF := (y * F)%Q) in *. set (qF := (q * F)%Q) in *. lra. }
  destruct B as [B1 B2].
  destruct (convert_spec x f P ltac:(lia)) as (v & n & V & Hn & L1 & L2 & ->); [lra|lra|].
  apply Qabs_split in V. rewrite bp53_val in V. set (xF := (absQ x * inject_Z f)%Q) in *.
  assert (v1 : (inject_Z (Z.abs k) < v)%Q) by lra.
  assert (v2 : (v < inject_Z (Z.abs k) + 1)%Q) by lra.
  assert (n = Z.abs k).
  { assert (inject_Z n < inject_Z (Z.abs k + 1))%Q by (rewrite inject_Z_plus; change (inject_Z 1) with 1%Q; lra).
    assert (inject_Z (Z.abs k) < inject_Z (n + 1))%Q by lra. rewrite <- Zlt_Qlt in H. rewrite <- Zlt_Qlt in H0. lia. }
  subst n. destruct (Qle_bool v 1) eqn:E; [apply Qle_bool_iff in E; lra|].
  rewrite N. f_equal. destruct (Z.ltb_spec k 0); lia.
Qed.

(** ** the lines *)
Fixpoint els (f i j : Z) (ks : list Z) : list (Z * Z * real) :=
  match ks with
  | [] => []
  | k :: ks' => (if k =? 0 then [] else [(i, u32 j, half_away k f)]) ++ els f i (j + 1) ks'
  end.
Lemma els_of_gen f i j ks : forall b,
  flat_map (fun p => if snd p =? 0 then [] else [(i, u32 (j + Z.of_nat (fst p)), half_away (snd p) f)]) (combine (seq b (length ks)) ks)
  = els f i (j + Z.of_nat b) ks.
Proof.
  induction ks as [|k ks IH]; intros b; [reflexivity|].
  cbn [length seq combine flat_map els]. rewrite IH. cbn [fst snd].
  replace (j + Z.of_nat (Datatypes.S b)) with (j + Z.of_nat b + 1) by lia. reflexivity.
Qed.
Lemma elements_els f g : elements_of f g = els f (gi g) (gj g) (gk g).
Proof. unfold elements_of. rewrite els_of_gen. f_equal. lia. Qed.
Lemma els_app f i a : forall j b, els f i j (a ++ b) = els f i j a ++ els f i (j + Z.of_nat (length a)) b.
Proof.
  induction a as [|k a IH]; intros j b; cbn [app els length].
  - now rewrite Z.add_0_r.
  - rewrite IH, <- app_assoc. do 3 f_equal. lia.
Qed.
Lemma els_zeros f i n : forall j, els f i j (repeat 0 n) = [].
Proof. induction n as [|n IH]; intros j; cbn [repeat els]; [reflexivity|]. now rewrite IH. Qed.
Lemma els_strip f i ks : forall j, els f i j (strip0 ks) = els f i j ks.
Proof.
  induction ks as [|k ks IH]; intros j; [reflexivity|]. cbn [strip0 els]. rewrite <- (IH (j + 1)).
  destruct (strip0 ks) as [|a l]; cbn [els].
  - destruct (Z.eqb_spec k 0); cbn [els]; [subst; reflexivity|].
    replace (k =? 0) with false by lia. reflexivity.
  - reflexivity.
Qed.
Lemma elements_strip f g : elements_of f (mkintg (gi g) (gj g) (strip0 (gk g))) = elements_of f g.
Proof. rewrite !elements_els. cbn [gi gj gk]. apply els_strip. Qed.

(** what is left of an element *)
Definition kept (f : Z) (e : Z * Z * Z) : list (Z * Z * real) :=
  let '(i, j, k) := e in if k =? 0 then [] else [(i, j, half_away k f)].
Definition index_ok (e : Z * Z * Z) : Prop := let '(i, j, _) := e in 0 <= i < 100000 /\ 0 <= j < 100000.
Fixpoint ascending_from (i j : Z) (es : list (Z * Z * Z)) : Prop :=
  match es with [] => True | (i', j', _) :: es' => (i' = i -> j < j') /\ ascending_from i' j' es' end.
Record line_ok (n : Z) (P : Z -> Prop) (g : intg) : Prop := mkline_ok
  { lo_i : 0 <= gi g < 100000; lo_j : 0 <= gj g < 100000; lo_n : 1 <= Z.of_nat (length (gk g)) <= n; lo_k : Forall P (gk g) }.

Lemma fill_spec f n (P : Z -> Prop) : 1 <= n <= 1000 -> P 0 -> forall es g,
  line_ok n P g -> Forall index_ok es -> Forall (fun e => P (snd e)) es ->
  ascending_from (gi g) (gj g + Z.of_nat (length (gk g)) - 1) es ->
  flat_map (elements_of f) (fill n g es) = elements_of f g ++ flat_map (kept f) es
  /\ Forall (line_ok n P) (fill n g es) /\ (1 <= length (fill n g es) <= 1 + length es)%nat.
Proof.
  intros Hn P0. induction es as [|((i & j) & k) es IH]; intros g G X K A.
  - cbn [fill flat_map app length]. rewrite app_nil_r. repeat split; [|lia..]. now constructor.
  - inversion X as [|? ? X1 X2]; subst. inversion K as [|? ? K1 K2]; subst. cbn [snd] in K1.
    destruct A as [A1 A2]. destruct G as [Gi Gj Gn Gk]. cbn [index_ok] in X1. destruct X1 as [X1 X1'].
    assert (Eu : u32 (gj g + n) = gj g + n) by (unfold u32; apply Z.mod_small; lia).
    cbn [fill]. rewrite !Eu. clear Eu.
    destruct (Z.eqb_spec i (gi g)) as [Ei|Ei]; cbn [andb].
    + destruct (Z.ltb_spec (Z.of_nat (length (gk g))) n) as [Ln|Ln]; cbn [andb].
      * destruct (Z.ltb_spec j (gj g + n)) as [Lj|Lj]; cbn [andb].
        -- specialize (A1 Ei). set (l := Z.of_nat (length (gk g))) in *.
           assert (Ep : i32 (u32 (j - gj g) - l) = j - gj g - l).
           { unfold u32. rewrite Z.mod_small by lia. unfold i32. rewrite Z.mod_small by lia.
             destruct (_ <? _) eqn:E; lia. }
           rewrite Ep. set (p := Z.to_nat (j - gj g - l)).
           assert (El : Z.of_nat (length (gk g ++ repeat 0 p ++ [k])) = j - gj g + 1).
           { rewrite !app_length, repeat_length. cbn [length]. lia. }
           destruct (IH (mkintg (gi g) (gj g) (gk g ++ repeat 0 p ++ [k]))) as (I1 & I2 & I3).
           ++ split; cbn [gi gj gk]; [lia|lia|lia|]. rewrite !Forall_app. split; [exact Gk|]. split; [|now constructor].
              apply Forall_forall. intros z Hz. apply repeat_spec in Hz. now subst.
           ++ exact X2.
           ++ exact K2.
           ++ cbn [gi gj gk]. rewrite El. rewrite <- Ei. replace (gj g + (j - gj g + 1) - 1) with j by lia. exact A2.
           ++ rewrite I1. split; [|split; [exact I2|cbn [length]; lia]].
              rewrite !elements_els. cbn [gi gj gk flat_map kept]. rewrite !els_app, els_zeros, repeat_length.
              cbn [app els]. rewrite app_nil_r.
              replace (gj g + Z.of_nat (length (gk g)) + Z.of_nat p) with j by lia.
              unfold u32. rewrite Z.mod_small by lia. rewrite <- Ei, <- app_assoc. reflexivity.
        -- destruct (IH (mkintg i j [k])) as (I1 & I2 & I3).
           ++ split; cbn [gi gj gk length]; [lia|lia|lia|]. now constructor.
           ++ exact X2. ++ exact K2.
           ++ cbn [gi gj gk length]. replace (j + Z.of_nat 1 - 1) with j by lia. exact A2.
           ++ cbn [flat_map length]. rewrite I1. split; [|split; [constructor; [split; auto|exact I2]|lia]].
              f_equal. rewrite elements_els. cbn [gi gj gk els kept]. unfold u32. rewrite Z.mod_small by lia.
              now rewrite app_nil_r.
      * destruct (IH (mkintg i j [k])) as (I1 & I2 & I3).
        ++ split; cbn [gi gj gk length]; [lia|lia|lia|]. now constructor.
        ++ exact X2. ++ exact K2.
        ++ cbn [gi gj gk length]. replace (j + Z.of_nat 1 - 1) with j by lia. exact A2.
        ++ cbn [flat_map length]. rewrite I1. split; [|split; [constructor; [split; auto|exact I2]|lia]].
           f_equal. rewrite elements_els. cbn [gi gj gk els kept]. unfold u32. rewrite Z.mod_small by lia.
           now rewrite app_nil_r.
    + destruct (IH (mkintg i j [k])) as (I1 & I2 & I3).
      ++ split; cbn [gi gj gk length]; [lia|lia|lia|]. now constructor.
      ++ exact X2. ++ exact K2.
      ++ cbn [gi gj gk length]. replace (j + Z.of_nat 1 - 1) with j by lia. exact A2.
      ++ cbn [flat_map length]. rewrite I1. split; [|split; [constructor; [split; auto|exact I2]|lia]].
         f_equal. rewrite elements_els. cbn [gi gj gk els kept]. unfold u32. rewrite Z.mod_small by lia.
         now rewrite app_nil_r.
Qed.
