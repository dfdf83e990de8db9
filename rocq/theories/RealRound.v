(** RealRound.v -- rounding to p digits: error bounds, uniqueness, monotony.
    Values are compared in Q, so no axioms are needed. *)
From Coq Require Import QArith Qpower Qabs Lqa ZifyBool.
From Verif Require Import Base Disco DiscoProofs.
Open Scope Z_scope.
Local Coercion inject_Z : Z >-> Q.

(** beta^e as a rational, for any integer e *)
(** not code: rational numbers used in the proofs about rounding *)
Definition bp (b e : Z) : Q := Qpower (inject_Z b) e.

Lemma inj_nz b : 1 < b -> ~ (inject_Z b == 0)%Q.
Proof. intros H E. unfold Qeq in E. simpl in E. lia. Qed.

Lemma bp_pos b e : 1 < b -> (0 < bp b e)%Q.
Proof.
  intros H. unfold bp. apply Qpower_0_lt. unfold Qlt. simpl. lia.
Qed.
Lemma bp_plus b e f : 1 < b -> (bp b (e + f) == bp b e * bp b f)%Q.
Proof. intros H. unfold bp. apply Qpower_plus. now apply inj_nz. Qed.
Lemma bp0 b : (bp b 0 == 1)%Q. Proof. reflexivity. Qed.
Lemma bp_int b e : 0 <= e -> (bp b e == (b ^ e)%Z)%Q.
Proof. intros H. unfold bp. now rewrite <- Zpower_Qpower. Qed.
Lemma bp_opp b e : 1 < b -> (bp b e * bp b (- e) == 1)%Q.
Proof. intros H. rewrite <- bp_plus by auto. now rewrite Z.add_opp_diag_r. Qed.
Lemma inj_le x y : x <= y <-> (inject_Z x <= inject_Z y)%Q.
Proof. rewrite Zle_Qle. tauto. Qed.
Lemma inj_lt x y : x < y <-> (inject_Z x < inject_Z y)%Q.
Proof. rewrite Zlt_Qlt. tauto. Qed.
Lemma ile x y : x <= y -> (inject_Z x <= inject_Z y)%Q. Proof. apply inj_le. Qed.
Lemma ilt x y : x < y -> (inject_Z x < inject_Z y)%Q. Proof. apply inj_lt. Qed.
Lemma eli x y : (inject_Z x <= inject_Z y)%Q -> x <= y. Proof. apply inj_le. Qed.
Lemma tli x y : (inject_Z x < inject_Z y)%Q -> x < y. Proof. apply inj_lt. Qed.
Lemma bp_ge1 b e : 1 < b -> 0 <= e -> (1 <= bp b e)%Q.
Proof.
  intros H K. rewrite bp_int by auto. change 1%Q with (inject_Z 1). apply ile.
  assert (0 < b ^ e) by (apply Z.pow_pos_nonneg; lia). lia.
Qed.
Lemma bp_le b e f : 1 < b -> e <= f -> (bp b e <= bp b f)%Q.
Proof.
  intros H K. replace f with (e + (f - e)) by lia. rewrite bp_plus by auto.
  assert (P := bp_pos b e H). assert (G := bp_ge1 b (f - e) H ltac:(lia)). nra.
Qed.
Lemma bp_gtb b e : 1 < b -> 0 < e -> (inject_Z b <= bp b e)%Q.
Proof.
  intros H K. setoid_replace (inject_Z b) with (bp b 1).
  - apply bp_le; lia.
  - unfold bp. reflexivity.
Qed.
Lemma bp_lt b e f : 1 < b -> e < f -> (bp b e < bp b f)%Q.
Proof.
  intros H K. replace f with (e + (f - e)) by lia. rewrite bp_plus by auto.
  assert (P := bp_pos b e H). assert (G := bp_gtb b (f - e) H ltac:(lia)).
  assert (1 < inject_Z b)%Q by (change 1%Q with (inject_Z 1); now apply ilt). nra.
Qed.
Lemma bp_lt_inv b e f : 1 < b -> (bp b e < bp b f)%Q -> e < f.
Proof.
  intros H K. destruct (Z.lt_ge_cases e f) as [|G]; auto. exfalso.
  assert (L := bp_le b f e H G). lra.
Qed.
Lemma bp1 b : (bp b 1 == b)%Q. Proof. unfold bp. reflexivity. Qed.

(** ** rne *)
(** the rational a/b *)
(** not code: rational numbers used in the proofs about rounding *)
Definition frac (a b : Z) : Q := (inject_Z a / inject_Z b)%Q.

Lemma frac_mul a b : 0 < b -> (frac a b * inject_Z b == inject_Z a)%Q.
Proof.
  intros H. unfold frac. field. intros E. unfold Qeq in E. simpl in E. lia.
Qed.
Lemma frac_pos a b : 0 < a -> 0 < b -> (0 < frac a b)%Q.
Proof.
  intros Ha Hb. assert (E := frac_mul a b Hb).
  assert (0 < inject_Z a)%Q by (change 0%Q with (inject_Z 0); now apply ilt).
  assert (0 < inject_Z b)%Q by (change 0%Q with (inject_Z 0); now apply ilt). nra.
Qed.

Lemma rne_err a b : 0 < b -> 2 * Z.abs (a - b * rne a b) <= b.
Proof.
  intros Hb. unfold rne. assert (E := Z.div_mod a b ltac:(lia)).
  assert (B := Z.mod_pos_bound a b Hb).
  destruct (Z.ltb_spec (2 * (a mod b)) b); [lia|].
  destruct (Z.ltb_spec b (2 * (a mod b))); [lia|].
  destruct (Z.even (a / b)); lia.
Qed.

(** unique nearest integer *)
Lemma rne_unique a b n : 0 < b -> 2 * Z.abs (a - b * n) < b -> rne a b = n.
Proof.
  intros Hb H. assert (K := rne_err a b Hb). nia.
Qed.

Lemma rne_mono a b c d : 0 < b -> 0 < d -> a * d <= c * b -> rne a b <= rne c d.
Proof.
  intros Hb Hd H. destruct (Z.le_gt_cases (rne a b) (rne c d)) as [|G]; auto. exfalso.
  assert (K1 := rne_err a b Hb). assert (K2 := rne_err c d Hd).
  (* both are at distance one half from the same point *)
  remember (rne a b) as m eqn:Em. remember (rne c d) as n eqn:En.
  assert (A1 : 2 * a >= (2 * m - 1) * b) by nia.
  assert (A2 : 2 * c <= (2 * n + 1) * d) by nia.
  assert (B1 : (2 * m - 1) * (b * d) <= 2 * (a * d)) by nia.
  assert (B2 : 2 * (c * b) <= (2 * n + 1) * (b * d)) by nia.
  assert (Pbd : 0 < b * d) by nia.
  assert (Hm : m = n + 1) by nia. rewrite Hm in *. clear Hm m.
  assert (Ea : 2 * a = (2 * n + 1) * b) by nia.
  assert (Ec : 2 * c = (2 * n + 1) * d) by nia.
  (* a/b = c/d = n + 1/2: same tie, same result *)
  clear H A1 A2 B1 B2 K1 K2 G.
  assert (D1 : forall x y, 0 < y -> 2 * x = (2 * n + 1) * y -> rne x y = if Z.even n then n else n + 1).
  { intros x y Hy E. unfold rne.
    assert (Q : x / y = n).
    { symmetry. apply Z.div_unique with (r := x - y * n); [left; nia|lia]. }
    assert (R : x mod y = x - y * n) by (rewrite Z.mod_eq, Q by lia; lia).
    rewrite Q, R. replace (2 * (x - y * n) <? y) with false by nia.
    replace (y <? 2 * (x - y * n)) with false by nia. reflexivity. }
  rewrite (D1 a b Hb Ea) in Em. rewrite (D1 c d Hd Ec) in En.
  destruct (Z.even n); lia.
Qed.

Lemma rne_exact n b : 0 < b -> rne (n * b) b = n.
Proof. intros H. apply rne_unique; auto. replace (n * b - b * n) with 0 by lia. simpl. lia. Qed.

Lemma rne_errQ a b : 0 < b ->
  (Qabs (frac a b - inject_Z (rne a b)) <= 1 # 2)%Q.
Proof.
  intros Hb. assert (K := rne_err a b Hb). assert (E := frac_mul a b Hb).
  apply Qabs_case.
  all: intros _; assert (P : (0 < inject_Z b)%Q) by (change 0%Q with (inject_Z 0); now apply ilt).
  - assert (L : 2 * a <= b + 2 * b * rne a b) by lia.
    apply ile in L. rewrite !inject_Z_plus, !inject_Z_mult in L. simpl in L.
    change (inject_Z 2) with 2%Q in L. rewrite <- E in L.
    set (f := frac a b) in *. set (m := inject_Z (rne a b)) in *. nra.
  - assert (L : 2 * b * rne a b - b <= 2 * a) by lia.
    apply ile in L. unfold Z.sub in L. rewrite !inject_Z_plus, !inject_Z_mult, inject_Z_opp in L.
    change (inject_Z 2) with 2%Q in L. rewrite <- E in L.
    set (f := frac a b) in *. set (m := inject_Z (rne a b)) in *. nra.
Qed.

Lemma rne_uniqueQ a b n : 0 < b ->
  (- (1 # 2) < frac a b - inject_Z n)%Q -> (frac a b - inject_Z n < 1 # 2)%Q -> rne a b = n.
Proof.
  intros Hb H1 H2. apply rne_unique; auto. assert (E := frac_mul a b Hb).
  assert (P : (0 < inject_Z b)%Q) by (change 0%Q with (inject_Z 0); now apply ilt).
  assert (A1 : 2 * b * n - b < 2 * a).
  { apply tli. unfold Z.sub. rewrite !inject_Z_plus, !inject_Z_mult, inject_Z_opp.
    change (inject_Z 2) with 2%Q. rewrite <- E. set (f := frac a b) in *. nra. }
  assert (A2 : 2 * a < b + 2 * b * n).
  { apply tli. rewrite !inject_Z_plus, !inject_Z_mult.
    change (inject_Z 2) with 2%Q. rewrite <- E. set (f := frac a b) in *. nra. }
  lia.
Qed.

Lemma rne_monoQ a b c d : 0 < b -> 0 < d -> (frac a b <= frac c d)%Q -> rne a b <= rne c d.
Proof.
  intros Hb Hd H. apply rne_mono; auto.
  assert (E := frac_mul a b Hb). assert (E' := frac_mul c d Hd).
  assert (P : (0 < inject_Z b)%Q) by (change 0%Q with (inject_Z 0); now apply ilt).
  assert (P' : (0 < inject_Z d)%Q) by (change 0%Q with (inject_Z 0); now apply ilt).
  apply eli. rewrite !inject_Z_mult, <- E, <- E'.
  set (f := frac a b) in *. set (g := frac c d) in *.
  assert (0 < inject_Z b * inject_Z d)%Q by nra. nra.
Qed.

(** ** flog *)
Lemma ndig_aux_spec b fuel : 1 < b -> forall n, 0 <= n -> n < b ^ Z.of_nat fuel ->
  (n = 0 -> ndig_aux b fuel n = 0)
  /\ (0 < n -> 0 < ndig_aux b fuel n /\ b ^ (ndig_aux b fuel n - 1) <= n < b ^ ndig_aux b fuel n).
Proof.
  intros Hb. induction fuel as [|f IH]; intros n H0 H; cbn [ndig_aux].
  - simpl in H. split; [auto|]. rewrite Z.pow_0_r in H. lia.
  - split; [intros ->; reflexivity|]. intros Hp.
    destruct (Z.leb_spec n 0); [lia|].
    assert (Hd : 0 <= n / b) by (apply Z.div_pos; lia).
    assert (Hl : n / b < b ^ Z.of_nat f).
    { apply Z.div_lt_upper_bound; [lia|]. rewrite Nat2Z.inj_succ, Z.pow_succ_r in H by lia. lia. }
    destruct (IH _ Hd Hl) as [Z0 Zp].
    destruct (Z.eq_dec (n / b) 0) as [E|E].
    + rewrite (Z0 E). assert (n < b) by (apply Z.div_small_iff in E; lia).
      split; [lia|]. change (1 + 0) with 1. rewrite Z.pow_1_r. change (1 - 1) with 0.
      rewrite Z.pow_0_r. lia.
    + destruct (Zp ltac:(lia)) as [Hk [K1 K2]]. set (k := ndig_aux b f (n / b)) in *.
      split; [lia|]. replace (1 + k - 1) with (k - 1 + 1) by lia.
      replace (1 + k) with (k + 1) by lia. rewrite !Z.pow_add_r, !Z.pow_1_r by lia.
      assert (D := Z.div_mod n b ltac:(lia)). assert (M := Z.mod_pos_bound n b ltac:(lia)). nia.
Qed.

Lemma ndig_spec b n : 1 < b -> 0 < n -> 0 < ndig b n /\ b ^ (ndig b n - 1) <= n < b ^ ndig b n.
Proof.
  intros Hb Hn. unfold ndig. apply ndig_aux_spec; auto; [lia|].
  eapply Z.lt_le_trans; [apply log2_fuel; lia|].
  apply Z.pow_le_mono_l. lia.
Qed.

Lemma flog_spec b x y : 1 < b -> 0 < x -> 0 < y ->
  (bp b (flog b x y) <= frac x y)%Q /\ (frac x y < bp b (flog b x y + 1))%Q.
Proof.
  intros Hb Hx Hy. unfold flog. assert (E := frac_mul x y Hy).
  assert (P : (0 < inject_Z y)%Q) by (change 0%Q with (inject_Z 0); now apply ilt).
  assert (Px : (0 < inject_Z x)%Q) by (change 0%Q with (inject_Z 0); now apply ilt).
  destruct (Z.leb_spec y x) as [L|L].
  - assert (Q1 : 0 < x / y) by (apply Z.div_str_pos; lia).
    destruct (ndig_spec b (x / y) Hb Q1) as [N0 [N1 N2]].
    set (k := ndig b (x / y)) in *.
    assert (D := Z.div_mod x y ltac:(lia)). assert (M := Z.mod_pos_bound x y Hy).
    replace (k - 1 + 1) with k by lia. rewrite !bp_int by lia.
    assert (A1 : b ^ (k - 1) * y <= x) by nia.
    assert (A2 : x < b ^ k * y) by nia.
    apply ile in A1. apply ilt in A2. rewrite inject_Z_mult in A1, A2.
    rewrite <- E in A1, A2. set (f := frac x y) in *. split; nra.
  - assert (Q1 : 0 < (y - 1) / x) by (apply Z.div_str_pos; lia).
    destruct (ndig_spec b _ Hb Q1) as [N0 [N1 N2]].
    set (k := ndig b ((y - 1) / x)) in *.
    assert (D := Z.div_mod (y - 1) x ltac:(lia)). assert (M := Z.mod_pos_bound (y - 1) x Hx).
    assert (A1 : y <= b ^ k * x) by nia.
    assert (A2 : b ^ (k - 1) * x < y) by nia.
    apply ile in A1. apply ilt in A2. rewrite inject_Z_mult in A1, A2.
    rewrite <- bp_int in A1 by lia. rewrite <- bp_int in A2 by lia.
    replace (- k + 1) with (- (k - 1)) by lia.
    assert (O1 := bp_opp b k Hb). assert (O2 := bp_opp b (k - 1) Hb).
    assert (P1 := bp_pos b k Hb). assert (P2 := bp_pos b (k - 1) Hb).
    assert (P3 := bp_pos b (- k) Hb). assert (P4 := bp_pos b (- (k - 1)) Hb).
    set (f := frac x y) in *. rewrite <- E in A1, A2.
    set (B := bp b k) in *. set (B' := bp b (- k)) in *.
    set (C := bp b (k - 1)) in *. set (C' := bp b (- (k - 1))) in *.
    split.
    + assert (1 <= B * f)%Q by nra. assert (B' * 1 <= B' * (B * f))%Q by nra.
      assert (B' * (B * f) == f)%Q by (transitivity ((B * B') * f)%Q; [ring|rewrite O1; ring]). lra.
    + assert (C * f < 1)%Q by nra. assert (C' * (C * f) < C' * 1)%Q by nra.
      assert (C' * (C * f) == f)%Q by (transitivity ((C * C') * f)%Q; [ring|rewrite O2; ring]). lra.
Qed.

Lemma scn_pos b a e : 0 < a -> 1 < b -> 0 < scn b a e.
Proof.
  intros H K. unfold scn. destruct (Z.ltb_spec e 0); auto.
  assert (0 < b ^ (- e)) by (apply Z.pow_pos_nonneg; lia). nia.
Qed.

(** scn/scd is a/b divided by beta^e *)
Lemma sc_frac b x y e : 1 < b -> 0 < y ->
  (frac (scn b x e) (scd b y e) == frac x y * bp b (- e))%Q.
Proof.
  intros Hb Hy. assert (P : (0 < inject_Z y)%Q) by (change 0%Q with (inject_Z 0); now apply ilt).
  unfold scn, scd. destruct (Z.ltb_spec e 0).
  - rewrite bp_int by lia. unfold frac. rewrite inject_Z_mult. field. lra.
  - assert (O := bp_opp b e Hb). assert (B := bp_pos b e Hb).
    assert (Hn : (inject_Z (y * b ^ e) == inject_Z y * bp b e)%Q).
    { rewrite inject_Z_mult, <- bp_int by auto. reflexivity. }
    unfold frac. rewrite Hn.
    setoid_replace (bp b (- e)) with (/ bp b e)%Q.
    + field. split; lra.
    + apply (Qmult_inj_l _ _ (bp b e)); [lra|]. rewrite O. field. lra.
Qed.

(** ** rnd *)
Section Rnd.
  Variables beta p emin : Z.
  Hypothesis Hb : 1 < beta.
  Hypothesis Hp : 1 <= p.

  (** value of a (mantissa, exponent) pair *)
  (** not code: rational numbers used in the proofs about rounding *)
  Definition val (me : Z * Z) : Q := (inject_Z (fst me) * bp beta (snd me))%Q.

  (** rounding with a given exponent *)
  (** not code: rational numbers used in the proofs about rounding *)
  Definition rne_at (x y e : Z) : Z := rne (scn beta x e) (scd beta y e).
  (** not code: rational numbers used in the proofs about rounding *)
  Definition rexp0 (x y : Z) : Z := Z.max (flog beta x y - (p - 1)) emin.

  Lemma bpp : (bp beta p == inject_Z beta * bp beta (p - 1))%Q.
  Proof.
    replace p with (1 + (p - 1)) at 1 by lia. rewrite bp_plus by auto. now rewrite bp1.
  Qed.

  Lemma rnd_val x y : (val (rnd beta p emin x y)
      == inject_Z (rne_at x y (rexp0 x y)) * bp beta (rexp0 x y))%Q.
  Proof.
    unfold rnd. fold (rexp0 x y). fold (rne_at x y (rexp0 x y)).
    destruct (Z.eqb_spec (rne_at x y (rexp0 x y)) (beta ^ p)) as [E|E]; unfold val; cbn [fst snd].
    - rewrite E. rewrite <- !bp_int by lia. rewrite <- !bp_plus by auto.
      replace (p - 1 + (rexp0 x y + 1)) with (p + rexp0 x y) by lia. reflexivity.
    - reflexivity.
  Qed.

  Lemma rne_at_err x y e : 0 < x -> 0 < y ->
    (Qabs (frac x y - inject_Z (rne_at x y e) * bp beta e) <= (1 # 2) * bp beta e)%Q.
  Proof.
    intros Hx Hy. unfold rne_at.
    assert (E := rne_errQ (scn beta x e) (scd beta y e) (scd_pos beta y e Hy ltac:(lia))).
    rewrite sc_frac in E by auto.
    assert (O := bp_opp beta e Hb). assert (P := bp_pos beta e Hb).
    set (m := inject_Z (rne _ _)) in *. set (v := frac x y) in *.
    set (B := bp beta e) in *. set (B' := bp beta (- e)) in *.
    apply Qabs_Qle_condition in E. destruct E as [E1 E2]. apply Qabs_Qle_condition.
    assert (G : (v - m * B == B * (v * B' - m))%Q).
    { transitivity (v * 1 - m * B)%Q; [ring|]. rewrite <- O. ring. }
    rewrite G. split; nra.
  Qed.

  (** the mantissa before the carry lies between beta^(p-1) and beta^p *)
  Lemma rne_at_range x y : 0 < x -> 0 < y ->
    rne_at x y (rexp0 x y) <= beta ^ p
    /\ (emin <= flog beta x y - (p - 1) -> beta ^ (p - 1) <= rne_at x y (rexp0 x y)).
  Proof.
    intros Hx Hy. destruct (flog_spec beta x y Hb Hx Hy) as [F1 F2].
    set (f := flog beta x y) in *. unfold rne_at. set (e := rexp0 x y).
    assert (S := sc_frac beta x y e Hb Hy).
    assert (Ps := scd_pos beta y e Hy ltac:(lia)).
    assert (P := bp_pos beta (- e) Hb).
    split.
    - rewrite <- (rne_exact (beta ^ p) 1) by lia. apply rne_monoQ; try lia.
      rewrite S. unfold frac at 2. rewrite Z.mul_1_r.
      setoid_replace (inject_Z (beta ^ p) / inject_Z 1)%Q with (bp beta p).
      2:{ rewrite bp_int by lia. field. }
      assert (L : (bp beta (f + 1) <= bp beta (p + e))%Q).
      { apply bp_le; auto. unfold e, rexp0. fold f. lia. }
      replace p with (p + e + - e) at 1 by lia. rewrite (bp_plus beta (p + e)) by auto.
      set (v := frac x y) in *. nra.
    - intros Hn. assert (Ee : e = f - (p - 1)) by (unfold e, rexp0; fold f; lia).
      rewrite <- (rne_exact (beta ^ (p - 1)) 1) at 1 by lia. apply rne_monoQ; try lia.
      rewrite S. unfold frac at 1. rewrite Z.mul_1_r.
      setoid_replace (inject_Z (beta ^ (p - 1)) / inject_Z 1)%Q with (bp beta (p - 1)).
      2:{ rewrite bp_int by lia. field. }
      replace (p - 1) with (f + - e) by lia. rewrite bp_plus by auto.
      set (v := frac x y) in *. nra.
  Qed.

  (** the result is a p-digit number within half a unit in the last place *)
  Lemma rnd_spec x y m e : 0 < x -> 0 < y -> emin <= flog beta x y - (p - 1) ->
    rnd beta p emin x y = (m, e) ->
    beta ^ (p - 1) <= m < beta ^ p
    /\ (Qabs (frac x y - inject_Z m * bp beta e)
        <= (1 # 2) * bp beta (flog beta x y - (p - 1)))%Q
    /\ (e = flog beta x y - (p - 1) \/ (e = flog beta x y - (p - 1) + 1 /\ m = beta ^ (p - 1))).
  Proof.
    intros Hx Hy Hn E. destruct (rne_at_range x y Hx Hy) as [R1 R2]. specialize (R2 Hn).
    assert (Er : rexp0 x y = flog beta x y - (p - 1)) by (unfold rexp0; lia).
    assert (V := rnd_val x y). assert (A := rne_at_err x y (rexp0 x y) Hx Hy).
    rewrite <- V in A. rewrite E in A. unfold val in A. cbn [fst snd] in A. rewrite Er in *.
    assert (PP : beta ^ (p - 1) < beta ^ p) by (apply Z.pow_lt_mono_r; lia).
    unfold rnd in E. fold (rexp0 x y) in E. rewrite Er in E.
    fold (rne_at x y (flog beta x y - (p - 1))) in E.
    destruct (Z.eqb_spec (rne_at x y (flog beta x y - (p - 1))) (beta ^ p)); inversion E; subst.
    - split; [lia|]. split; [exact A|]. right. auto.
    - split; [lia|]. split; [exact A|]. now left.
  Qed.

  (** a number close to a p-digit one rounds to it *)
  Lemma rnd_unique x y d k : 0 < x -> 0 < y -> beta ^ (p - 1) <= d < beta ^ p -> emin < k ->
    (- ((1 # 2) * bp beta (k - 1)) < frac x y - inject_Z d * bp beta k)%Q ->
    (frac x y - inject_Z d * bp beta k < (1 # 2) * bp beta (k - 1))%Q ->
    rnd beta p emin x y = (d, k).
  Proof.
    intros Hx Hy [D1 D2] Hk L1 L2.
    destruct (flog_spec beta x y Hb Hx Hy) as [F1 F2]. set (f := flog beta x y) in *.
    assert (Bk : (bp beta k == inject_Z beta * bp beta (k - 1))%Q).
    { replace k with (1 + (k - 1)) at 1 by lia. rewrite bp_plus by auto. now rewrite bp1. }
    assert (Pk := bp_pos beta (k - 1) Hb).
    assert (Qb : (2 <= inject_Z beta)%Q) by (change 2%Q with (inject_Z 2); apply ile; lia).
    assert (QD1 := ile _ _ D1). rewrite <- bp_int in QD1 by lia.
    assert (D3 : d + 1 <= beta ^ p) by lia.
    assert (QD2 := ile _ _ D3). rewrite <- bp_int, inject_Z_plus in QD2 by lia.
    change (inject_Z 1) with 1%Q in QD2.
    set (v := frac x y) in *. set (q := inject_Z d) in *. set (K := bp beta (k - 1)) in *.
    assert (Hup : f < k + p).
    { apply (bp_lt_inv beta); auto. apply Qle_lt_trans with v; [exact F1|].
      replace (k + p) with (p + k) by lia. rewrite bp_plus by auto. rewrite Bk in *.
      set (BP := bp beta p) in *. set (be := inject_Z beta) in *.
      assert (0 < be * K)%Q by nra. assert (2 * K <= be * K)%Q by nra.
      assert (q * (be * K) + be * K <= BP * (be * K))%Q by nra. lra. }
    assert (Hlo : k + p - 2 < f + 1).
    { apply (bp_lt_inv beta); auto. apply Qlt_trans with v; [|exact F2].
      replace (k + p - 2) with (p - 1 + (k - 1)) by lia. rewrite bp_plus by auto.
      fold K. rewrite Bk in *.
      assert (G := bp_ge1 beta (p - 1) Hb ltac:(lia)).
      set (BP := bp beta (p - 1)) in *. set (be := inject_Z beta) in *. 
      assert (0 < be * K)%Q by nra.
      assert (BP * (be * K) <= q * (be * K))%Q by nra.
      assert (K <= BP * K)%Q by nra.
      assert (2 * (BP * K) <= BP * (be * K))%Q by nra. lra. }
    assert (Hp1 : 0 < beta ^ p) by (apply Z.pow_pos_nonneg; lia).
    assert (Hpp : beta ^ p = beta * beta ^ (p - 1)).
    { replace p with (1 + (p - 1)) at 1 by lia. rewrite Z.pow_add_r by lia. lia. }
    unfold rnd. fold f.
    assert (Cases : f = k + p - 1 \/ f = k + p - 2) by lia.
    destruct Cases as [C|C].
    - replace (Z.max (f - (p - 1)) emin) with k by lia.
      assert (R : rne (scn beta x k) (scd beta y k) = d).
      { apply rne_uniqueQ; [apply scd_pos; lia|rewrite sc_frac by auto..].
        all: assert (O := bp_opp beta k Hb); assert (P' := bp_pos beta (- k) Hb).
        all: fold v q; set (B' := bp beta (- k)) in *; rewrite Bk in *; set (be := inject_Z beta) in *.
        all: assert (EE : (v * B' - q == (v - q * (be * K)) * B')%Q)
          by (transitivity (v * B' - q * 1)%Q; [ring|rewrite <- O; ring]).
        all: rewrite EE; assert (K * B' <= 1 # 2)%Q by nra; nra. }
      rewrite R. destruct (Z.eqb_spec d (beta ^ p)); [lia|reflexivity].
    - replace (Z.max (f - (p - 1)) emin) with (k - 1) by lia.
      assert (Hd : d = beta ^ (p - 1)).
      { assert (Hlt : (q * bp beta k - (1 # 2) * K < bp beta (p + (k - 1)))%Q).
        { apply Qlt_trans with v; [lra|]. replace (p + (k - 1)) with (f + 1) by lia. exact F2. }
        rewrite bp_plus, Bk in Hlt by auto. fold K in Hlt.
        assert (2 * (d * beta) < 2 * beta ^ p + 1).
        { apply tli. rewrite inject_Z_plus, !inject_Z_mult. rewrite <- bp_int by lia.
          fold q. change (inject_Z 2) with 2%Q. change (inject_Z 1) with 1%Q.
          set (BP := bp beta p) in *. set (be := inject_Z beta) in *.
          assert (2 * (q * be) * K < (2 * BP + 1) * K)%Q by lra.
          nra. }
        nia. }
      assert (R : rne (scn beta x (k - 1)) (scd beta y (k - 1)) = beta ^ p).
      { assert (Q2 : (inject_Z (beta ^ p) == q * inject_Z beta)%Q).
        { unfold q. rewrite <- inject_Z_mult. rewrite Hd, Hpp. rewrite Z.mul_comm. reflexivity. }
        apply rne_uniqueQ; [apply scd_pos; lia|rewrite sc_frac by auto..].
        all: assert (O := bp_opp beta (k - 1) Hb); assert (P' := bp_pos beta (- (k - 1)) Hb).
        all: fold v; fold K in O; rewrite Q2; rewrite Bk in *.
        all: set (B' := bp beta (- (k - 1))) in *; set (be := inject_Z beta) in *.
        all: assert (EE : (v * B' - q * be == (v - q * (be * K)) * B')%Q)
          by (transitivity (v * B' - q * be * 1)%Q; [ring|rewrite <- O; ring]).
        all: rewrite EE; nra. }
      rewrite R, Z.eqb_refl. f_equal; lia.
  Qed.

  (** rounding is monotone *)
  Lemma rnd_mono x y x' y' : 0 < x -> 0 < y -> 0 < x' -> 0 < y' ->
    (frac x y <= frac x' y')%Q ->
    (val (rnd beta p emin x y) <= val (rnd beta p emin x' y'))%Q.
  Proof.
    intros Hx Hy Hx' Hy' H. rewrite !rnd_val.
    destruct (flog_spec beta x y Hb Hx Hy) as [F1 F2].
    destruct (flog_spec beta x' y' Hb Hx' Hy') as [G1 G2].
    set (f := flog beta x y) in *. set (g := flog beta x' y') in *.
    assert (Hfg : f <= g).
    { assert (f < g + 1); [|lia]. apply (bp_lt_inv beta); auto. lra. }
    set (e := rexp0 x y). set (e' := rexp0 x' y').
    assert (He : e = Z.max (f - (p - 1)) emin) by reflexivity.
    assert (He' : e' = Z.max (g - (p - 1)) emin) by reflexivity.
    destruct (Z.eq_dec e e') as [Ee|Ne].
    - rewrite <- Ee. assert (M : rne_at x y e <= rne_at x' y' e).
      { unfold rne_at. apply rne_monoQ; try (apply scd_pos; lia).
        rewrite !sc_frac by auto. assert (P := bp_pos beta (- e) Hb).
        set (v := frac x y) in *. set (v' := frac x' y') in *. nra. }
      apply ile in M. assert (P := bp_pos beta e Hb).
      set (m := inject_Z (rne_at x y e)) in *. set (m' := inject_Z (rne_at x' y' e)) in *. nra.
    - assert (Hlt : e < e') by lia.
      destruct (rne_at_range x y Hx Hy) as [R1 _]. fold e in R1.
      destruct (rne_at_range x' y' Hx' Hy') as [_ R2]. fold g e' in R2. specialize (R2 ltac:(lia)).
      apply ile in R1. apply ile in R2. rewrite <- bp_int in R1, R2 by lia.
      assert (P := bp_pos beta e Hb). assert (P' := bp_pos beta e' Hb).
      apply Qle_trans with (bp beta p * bp beta e)%Q.
      { set (m := inject_Z (rne_at x y e)) in *. nra. }
      apply Qle_trans with (bp beta (p - 1) * bp beta e')%Q.
      { rewrite <- !bp_plus by auto. apply bp_le; auto. lia. }
      set (m := inject_Z (rne_at x' y' e')) in *. nra.
  Qed.
End Rnd.
