(** PropParts.v -- more constructors from parts and accessors: what goes in comes out. *)
From Coq Require Import ZifyBool ZifyNat QArith String.
From Verif Require Import Base Disco DiscoProofs Records RecordProofs RecordRT RecordSound Layout Normal LineFacts RealRound RealProofs Spec Sections SecSpec Codec SectionProofs SecKit CodecKit
  PropRecords PropRecords2 PropRecords3 Sec9 Sec9Spec Sec9Proofs PropSec9 Sec4Spec Sec4Proofs Sec6 Sec6Spec Sec6Proofs Sec6Safe Sec33 Sec33Spec Sec33Proofs ExKit PropSec6 PropSec33
  Sec8 Sec8Spec Sec8Proofs PropSec8 Sec7 Sec7Spec Sec7Proofs PropSec7 Sec2 Sec2Spec Sec2Proofs PropSec2 Sec32 Sec32Spec Sec32Proofs PropSec32.
Open Scope Z_scope.

(** ** C01: the ZA of a HEAD record made from an int *)
Theorem C01_head_za : forall za awr a b c d mat mf mt, int32 za ->
  head_za32 (head_make za awr a b c d mat mf mt) = Val za /\ c2 (sbase (head_make za awr a b c d mat mf mt)) = awr.
Proof.
  intros za awr a b c d mat mf mt H. split; [|reflexivity]. unfold int32 in H. unfold head_za32, head_make. cbn [sbase c1]. rewrite round_of_int by lia.
  destruct (Z.leb_spec (-2147483648) za); [|lia]. destruct (Z.ltb_spec za 2147483648); [|lia]. reflexivity.
Qed.

(** a HEAD made from its parts prints those parts, and reading the line gives it back *)
Theorem C01_head_made : forall za awr a b c d mat mf mt rest ln, Z.abs za < 10 ^ 7 -> endf_real awr -> Forall (in_cols 11) [a; b; c; d] -> 0 < mat < 10000 -> 0 < mf < 100 -> 0 < mt < 1000 ->
  let h := head_make za awr a b c d mat mf mt in
  is_head h = true /\ cont_in_columns (nth_line (pr_sdiv h) 0) (of_int za) awr a b c d /\ carries mat mf mt (nth_line (pr_sdiv h) 0)
  /\ rd_sdiv (mkst (pr_sdiv h ++ rest) ln) = Ok h (mkst rest (ln + 1)) /\ head_za32 h = Val za /\ c2 (sbase h) = awr.
Proof.
  intros za awr a b c d mat mf mt rest ln Hz Ha F Hm Hf Ht h. rewrite !Forall_cons_iff in F. destruct F as (Ia & Ib & Ic & Id & _).
  assert (Hh : is_head h = true) by (unfold is_head, h, head_make; cbn [smt smf smat]; lia).
  assert (G : good_tail mat mf mt) by (split; [|split]; unfold in_cols; cbn; lia).
  assert (K : okcont (sbase h)) by (unfold okcont, h, head_make; cbn; repeat split; try (apply in_cols_fits; auto; lia); try apply okr_of_int; try apply endf_okr; auto; lia).
  assert (P : pr_sdiv h = pr_cont (sbase h) mat mf mt) by (unfold pr_sdiv; rewrite Hh; reflexivity).
  pose proof (reads_cont (sbase h) mat mf mt K (good_oktail _ _ _ G) [] 0) as R. rewrite app_nil_r in R.
  split; [exact Hh|]. split; [rewrite P; exact (C42_cont_columns _ _ _ _ _ _ R)|]. split.
  - rewrite P. destruct (proj1 (C09_record_reads_consume_own_lines mat mf mt) _ _ _ R) as (n & B1 & B2 & B3). cbn [line] in B2. assert (n = 1%nat) by lia. subst n. exact (B3 0%nat ltac:(lia)).
  - split; [apply (reads_sdiv h); [split; [exact K|]; split; [exact (good_oktail _ _ _ G)|]; cbn [h head_make smat smf smt]; lia|now left]|]. apply C01_head_za. unfold int32. lia.
Qed.
Example C01_head_example : Z.abs 92235 < 10 ^ 7 /\ Forall (in_cols 11) [1; -2; 3; 4] /\ nth_line (pr_sdiv (head_make 92235 r_pi 1 (-2) 3 4 9228 3 102)) 0 = String.list_ascii_of_string " 9.223500+4 3.141593+0          1         -2          3          49228 3102     "%string.
Proof. split; [lia|]. split; [repeat (apply Forall_cons; [vm_compute; auto|]); apply Forall_nil|vm_compute; reflexivity]. Qed.

(** ** C53: File 15 *)
Theorem C53_partial15 : forall p d, (as_int (tL2 (tbase p)) 1 -> make_p15 p d = Val (mkp15 p d)) /\ (~ as_int (tL2 (tbase p)) 1 -> make_p15 p d = Throw EStd).
Proof.
  intros p d. unfold make_p15. split; intros H.
  - now rewrite (as_int_get _ _ H).
  - destruct (Z.eqb_spec (i32 (tL2 (tbase p))) 1) as [E|]; [|reflexivity]. destruct H. apply as_int_eq. exact E.
Qed.
(** File 14: the energy of the level is truncated as well *)
Theorem C53_ES_truncated_refuted : exists q, rep_photon14 (Legendre14 q) /\ inv_photon14 (Legendre14 q) /\ ~ (valQ (ES14 (Legendre14 q)) == valQ (tC2 (istab q)))%Q.
Proof.
  exists (mkiseq (mktab2 r_one r_pi 0 0 [3] [2]) [xlist 0 0 0 [r_one]; xlist 0 0 0 [r_pi]; xlist 0 0 0 [r_tiny]]).
  split; [cbn; unfold rep_seq; cbn [istab isrec]; split; [unfold rep_tab2; cbn [tC1 tC2 tL1 tL2 tbnd tint]; xt|xt]|].
  split; [cbn; unfold inv_seq; cbn [istab isrec]; split; [unfold inv_tab2; cbn [tbnd tint]; xt|xt]|]. intros E. apply Qeq_bool_iff in E. vm_compute in E. discriminate E.
Qed.
Theorem C53_isotropic_energies : forall eg es, EG14 (Isotropic14 eg es) = eg /\ ES14 (Isotropic14 eg es) = es.
Proof. split; reflexivity. Qed.

(** ** C49: Kalbach-Mann data, rows of na + 2 numbers *)
Theorem C49_kalbach : forall energy nd na rows l, na = 1 \/ na = 2 -> Forall (fun r => len r = na + 2) rows -> make_kalbach1 energy nd na rows = Val l ->
  inv_base1 l /\ lC2 l = energy /\ lL1 l = nd /\ lL2 l = na /\ lN2 l = len rows
  /\ EP l = map (fun r => nth 0 r rzero) rows /\ data1 l = map (@tl real) rows /\ (rows <> [] -> F0 l = Val (map (fun r => nth 1 r rzero) rows)).
Proof.
  intros energy nd na rows l Hn F E. unfold make_kalbach1 in E. apply obind_val in E. destruct E as ([] & E & K). injection K as <-. apply kalbach1_spec in E. destruct E as (E & _).
  set (k := Z.to_nat (2 + na)). assert (Fk : Forall (fun r : list real => length r = k) rows) by (revert F; apply Forall_impl; intros r H; unfold len in H; unfold k; lia).
  assert (Hk : (1 < k)%nat) by (unfold k; lia). assert (Ch : chunks (length (concat rows)) k (concat rows) = rows) by (apply chunks_rows; [lia|exact Fk|lia]).
  split; [exact E|]. do 3 (split; [reflexivity|]). split; [reflexivity|]. split; [|split].
  - unfold EP, stride. cbn [lB lL2]. fold k. now rewrite Ch.
  - unfold data1. cbn [lB lL2]. fold k. now rewrite Ch.
  - intros Ne. unfold F0. cbn [lB lL2]. fold k. destruct (concat rows) as [|x r] eqn:Ec.
    + destruct rows as [|r0 rows]; [congruence|]. inversion Fk; subst. destruct r0; [cbn in *; lia|discriminate Ec].
    + f_equal. change r with (tl (x :: r)). rewrite <- Ec. apply (stride_second k Hk rows x Fk). now rewrite Ec.
Qed.
(** made from any rows of the right width whose energies after the first nd are in order *)
Theorem C49_kalbach_accepts : forall energy nd na rows, na = 1 \/ na = 2 -> Forall (fun r => len r = na + 2) rows -> 0 <= nd <= len rows -> len rows < 2 ^ 28 ->
  ascending real_le (skipn (Z.to_nat nd) (map (fun r => nth 0 r rzero) rows)) -> exists l, make_kalbach1 energy nd na rows = Val l.
Proof.
  intros energy nd na rows Hn F Hd Hr Sd. unfold make_kalbach1. set (l := mklist _ _ _ _ _ _).
  set (k := Z.to_nat (2 + na)). assert (Fk : Forall (fun r : list real => length r = k) rows) by (revert F; apply Forall_impl; intros r H; unfold len in H; unfold k; lia).
  assert (Ch : chunks (length (concat rows)) k (concat rows) = rows) by (apply chunks_rows; [unfold k; lia|exact Fk|lia]).
  assert (Ep : EP l = map (fun r => nth 0 r rzero) rows) by (unfold EP, stride, l; cbn [lB lL2]; fold k; now rewrite Ch).
  assert (Lb : len (lB l) = len rows * (na + 2)) by (unfold l, len; cbn [lB]; rewrite (concat_len k rows Fk); unfold k; lia).
  assert (K : kalbach1 l = Val tt).
  { unfold kalbach1. assert (B : base1 l = Val tt).
    { unfold base1. rewrite Ep. replace (lL2 l) with na by reflexivity. replace (lL1 l) with nd by reflexivity. destruct (Z.leb_spec (2 + na) 0); [lia|].
      rewrite map_length. unfold len in Hd. destruct (Z.ltb_spec nd 0); [lia|]. destruct (Z.ltb_spec (Z.of_nat (length rows)) nd); [lia|]. cbn [orb].
      rewrite (proj2 (sorted_R _)) by exact Sd. apply size1_spec. exists na, (len rows), (len rows * (na + 2)).
      split; [unfold l; cbn [lL2]; apply as_int_self; unfold int32; lia|]. split; [unfold l; cbn [lN2]; apply as_int_self; unfold int32, len in *; lia|]. split; [rewrite Lb; apply as_int_self; unfold int32; change (2 ^ 28) with 268435456 in Hr; assert (N0 := len_nonneg rows); destruct Hn as [-> | ->]; lia|].
      split; [unfold int32; lia|reflexivity]. }
    rewrite B. cbn [obind l lL2]. destruct Hn as [-> | ->]; reflexivity. }
  rewrite K. eexists. reflexivity.
Qed.

(** ** C55: the upper energy of an MF35 matrix is returned truncated as well *)
Theorem C55_E2_refuted : exists l z, make_square35 r_one r_pi [r_tiny; r_pi] [r_one] = Val l /\ E2_35 l = Val z /\ ~ (inject_Z z == valQ (lC2 l))%Q.
Proof.
  do 2 eexists. split; [reflexivity|]. split; [vm_compute; reflexivity|]. intros E. apply Qeq_bool_iff in E. vm_compute in E. discriminate E.
Qed.

(** a number rounded towards zero *)
Definition toward_zero (q : Q) (z : Z) : Prop :=
  ((0 <= q)%Q -> (inject_Z z <= q)%Q /\ (q < inject_Z (z + 1))%Q) /\ ((q <= 0)%Q -> (inject_Z (z - 1) < q)%Q /\ (q <= inject_Z z)%Q).
Lemma toward_zero_fun q z w : toward_zero q z -> toward_zero q w -> z = w.
Proof.
  intros (A & B) (C & D). destruct (Qlt_le_dec 0 q) as [P|P].
  - destruct A as (A1 & A2); [now apply Qlt_le_weak|]. destruct C as (C1 & C2); [now apply Qlt_le_weak|].
    assert (E1 := Qle_lt_trans _ _ _ A1 C2). assert (E2 := Qle_lt_trans _ _ _ C1 A2). rewrite <- Zlt_Qlt in E1, E2. lia.
  - destruct (B P) as (A1 & A2). destruct (D P) as (C1 & C2).
    assert (E1 := Qlt_le_trans _ _ _ A1 C2). assert (E2 := Qlt_le_trans _ _ _ C1 A2). rewrite <- Zlt_Qlt in E1, E2. lia.
Qed.
Lemma toward_zero_div a b : 0 < b -> toward_zero (a # Z.to_pos b) (Z.quot a b).
Proof.
  intros H. unfold toward_zero, Qle, Qlt, inject_Z. cbn [Qnum Qden]. rewrite Z2Pos.id by lia. rewrite !Z.mul_1_r, Z.mul_0_l.
  assert (Q1 := Z.quot_rem' a b). split; intros P.
  - assert (R := Z.rem_bound_pos a b P H). split; nia.
  - assert (R := Z.rem_bound_pos (- a) b ltac:(lia) H); rewrite Z.rem_opp_l in R by lia. split; nia.
Qed.
Lemma trunc_toward_zero r : toward_zero (valQ r) (trunc r).
Proof.
  unfold valQ, trunc. destruct (Z.leb_spec 0 (rexp r)) as [H|H].
  - assert (E : (inject_Z (rsig r) * bp 2 (rexp r) == inject_Z (rsig r * 2 ^ rexp r))%Q) by (rewrite bp_int, inject_Z_mult by lia; reflexivity).
    unfold toward_zero. rewrite E. set (z := rsig r * 2 ^ rexp r). split; intros _; (split; [|apply Qle_refl || rewrite <- Zlt_Qlt; lia]); [apply Qle_refl|rewrite <- Zlt_Qlt; lia].
  - set (b := 2 ^ (- rexp r)). assert (B : 0 < b) by (apply Z.pow_pos_nonneg; lia).
    assert (E : (inject_Z (rsig r) * bp 2 (rexp r) == rsig r # Z.to_pos b)%Q).
    { assert (K : (bp 2 (rexp r) * inject_Z b == 1)%Q) by (unfold b; rewrite <- bp_int by lia; rewrite <- bp_plus by lia; replace (rexp r + - rexp r) with 0 by lia; reflexivity).
      rewrite (Qmake_Qdiv (rsig r)). rewrite Z2Pos.id by lia. apply Qmult_inj_r with (inject_Z b); [intros C; rewrite C in K; ring_simplify in K; discriminate K|].
      rewrite <- Qmult_assoc, K. field. intros C. rewrite C in K. ring_simplify in K. discriminate K. }
    unfold toward_zero. rewrite E. exact (toward_zero_div _ _ B).
Qed.
(** what the two accessors give is the energy rounded towards zero; beyond an int the behaviour is undefined *)
Theorem C55_energies : forall l z,
  (E1_35 l = Val z <-> toward_zero (valQ (lC1 l)) z /\ int32 z) /\ (E2_35 l = Val z <-> toward_zero (valQ (lC2 l)) z /\ int32 z)
  /\ (E1_35 l = Undef <-> ~ exists n, toward_zero (valQ (lC1 l)) n /\ int32 n) /\ (E2_35 l = Undef <-> ~ exists n, toward_zero (valQ (lC2 l)) n /\ int32 n).
Proof.
  assert (A : forall r z, int_op (trunc r) = Val z <-> toward_zero (valQ r) z /\ int32 z).
  { intros r z. unfold int_op. split.
    - destruct (in32 (trunc r)) eqn:E; [|discriminate]. intros K. injection K as <-. split; [apply trunc_toward_zero|]. unfold in32 in E. unfold int32. lia.
    - intros (H & I). rewrite (toward_zero_fun _ _ _ (trunc_toward_zero r) H). unfold int32 in I. unfold in32. replace (_ && _) with true by lia. reflexivity. }
  assert (B : forall r, int_op (trunc r) = Undef <-> ~ exists z, toward_zero (valQ r) z /\ int32 z).
  { intros r. split.
    - intros K (z & H). apply A in H. congruence.
    - intros N. unfold int_op. destruct (in32 (trunc r)) eqn:E; [|reflexivity]. destruct N. exists (trunc r). split; [apply trunc_toward_zero|]. unfold in32 in E. unfold int32. lia. }
  intros l z. split; [apply A|]. split; [apply A|]. split; apply B.
Qed.
(** File 14: the two energies of an anisotropic photon are the numbers rounded towards zero (as doubles) *)
Theorem C53_energies : forall q, exists zg zs, toward_zero (valQ (tC1 (istab q))) zg /\ toward_zero (valQ (tC2 (istab q))) zs
  /\ EG14 (Legendre14 q) = of_int zg /\ ES14 (Legendre14 q) = of_int zs.
Proof. intros q. exists (trunc (tC1 (istab q))), (trunc (tC2 (istab q))). split; [apply trunc_toward_zero|]. split; [apply trunc_toward_zero|]. split; reflexivity. Qed.
Theorem C53_energies_tabulated : forall q, exists zg zs, toward_zero (valQ (tC1 (istab q))) zg /\ toward_zero (valQ (tC2 (istab q))) zs
  /\ EG14 (Tabulated14 q) = of_int zg /\ ES14 (Tabulated14 q) = of_int zs.
Proof. intros q. exists (trunc (tC1 (istab q))), (trunc (tC2 (istab q))). split; [apply trunc_toward_zero|]. split; [apply trunc_toward_zero|]. split; reflexivity. Qed.

(** ** C51: yields and decay data *)
Theorem C51_yield_counts : forall ids states ys energy interp l, make_yield ids states ys energy interp = Val l -> int32 interp -> len ids < 2 ^ 31 ->
  fy_I l = interp /\ (fy_LE l = true <-> interp = 0) /\ fy_NFP l = len ids.
Proof.
  intros ids states ys energy interp l E Hi Hl. unfold make_yield in E. destruct (_ || _); [discriminate|]. apply obind_val in E. destruct E as ([] & _ & K). injection K as <-.
  unfold fy_LE, fy_I, fy_NFP. cbn [lL1 lN2]. rewrite !i32_id by (unfold int32, len in *; lia). split; [reflexivity|]. split; [lia|reflexivity].
Qed.
(** a fission product: the identifier and the state are the numbers rounded toward zero, undefined if that is not an unsigned int *)
Theorem C51_product_numbers : forall a b y dy z w, toward_zero (valQ a) z -> toward_zero (valQ b) w ->
  (0 <= z < 2 ^ 32 -> fp_ZAFP [a; b; y; dy] = Val z) /\ (~ 0 <= z < 2 ^ 32 -> fp_ZAFP [a; b; y; dy] = Undef)
  /\ (0 <= w < 2 ^ 32 -> fp_FPS [a; b; y; dy] = Val w) /\ (~ 0 <= w < 2 ^ 32 -> fp_FPS [a; b; y; dy] = Undef).
Proof.
  intros a b y dy z w Hz Hw. apply (toward_zero_fun _ _ _ (trunc_toward_zero a)) in Hz. apply (toward_zero_fun _ _ _ (trunc_toward_zero b)) in Hw.
  unfold fp_ZAFP, fp_FPS, cast_unsigned. cbn [nth]. rewrite Hz, Hw. cbv zeta. repeat split; intros K.
  - replace (_ && _) with true by lia. reflexivity.
  - replace (_ && _) with false by lia. reflexivity.
  - replace (_ && _) with true by lia. reflexivity.
  - replace (_ && _) with false by lia. reflexivity.
Qed.
Theorem C51_decay_parts : forall lis liso e m ss, 0 <= lis < 2 ^ 32 -> 0 <= liso < 2 ^ 32 -> make_decay8 lis liso e m ss = mkdecay8 lis liso e m ss
  /\ (inv_energies e -> inv_modes m -> many_of inv_spectrum8 ss -> inv_decay8 (make_decay8 lis liso e m ss)).
Proof.
  intros lis liso e m ss H1 H2. unfold make_decay8. rewrite !u32_id by lia. split; [reflexivity|]. intros A B C. unfold inv_decay8. cbn [d_lis d_liso d_energies d_modes d_spectra]. auto.
Qed.

(** ** C50: thermal scattering *)
(** a principal scatterer only *)
Theorem C50_constants_single : forall lln eps emax xs awr natoms, lln = 0 \/ lln = 1 -> exists l, make_constants1 lln eps emax xs awr natoms = Val l
  /\ make_constants lln 0 eps emax [xs] [awr] [natoms] [] = Val l.
Proof.
  intros lln eps emax xs awr natoms [-> | ->]; (eexists; split; [reflexivity|]; reflexivity).
Qed.
(** one temperature *)
Theorem C50_function_single : forall t0 beta bnd int als s, curve_ok bnd int als s -> exists x, make_function1 t0 beta bnd int als s = Val x
  /\ make_function beta bnd int [t0] [] als [s] = Val x /\ series_of beta bnd int [t0] [] als [s] x /\ sf_B x = beta.
Proof.
  intros t0 beta bnd int als s Tb. unfold make_function1. rewrite make_tab1_ok by exact Tb. cbn [obind]. cbv zeta. cbn [betas_ok]. eexists. split; [reflexivity|].
  assert (E : make_function beta bnd int [t0] [] als [s] = Val (mkseries (mktab1 (mktab2 t0 beta 0 0 bnd int) als s) [])).
  { cbn [make_function length]. change (u32 (Z.of_nat 0)) with 0. rewrite make_tab1_ok by exact Tb. reflexivity. }
  split; [exact E|]. assert (L1 : len [t0] < 2 ^ 32) by (unfold len; cbn; lia). destruct (C50_function _ _ _ _ _ _ _ _ L1 E) as (S1 & _ & _ & B & _). split; [exact S1|exact B].
Qed.
(** the functions for all values of beta: as many as the interpolation table announces *)
Theorem C50_functions : forall bnd int fs, bnd <> [] -> length bnd = length int -> ascending Z.le bnd -> 0 < len fs < 2 ^ 32 -> 0 <= last bnd 0 < 2 ^ 32 ->
  (last bnd 0 = len fs -> exists q, make_functions bnd int fs = Val q /\ isrec q = fs /\ tbnd (istab q) = bnd /\ tint (istab q) = int
     /\ tf_B q = map (fun f => tC2 (tbase (se_first f))) fs)
  /\ (last bnd 0 <> len fs -> make_functions bnd int fs = Throw EStd).
Proof.
  intros bnd int fs N L Sd Hf Hb. unfold make_functions. rewrite (make_tab2_ok rzero rzero 0 0 bnd int N L (proj2 (sorted_Z bnd) Sd)). cbn [obind]. unfold make_iseq, tn2, no_more. cbn [tbnd]. cbv zeta.
  unfold len in *. rewrite !u32_id by lia. destruct (Z.eqb_spec (Z.of_nat (length fs)) 0); [lia|]. split; intros E.
  - rewrite E, Z.eqb_refl. cbn [negb]. eexists. split; [reflexivity|]. repeat split.
  - destruct (Z.eqb_spec (last bnd 0) (Z.of_nat (length fs))); [congruence|reflexivity].
Qed.
Theorem C50_temperature : forall bnd int tmod teff, curve_ok bnd int tmod teff -> exists t, make_temperature bnd int tmod teff = Val t
  /\ tx t = tmod /\ ty t = teff /\ tbnd (tbase t) = bnd /\ tint (tbase t) = int.
Proof. intros bnd int tmod teff Tb. unfold make_temperature. rewrite make_tab1_ok by exact Tb. eexists. repeat split. Qed.

(** ** C46: Breit-Wigner ranges *)
Theorem C46_breit_wigner : forall spi ap ls, len ls < 2 ^ 31 ->
  (ls <> [] -> make_breit_wigner spi ap ls = Val (mkresolved spi ap false 0 ls)) /\ (ls = [] -> make_breit_wigner spi ap ls = Throw EStd).
Proof.
  intros spi ap ls H. destruct (C46_resolved spi ap false 0 ls H) as (A & B & _). split; [|exact B]. intros N. apply A. destruct ls; [congruence|unfold len; cbn [length]; lia].
Qed.
(** ** C56: scattering radius uncertainties *)
Theorem C56_radii : forall dap l, DAP (make_radii dap l) = Val dap /\ DAPL (make_radii dap l) = Val l.
Proof.
  intros dap l. split; [reflexivity|]. unfold DAPL, make_radii, drop_exactly. cbn [lB length]. destruct (Z.ltb_spec 1 0); [lia|]. destruct (Z.ltb_spec (Z.of_nat (Datatypes.S (length l))) 1); [lia|]. reflexivity.
Qed.
(** an empty list was accepted by reading: neither can be looked at *)
Theorem C56_radii_refuted : exists l, endf_list l /\ DAP l = Undef /\ DAPL l = Undef.
Proof. exists (xlist 0 0 0 []). split; [xt|]. split; reflexivity. Qed.
