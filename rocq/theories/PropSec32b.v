(** PropSec32b.v -- C56, continued: the correlation matrix of the compact representation of File 32, the line counter
    and what does not hold. *)
From Coq Require Import ZifyBool ZifyNat QArith Qabs Lqa.
From Verif Require Import Base Disco DiscoProofs Records RecordProofs RecordRT RecordSound Layout Normal LineFacts RealRound RealProofs Spec Sections SecSpec Codec SectionProofs SecKit CodecKit
  PropRecords PropRecords3 Sec9 Sec9Spec Sec9Proofs Sec4Spec Sec4Proofs Sec6 Sec6Spec Sec6Proofs Sec6Safe Sec33 Sec33Spec Sec33Proofs Sec33Safe ExKit PropSec6 PropSec33
  Sec8 Sec8Spec Sec8Proofs PropSec8 Sec7 Sec7Spec Sec7Proofs PropSec7 Sec2 Sec2Spec Sec2Proofs PropSec2 Sec32 Sec32Corr Sec32Spec Sec32Proofs Sec32Safe PropSec32.
Open Scope Z_scope.

(** ** the correlation matrix in packed form *)
(** when the numbers are multiplied by 10^NDIGIT, at most one half (and rounding) is lost; those of at most one are lost *)
Definition same_sign (x y : real) : Prop := rneg x = rneg y.
Definition scaled (nd : Z) (x : real) : Q := (absQ x * inject_Z (10 ^ nd))%Q.
Definition close (nd : Z) (x y : real) : Prop :=
  same_sign x y /\ (Qabs (scaled nd x - scaled nd y) <= (1 # 2) + (1 # 100000000))%Q.
Definition small (nd : Z) (x : real) : Prop := (scaled nd x <= 1 + (1 # 100000000))%Q.
Definition large (nd : Z) (x : real) : Prop := (1 - (1 # 100000000) <= scaled nd x)%Q.
(** fs is what is left of es *)
Inductive thinned (nd : Z) : list (Z * Z * real) -> list (Z * Z * real) -> Prop :=
| thinned_nil : thinned nd [] []
| thinned_keep p x y es fs : large nd x -> close nd x y -> thinned nd es fs -> thinned nd ((p, x) :: es) ((p, y) :: fs)
| thinned_lose p x es fs : small nd x -> thinned nd es fs -> thinned nd ((p, x) :: es) fs.
Definition entries (x : corr) : list (Z * Z * real) := combine (combine (cm_i x) (cm_j x)) (cm_values x).
(** zero, or of magnitude 10^-8 to 1, but not too close to -1 *)
Definition correlation (x : real) : Prop :=
  0 <= rman x /\ (rman x = 0 \/ ((1 # 100000000 <= absQ x)%Q /\ (absQ x <= (if rneg x then 1 - (1 # 100000000) else 1))%Q)).
Definition packable (x : corr) : Prop :=
  (cm_values x = [] \/ cm_ndigit x <> 3) /\ len (cm_values x) < 2 ^ 31
  /\ Forall index5 (cm_i x) /\ Forall index5 (cm_j x) /\ rows_ascend (cm_i x) (cm_j x) /\ Forall correlation (cm_values x).

Lemma convert_zero f x : rman x = 0 -> convert f x = Val 0.
Proof.
  intros E. unfold convert, times, ris0. rewrite E. cbn [Z.eqb]. destruct (rle _ _) eqn:L; [reflexivity|].
  exfalso. assert (T : rle (mkreal false (rman x) (rexp x)) (of_int 1) = true); [|congruence]. apply rle_spec. rewrite of_int_1. rewrite E. unfold valQ. cbn [rsig rneg rman rexp]. setoid_replace (inject_Z (if false then - (0) else 0) * bp 2 (rexp x))%Q with 0%Q; [lra|]. cbn. ring.
Qed.
Lemma convert_close nd x : 2 <= nd <= 6 -> correlation x -> exists k, convert (10 ^ nd) x = Val k /\ in_cols (Z.to_nat nd + 1) k
  /\ (k = 0 -> small nd x) /\ (k <> 0 -> large nd x /\ close nd x (half_away k (10 ^ nd))).
Proof.
  intros Hd [Hm [Z0|[L1 L2]]].
  { exists 0. split; [now apply convert_zero|]. split; [apply in_cols_0; lia|]. split; [|lia]. intros _. unfold small, scaled, absQ. rewrite Z0. assert (T : (inject_Z 0 * bp 2 (rexp x) * inject_Z (10 ^ nd) == 0)%Q) by ring. rewrite T. lra. }
  assert (P := ten_pow nd ltac:(lia)). assert (P2 : 100 <= 10 ^ nd) by (change 100 with (10 ^ 2); apply Z.pow_le_mono_r; lia). set (f := 10 ^ nd) in *.
  assert (Pm : 0 < rman x). { destruct (Z.eq_dec (rman x) 0) as [E|]; [|lia]. exfalso. unfold absQ in L1. rewrite E in L1. assert (T : (inject_Z 0 * bp 2 (rexp x) == 0)%Q) by ring. rewrite T in L1. lra. }
  assert (F1 : (100 <= inject_Z f)%Q) by (change 100%Q with (inject_Z 100); apply ile; lia). assert (F2 : (inject_Z f <= 1000000)%Q) by (change 1000000%Q with (inject_Z 1000000); apply ile; lia).
  unfold small, large, close, scaled, same_sign. fold f. set (q := (absQ x * inject_Z f)%Q).
  assert (Q1 : (1 # 1000000 <= q)%Q) by (unfold q; nra). assert (U : (absQ x <= 1)%Q) by (destruct (rneg x); lra).
  assert (Q2 : (q <= inject_Z f)%Q) by (unfold q; nra).
  destruct (convert_spec x f Pm ltac:(lia)) as (v & n & A & Hn & V1 & V2 & E); [fold q; lra|fold q; lra|]. fold q in A. apply Qabs_split in A. rewrite bp53_val in A. destruct A as [A1 A2].
  assert (V3 : (v <= inject_Z f + (1 # 1000000))%Q) by lra. assert (V4 : (q - (1 # 1000000000) <= v)%Q) by lra. assert (V5 : (v <= q + (1 # 1000000000))%Q) by lra.
  assert (Nf : n <= f). { assert (inject_Z n < inject_Z (f + 1))%Q by (rewrite inject_Z_plus; change (inject_Z 1) with 1%Q; lra). rewrite <- Zlt_Qlt in H. lia. }
  exists (if Qle_bool v 1 then 0 else if rneg x then - n else n). split; [exact E|]. destruct (Qle_bool v 1) eqn:Ev.
  - apply Qle_bool_iff in Ev. split; [apply in_cols_0; lia|]. split; [intros _; lra|congruence].
  - assert (Gv : (1 < v)%Q). { destruct (Qlt_le_dec 1 v) as [G|G]; [exact G|]. apply Qle_bool_iff in G. congruence. }
    assert (N1 : 1 <= n). { assert (inject_Z 1 < inject_Z (n + 1))%Q by (change (inject_Z 1) with 1%Q; lra). rewrite <- Zlt_Qlt in H. lia. }
    assert (B10 : 10 ^ Z.of_nat (Z.to_nat nd + 1) = 10 * f) by (unfold f; rewrite Nat2Z.inj_add, Z2Nat.id by lia; change (Z.of_nat 1) with 1; rewrite Z.pow_add_r by lia; change (10 ^ 1) with 10; lia).
    assert (B1 : 10 ^ (Z.of_nat (Z.to_nat nd + 1) - 1) = f) by (unfold f; f_equal; lia).
    set (k := if rneg x then - n else n). assert (Ka : Z.abs k = n) by (unfold k; destruct (rneg x); lia). assert (Ks : (k <? 0) = rneg x) by (unfold k; destruct (rneg x); lia).
    split.
    { unfold in_cols. rewrite B10, B1. unfold k. destruct (rneg x) eqn:Sx; [|lia]. assert (Q3 : (q <= inject_Z f * (1 - (1 # 100000000)))%Q) by (unfold q; nra).
      assert (inject_Z n < inject_Z f)%Q by lra. rewrite <- Zlt_Qlt in H. lia. }
    split; [unfold k; destruct (rneg x); lia|]. intros _. split; [lra|].
    destruct (half_away_spec k f ltac:(lia) ltac:(lia)) as (w & _ & -> & Nw & Pw & Aw). rewrite Nw, Ks. split; [reflexivity|].
    apply Qabs_split in Aw. rewrite bp53_val in Aw. rewrite Ka in Aw. assert (M := frac_mul (2 * n + 1) (2 * f) ltac:(lia)). set (h := frac (2 * n + 1) (2 * f)) in *.
    assert (M' : (h * inject_Z f == inject_Z n + (1 # 2))%Q) by (rewrite inject_Z_plus, !inject_Z_mult in M; change (inject_Z 2) with 2%Q in M; change (inject_Z 1) with 1%Q in M; lra).
    assert (Nb : (inject_Z n <= 1000000)%Q) by (change 1000000%Q with (inject_Z 1000000); apply ile; lia). assert (Vn : (v < inject_Z n + 1)%Q) by (rewrite inject_Z_plus in V2; exact V2).
    set (F := inject_Z f) in *. set (y := absQ w) in *. destruct Aw as [W1 W2].
    assert (A1' : (h * F <= (y + (1 # 9007199254740992) * h) * F)%Q) by (apply Qmult_le_compat_r; lra).
    assert (A2' : (y * F <= (h + (1 # 9007199254740992) * h) * F)%Q) by (apply Qmult_le_compat_r; lra).
    assert (E1 : ((y + (1 # 9007199254740992) * h) * F == y * F + (1 # 9007199254740992) * (h * F))%Q) by ring.
    assert (E2 : ((h + (1 # 9007199254740992) * h) * F == h * F + (1 # 9007199254740992) * (h * F))%Q) by ring.
    rewrite E1 in A1'. rewrite E2 in A2'. set (yF := (y * F)%Q) in *. set (hF := (h * F)%Q) in *. apply Qabs_Qle_condition. split; lra.
Qed.
Lemma convert_all nd vs : 2 <= nd <= 6 -> Forall correlation vs -> exists ks, all_val (map (convert (10 ^ nd)) vs) = Val ks /\ length ks = length vs
  /\ Forall (in_cols (Z.to_nat nd + 1)) ks /\ forall ij, thinned nd (combine ij vs) (flat_map (kept (10 ^ nd)) (combine ij ks)).
Proof.
  intros Hd. induction 1 as [|x vs H _ (ks & E & L & C & T)].
  - exists []. split; [reflexivity|]. split; [reflexivity|]. split; [constructor|]. intros [|p ij]; constructor.
  - destruct (convert_close nd x Hd H) as (k & Ek & Ck & Z0 & NZ). exists (k :: ks). cbn [map all_val]. rewrite Ek, E. split; [reflexivity|]. split; [cbn [length]; lia|]. split; [constructor; assumption|].
    intros [|[i j] ij]; [constructor|]. cbn [combine flat_map kept]. destruct (Z.eqb_spec k 0) as [K|K].
    + cbn [app]. apply thinned_lose; [now apply Z0|apply T].
    + destruct (NZ K). cbn [app]. apply thinned_keep; [assumption|assumption|apply T].
Qed.
Lemma cols_snd w ks : Forall (in_cols w) ks -> forall ij : list (Z * Z), Forall (fun e => in_cols w (snd e)) (combine ij ks).
Proof. induction 1 as [|k ks C _ IH]; intros [|p ij]; cbn [combine]; constructor; [exact C|apply IH]. Qed.
Lemma packed_lines x : inv_corr x -> packable x -> let nd := Z.to_nat (cm_ndigit x) in
  exists L, compact_lines x = Val L /\ Forall (line_ok (Z.of_nat (intg_cap nd)) (in_cols (nd + 1))) L
    /\ thinned (cm_ndigit x) (entries x) (flat_map (elements_of (10 ^ cm_ndigit x)) L) /\ (length L <= length (cm_values x))%nat.
Proof.
  intros (I1 & I2 & I3 & I4) (_ & _ & R1 & R2 & R3 & R4) nd. destruct (convert_all _ _ I1 R4) as (ks & K & Ln & Kc0 & Th). fold nd in Kc0.
  assert (Ef : 10 ^ Z.of_nat (Z.to_nat (u32 (cm_ndigit x))) = 10 ^ cm_ndigit x) by (rewrite u32_id by lia; f_equal; lia).
  assert (Nd : (2 <= nd <= 6)%nat) by (unfold nd; lia).
  unfold compact_lines. rewrite Ef, K. cbn [obind]. rewrite u32_id by lia. fold nd. unfold entries.
  assert (Kl := Th (combine (cm_i x) (cm_j x))). assert (Kc := cols_snd _ _ Kc0 (combine (cm_i x) (cm_j x))).
  assert (Ix := index_all _ R1 _ ks R2).
  destruct (combine (combine (cm_i x) (cm_j x)) ks) as [|[[i j] k] es] eqn:Ec.
  - exists []. split; [reflexivity|]. split; [constructor|]. split; [exact Kl|cbn; lia].
  - assert (As : ascending_from i j es).
    { destruct (cm_i x) as [|i0 is]; [discriminate Ec|]. destruct (cm_j x) as [|j0 js]; [discriminate Ec|]. destruct ks as [|k0 ks0]; [discriminate Ec|]. cbn [combine] in Ec.
      injection Ec as <- <- <- <-. apply rows_ascend_from; [cbn in *; lia|exact R3]. }
    inversion Ix as [|? ? X1 X2]; subst. inversion Kc as [|? ? C1 C2]; subst. cbn [snd] in C1. unfold index_ok in X1.
    destruct (fill_spec (10 ^ cm_ndigit x) (Z.of_nat (intg_cap nd)) (in_cols (nd + 1)) (cap_bounds nd Nd) (in_cols_0 (nd + 1) ltac:(lia)) es (mkintg i j [k])) as (F1 & F2 & F3).
    + assert (Cb := cap_bounds nd Nd). split; cbn [gi gj gk]; [apply X1|apply X1|cbn [length]; lia|constructor; [exact C1|constructor]].
    + exact X2.
    + exact C2.
    + cbn [gi gj gk length]. replace (j + Z.of_nat 1 - 1) with j by lia. exact As.
    + exists (fill (Z.of_nat (intg_cap nd)) (mkintg i j [k]) es). split; [reflexivity|]. split; [exact F2|]. split.
      * rewrite F1. cbn [flat_map] in Kl. replace (elements_of (10 ^ cm_ndigit x) (mkintg i j [k])) with (kept (10 ^ cm_ndigit x) (i, j, k)); [exact Kl|].
        unfold elements_of, kept. cbn [gi gj gk length seq combine flat_map snd fst]. rewrite Z.add_0_r, u32_id by lia. symmetry. apply app_nil_r.
      * assert (Le : (length (combine (combine (cm_i x) (cm_j x)) ks) <= length ks)%nat) by (rewrite combine_length; lia). rewrite Ec in Le. cbn [length] in Le. lia.
Qed.
Lemma thinned_length nd es fs : thinned nd es fs -> (length fs <= length es)%nat.
Proof. induction 1; cbn [length]; lia. Qed.
(** a matrix of correlations is printed and read back with the same NDIGIT and order; every element comes back in its
    place, to within one half of the last digit, except those of at most one in the last digit, which are lost *)
Theorem C56_correlations : forall x mat mf mt rest ln, in_cols 4 mat -> in_cols 2 mf -> in_cols 3 mt -> inv_corr x -> packable x ->
  exists y, rd_corr mat mf mt (mkst (pr_corr x mat mf mt ++ rest) ln) = Ok y (mkst rest (ln + nc_corr x))
    /\ inv_corr y /\ cm_ndigit y = cm_ndigit x /\ cm_nnn y = cm_nnn x /\ thinned (cm_ndigit x) (entries x) (entries y).
Proof.
  intros x mat mf mt rest ln G1 G2 G3 I0 R. assert (G : good_tail mat mf mt) by (split; [|split]; assumption). assert (I := I0). destruct (packed_lines x I R) as (L & E & F & K & Len).
  assert (Hl : the_lines x = L) by (unfold the_lines; rewrite E; reflexivity). destruct I as (I1 & I2 & I3 & I4). assert (Lb : Z.of_nat (length L) < 2 ^ 31) by (destruct R as (_ & R & _); unfold len in R; lia).
  assert (Und : u32 (cm_ndigit x) = cm_ndigit x) by (apply u32_id; lia).
  assert (Pd : L = [] \/ print_digits (Z.to_nat (cm_ndigit x)) = Z.to_nat (cm_ndigit x)).
  { destruct R as ([R|R] & _); [left|right].
    - unfold compact_lines in E. rewrite R in E. cbn [map all_val obind] in E. destruct (combine (cm_i x) (cm_j x)); cbn [combine] in E; congruence.
    - unfold print_digits. destruct (Nat.eqb_spec (Z.to_nat (cm_ndigit x)) 3); [lia|reflexivity]. }
  assert (H : okcont (corr_head x)).
  { unfold corr_head. rewrite Hl. unfold okcont. cbn [c1 c2 l1 l2 n1 n2]. assert (B := u32_range (cm_nnn x)). assert (B' := u32_range (cm_ndigit x)).
    change (2 ^ 32) with 4294967296 in *. change (2 ^ 31) with 2147483648 in *.
    split; [apply okr_rzero|]. split; [apply okr_rzero|]. assert (H : forall z, 0 <= z < 4294967296 -> fits 11 z = true).
    { intros z Hz. apply in_cols_fits; [lia|]. unfold in_cols. change (10 ^ Z.of_nat 11) with 100000000000. change (10 ^ (Z.of_nat 11 - 1)) with 10000000000. lia. }
    split; [|split; [|split]]; apply H; lia. }
  set (nd := Z.to_nat (cm_ndigit x)) in *. assert (Nd : (2 <= nd <= 6)%nat) by (unfold nd; lia).
  set (es := flat_map (elements_of (10 ^ cm_ndigit x)) L) in *. assert (Te := thinned_length _ _ _ K).
  assert (Le : len (map (fun e : Z * Z * real => fst (fst e)) es) = len es /\ len (map (fun e : Z * Z * real => snd (fst e)) es) = len es /\ len (map snd es) = len es) by (unfold len; rewrite !map_length; auto).
  set (y := mkcorr (cm_ndigit x) (cm_nnn x) (map (fun e => fst (fst e)) es) (map (fun e => snd (fst e)) es) (map snd es)).
  exists y. split; [|split; [|split; [reflexivity|split; [reflexivity|]]]].
  - assert (RD : reads (rd_corr mat mf mt) (pr_corr x mat mf mt) y (nc_corr x)); [|exact (RD rest ln)].
    unfold rd_corr, pr_corr, nc_corr. rewrite Hl. eapply reads_bind; [apply reads_cont; [exact H|now apply good_oktail]|cbv beta].
    unfold corr_head. cbn [l1 l2 n1]. rewrite Hl, !Und, (u32_id (Z.of_nat (length L))), Nat2Z.id by lia. fold nd. eapply reads_require_bind; [unfold digits_ok; lia|].
    eapply reads_k; [eapply reads_bind_r; [apply (reads_rd_n_to _ _ (fun g => mkintg (gi g) (gj g) (strip0 (gk g))))|]|].
    + destruct Pd as [-> | Pd]; [constructor|]. rewrite Pd. revert F. apply Forall_impl. intros g Hg. apply reads_intg; [apply line_okintg; [lia|exact Hg]|now apply good_oktail].
    + assert (Ee : flat_map (elements_of (10 ^ Z.of_nat nd)) (map (fun g => mkintg (gi g) (gj g) (strip0 (gk g))) L) = es).
      { unfold es. replace (Z.of_nat nd) with (cm_ndigit x) by (unfold nd; lia). clear. induction L as [|g L IH]; [reflexivity|]. cbn [map flat_map]. rewrite IH, elements_strip. reflexivity. }
      rewrite Ee.
      assert (Mk : make_corr (u32 (u32 (cm_nnn x))) (map (fun e => fst (fst e)) es) (map (fun e => snd (fst e)) es) (map snd es) (cm_ndigit x) = Val y).
      { apply make_corr_val. split; [lia|]. destruct Le as (-> & -> & ->). split; [reflexivity|]. split; [reflexivity|].
        rewrite (i32_id (cm_ndigit x)) by (unfold int32; lia). rewrite (u32_id (u32 (cm_nnn x))) by (assert (B := u32_range (cm_nnn x)); lia). rewrite i32_u32, i32_id by exact I2. reflexivity. }
      rewrite Mk. apply reads_ret.
    + lia.
  - unfold inv_corr, y. cbn [cm_ndigit cm_nnn cm_i cm_j cm_values]. rewrite !map_length. auto.
  - unfold entries at 2. unfold y. cbn [cm_i cm_j cm_values]. replace (combine (combine (map (fun e => fst (fst e)) es) (map (fun e => snd (fst e)) es)) (map snd es)) with es; [exact K|].
    clear. induction es as [|[[i j] v] es IH]; [reflexivity|]. cbn [map combine fst snd]. now rewrite <- IH.
Qed.
(** a matrix that meets the hypotheses: 0.5, -0.25, 0.01 and 0 with two digits; the last two are lost *)
Definition r_half := mkreal false (2 ^ 52) (-53).
Definition r_quarter := mkreal true (2 ^ 52) (-54).
Definition r_cent := match to_double false 1 100 with Some x => x | None => rzero end.
Definition x32_matrix := mkcorr 2 5 [2; 3; 3; 4] [1; 1; 2; 3] [r_half; r_quarter; r_cent; rzero].
Example C56_correlations_example : inv_corr x32_matrix /\ packable x32_matrix
  /\ exists y, rd_corr 27 32 151 (mkst (pr_corr x32_matrix 27 32 151 ++ []) 0) = Ok y (mkst [] 4) /\ cm_i y = [2; 3] /\ cm_j y = [1; 1] /\ length (cm_values y) = 2%nat.
Proof.
  assert (I5 : forall z, 0 <= z <= 4 -> index5 z) by (intros z Hz; unfold index5; change (10 ^ 5) with 100000; lia).
  split; [unfold x32_matrix, inv_corr; cbn [cm_ndigit cm_nnn cm_i cm_j cm_values]; unfold int32; cbn [length]; lia|]. split.
  - split; [right; discriminate|]. split; [unfold len; cbn; lia|]. cbn [x32_matrix cm_i cm_j cm_values].
    split; [constructor; [apply I5; lia|constructor; [apply I5; lia|constructor; [apply I5; lia|constructor; [apply I5; lia|constructor]]]]|].
    split; [constructor; [apply I5; lia|constructor; [apply I5; lia|constructor; [apply I5; lia|constructor; [apply I5; lia|constructor]]]]|].
    split; [intros [|[|[|n]]] L E; cbn in *; lia|].
    assert (Q : forall x, 0 < rman x -> Qle_bool (1 # 100000000) (absQ x) = true -> Qle_bool (absQ x) (1 - (1 # 100000000)) = true -> correlation x).
    { intros x P L U. apply Qle_bool_iff in L, U. split; [lia|]. right. split; [exact L|]. destruct (rneg x); [exact U|lra]. }
    constructor; [apply Q; reflexivity|]. constructor; [apply Q; reflexivity|]. constructor; [apply Q; vm_compute; reflexivity|]. constructor; [|constructor]. split; [cbn; lia|left; reflexivity].
  - eexists. split; [vm_compute; reflexivity|]. split; [reflexivity|]. split; reflexivity.
Qed.
(** ** what is not so *)
(** with NDIGIT = 3 nothing that is printed can be read: print.hpp writes three columns for each number, the reader expects four *)
Theorem C56_three_digits_refuted : exists x, inv_corr x /\ Forall index5 (cm_i x) /\ Forall index5 (cm_j x) /\ Forall correlation (cm_values x) /\ rows_ascend (cm_i x) (cm_j x) /\ cm_ndigit x = 3
  /\ exists s, rd_corr 27 32 151 (mkst (pr_corr x 27 32 151) 0) = Err EStd s.
Proof.
  assert (I5 : forall z, 0 <= z <= 4 -> index5 z) by (intros z Hz; unfold index5; change (10 ^ 5) with 100000; lia).
  exists (mkcorr 3 2 [2] [1] [r_half]). split; [unfold inv_corr, int32; cbn [cm_ndigit cm_nnn cm_i cm_j cm_values length]; lia|]. cbn [cm_i cm_j cm_values cm_ndigit].
  split; [constructor; [apply I5; lia|constructor]|]. split; [constructor; [apply I5; lia|constructor]|].
  split; [constructor; [|constructor]; split; [cbn; lia|]; right; cbn [r_half rneg]; split; apply Qle_bool_iff; reflexivity|]. split; [intros n L; cbn in L; lia|]. split; [reflexivity|].
  eexists. vm_compute. reflexivity.
Qed.
(** a correlation of -1 does not fit the columns *)
Theorem C56_minus_one_refuted : exists s, rd_corr 27 32 151 (mkst (pr_corr (mkcorr 2 2 [2] [1] [mkreal true (2 ^ 52) (-52)]) 27 32 151) 0) = Err EStd s.
Proof. eexists. vm_compute. reflexivity. Qed.
(** an element to the left of the one before it in the same row is read back in another place *)
Theorem C56_order_refuted : exists x y s, make_corr 9 [6; 6] [5; 3] [r_half; r_quarter] 2 = Val x
  /\ rd_corr 27 32 151 (mkst (pr_corr x 27 32 151) 0) = Ok y s /\ cm_i y = [6; 6] /\ cm_j y = [5; 6].
Proof. eexists. eexists. eexists. split; [reflexivity|]. split; [vm_compute; reflexivity|]. split; reflexivity. Qed.
