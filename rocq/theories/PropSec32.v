(** PropSec32.v -- C56: File 32, covariances of resonance parameters. *)
From Coq Require Import ZifyBool ZifyNat QArith.
From Verif Require Import Base Disco DiscoProofs Records RecordProofs RecordRT RecordSound Layout Normal LineFacts RealRound RealProofs Spec Sections SecSpec Codec SectionProofs SecKit CodecKit
  PropRecords PropRecords3 Sec9 Sec9Spec Sec9Proofs Sec4Spec Sec4Proofs Sec6 Sec6Spec Sec6Proofs Sec6Safe Sec33 Sec33Spec Sec33Proofs Sec33Safe ExKit PropSec6 PropSec33
  Sec8 Sec8Spec Sec8Proofs PropSec8 Sec7 Sec7Spec Sec7Proofs PropSec7 Sec2 Sec2Spec Sec2Proofs PropSec2 Sec32 Sec32Corr Sec32Spec Sec32Proofs Sec32Safe SecLong Sec32Local.
Open Scope Z_scope.

Theorem C56_mf32_151 : section_core sec_32_151 (Forall rep_cisotope) (some_of inv_cisotope).
Proof. exact core_32. Qed.
Theorem C56_mf32_151_lines : section_lines sec_32_151 (fun _ t => tame32 t).
Proof. exact lines_32. Qed.
(** and only these lines matter, unless the section ends in a line of less than 66 columns *)
Theorem C56_mf32_151_local : section_long sec_32_151.
Proof. exact long_32. Qed.
Theorem C56_mf32_151_safe : forall h mat s, int32 (round_int (c1 (sbase h))) -> tame32 (buf s) -> never_other (rd_section sec_32_151 h mat s).
Proof. exact safe_32. Qed.

(** ** examples *)
Definition x32_limited := mklimited r_one r_pi (Some r_tiny) [xlist 1 0 1 (six_one ++ six_one ++ six_one)].
Definition x32_short := xlist 1 0 1 (six_one ++ [r_one]).
Definition x32_general : general real listr := mkgeneral r_one r_pi r_one (Some r_one) 2 [x32_short; x32_short] [].
Definition x32_triangle := xlist 0 0 2 [r_one; r_pi; r_tiny].
Definition x32_general_rml : general listr short_rml := mkgeneral r_one r_pi r_one None 2 [mkshort_rml [xtwo] x32_triangle] [Square (xlist 1 5 2 [r_tiny; r_pi; r_one])].
Definition x32_corr := mkcorr 4 3 [2; 3; 3] [1; 1; 2] [half_away 12 10000; half_away (-345) 10000; half_away 9999 10000].
Definition x32_rml := mkrml32 (xlist 2 1 4 (six_one ++ six_one ++ six_one ++ six_one)) [mkspin32 xchannels xtwo].
Definition x32_compact_rml : compact listr rml32 := mkcompact r_one r_pi 0 0 None x32_rml x32_corr.
Definition x32_compact : compact real listr := mkcompact r_one r_pi 0 2 (Some r_tiny) (xlist 0 0 1 (six_one ++ six_one)) (mkcorr 2 0 [] [] []).
Definition x32_unres := mkunres32 r_one r_pi [xtwo] x32_triangle.
Definition x32_body := [
  mkcisotope r_pi r_one true [mkcrange r_tiny r_one 2 (LimitedSLBW x32_limited) (Some [Square (xlist 1 5 2 [r_tiny; r_pi; r_one])]); mkcrange r_tiny r_one 0 (GeneralMLBW x32_general) None];
  mkcisotope r_pi r_one false [mkcrange r_tiny r_one 1 (GeneralRML x32_general_rml) None; mkcrange r_tiny r_one 0 (CompactRML x32_compact_rml) None;
    mkcrange r_tiny r_one 0 (CompactSLBW x32_compact) None; mkcrange r_tiny r_one 0 (Unresolved32 x32_unres) None]].
Lemma ex32_square : rep_explicit (Square (xlist 1 5 2 [r_tiny; r_pi; r_one])) /\ inv_long (Square (xlist 1 5 2 [r_tiny; r_pi; r_one])).
Proof.
  split; [unfold rep_explicit; cbn [list_of]; xt|]. split; [reflexivity|]. split; [nai|]. exists 1, 2, 3. split; [nai|]. split; [nai|]. split; [nai|].
  unfold square_ok, int32. cbn. lia.
Qed.
Lemma ex32_limited : rep_limited x32_limited /\ inv_limited x32_limited.
Proof.
  split.
  - split; [xt|]. split; [xt|]. split; [intros d E; injection E as <-; xt|]. cbn [x32_limited lm_lvalues]. unfold six_one. cbn [app]. constructor; [xt|constructor].
  - split; [|cbn [x32_limited lm_lvalues]; l1]. constructor; [|constructor]. exists 1. split; [lia|]. split; nai.
Qed.
Lemma ex32_short : endf_list x32_short /\ inv_short x32_short.
Proof.
  split; [unfold x32_short, six_one; cbn [app]; xt|]. exists 1, 1, 7. split; [lia|]. split; [lia|]. split; [nai|]. split; [nai|]. split; [nai|]. unfold int32. lia.
Qed.
Lemma ex32_general : rep_general endf_real endf_list x32_general /\ inv_general inv_short x32_general.
Proof.
  destruct ex32_short as [S1 S2]. split.
  - split; [xt|]. split; [xt|]. split; [xt|]. split; [intros d E; injection E as <-; xt|]. split; [|constructor]. constructor; [exact S1|]. constructor; [exact S1|constructor].
  - split; [cbn; lia|]. split; [|split; [constructor|cbn [x32_general ge_long]; l1]]. split; [|cbn [x32_general ge_short]; l1]. constructor; [exact S2|]. constructor; [exact S2|constructor].
Qed.
Lemma ex32_triangle : endf_list x32_triangle /\ inv_triangle x32_triangle.
Proof. split; [unfold x32_triangle; xt|]. exists 2, 3. split; [lia|]. split; [nai|]. split; [nai|]. unfold int32. lia. Qed.
Lemma ex32_general_rml : rep_general none rep_short_rml x32_general_rml /\ inv_general inv_short_rml x32_general_rml.
Proof.
  destruct ex32_triangle as [T1 T2], ex32_square as [Q1 Q2]. split.
  - split; [xt|]. split; [xt|]. split; [xt|]. split; [discriminate|]. split.
    + constructor; [|constructor]. split; [constructor; [exact ex_two|constructor]|exact T1].
    + constructor; [exact Q1|constructor].
  - split; [cbn; lia|]. split; split.
    + constructor; [|constructor]. split; [|exact T2]. split; [|cbn [sr_groups]; l1]. constructor; [|constructor]. exists 2. split; [lia|nai].
    + cbn [x32_general_rml ge_short]. l1.
    + constructor; [exact Q2|constructor].
    + cbn [x32_general_rml ge_long]. l1.
Qed.
Lemma ex32_coded k : k <> 0 -> -1000 < k < 10000 -> coded 4 (half_away k 10000).
Proof.
  intros N B. exists k. split; [exact N|]. split; [unfold in_cols; change (10 ^ Z.of_nat (Z.to_nat 4 + 1)) with 100000; change (10 ^ (Z.of_nat (Z.to_nat 4 + 1) - 1)) with 10000; lia|].
  destruct (half_away_spec k 10000 ltac:(lia) ltac:(lia)) as (x & E & -> & _). change (2 * 10 ^ 4) with (2 * 10000). exact E.
Qed.
Lemma ex32_corr : rep_corr x32_corr /\ inv_corr x32_corr.
Proof.
  assert (I5 : forall z, 0 <= z <= 3 -> index5 z) by (intros z Hz; unfold index5; change (10 ^ 5) with 100000; lia).
  split.
  - split; [right; discriminate|]. split; [cbn [x32_corr cm_values]; l1|]. cbn [x32_corr cm_i cm_j cm_values cm_ndigit].
    split; [constructor; [|constructor; [|constructor; [|constructor]]]; apply I5; lia|]. split; [constructor; [|constructor; [|constructor; [|constructor]]]; apply I5; lia|].
    split; [intros [|[|n]] L E; cbn in *; lia|]. constructor; [|constructor; [|constructor; [|constructor]]]; apply ex32_coded; lia.
  - unfold x32_corr, inv_corr. cbn [cm_ndigit cm_nnn cm_i cm_j cm_values]. unfold int32. cbn [length]. lia.
Qed.
Lemma ex32_compact_rml : rep_compact none rep_rml32 x32_compact_rml /\ inv_compact inv_rml32 x32_compact_rml.
Proof.
  destruct ex32_corr as [C1 C2]. split.
  - split; [xt|]. split; [xt|]. split; [cbn [x32_compact_rml co_l1]; xt|]. split; [cbn [x32_compact_rml co_n1]; xt|]. split; [discriminate|]. split; [|exact C1].
    split; [unfold x32_compact_rml, x32_rml, six_one; cbn [co_unc r32_pairs app]; xt|]. constructor; [|constructor]. split; [unfold xchannels, six_one; cbn [sg_channels app]; xt|exact ex_two].
  - split; [|exact C2]. split; [exists 2; split; [lia|]; split; nai|]. split; [nai|]. split; [|cbn [x32_compact_rml x32_rml co_unc r32_groups]; l1]. constructor; [|constructor].
    split; [exists 3; split; [lia|]; split; nai|]. exists 1. split; [lia|nai].
Qed.
Lemma ex32_compact : rep_compact endf_real endf_list x32_compact /\ inv_compact (inv_rows 12) x32_compact.
Proof.
  split.
  - split; [xt|]. split; [xt|]. split; [cbn [x32_compact co_l1]; xt|]. split; [cbn [x32_compact co_n1]; xt|]. split; [intros d E; injection E as <-; xt|].
    split; [unfold x32_compact, six_one; cbn [co_unc app]; xt|]. split; [left; reflexivity|]. split; [cbn [x32_compact co_corr cm_values]; l1|]. split; [constructor|]. split; [constructor|]. split; [intros n L; cbn in L; lia|constructor].
  - split; [exists 1; split; [lia|]; split; nai|]. unfold inv_corr, int32. cbn. lia.
Qed.
Lemma ex32_unres : rep_unres32 x32_unres /\ inv_unres32 x32_unres.
Proof.
  destruct ex32_triangle as [T1 T2]. split.
  - split; [xt|]. split; [xt|]. split; [constructor; [exact ex_two|constructor]|exact T1].
  - split; [|exact T2]. split; [|cbn [x32_unres u32_lvalues]; l1]. constructor; [|constructor]. exists 2, 12. split; [nai|]. split; [nai|reflexivity].
Qed.
Example C56_example : meets sec_32_151 (Forall rep_cisotope) (some_of inv_cisotope) (mksect 92235 r_pi 151 x32_body).
Proof.
  destruct ex32_square as [Q1 Q2], ex32_limited as [L1 L2], ex32_general as [G1 G2], ex32_general_rml as [H1 H2], ex32_compact_rml as [R1 R2], ex32_compact as [C1 C2], ex32_unres as [U1 U2].
  xids; [split; [cbn; reflexivity|exact Logic.I]|]. unfold x32_body. split.
  - constructor; [|constructor; [|constructor]]; (split; [xt|]; split; [xt|]; cbn [ci_ranges]).
    + constructor; [split; [xt|split; [xt|split; [exact L1|intros l E; injection E as <-; constructor; [exact Q1|constructor]]]]|].
      constructor; [split; [xt|split; [xt|split; [exact G1|discriminate]]]|constructor].
    + constructor; [split; [xt|split; [xt|split; [exact H1|discriminate]]]|]. constructor; [split; [xt|split; [xt|split; [exact R1|discriminate]]]|].
      constructor; [split; [xt|split; [xt|split; [exact C1|discriminate]]]|]. constructor; [split; [xt|split; [xt|split; [exact U1|discriminate]]]|constructor].
  - split; [|l1]. constructor; [|constructor; [|constructor]]; (split; [|cbn [ci_ranges]; l1]; cbn [ci_ranges]).
    + constructor; [split; [exact L2|cbn [cr_radius cr_naps cr_params]]|].
      { split; [split; [constructor; [exact Q2|constructor]|l1]|]. split; [lia|exact Logic.I]. }
      constructor; [split; [exact G2|cbn [cr_radius cr_naps]; lia]|constructor].
    + constructor; [split; [exact H2|cbn [cr_radius cr_naps]; lia]|]. constructor; [split; [exact R2|cbn [cr_radius cr_naps]; lia]|].
      constructor; [split; [exact C2|cbn [cr_radius cr_naps]; lia]|]. constructor; [split; [exact U2|cbn [cr_radius cr_naps]; lia]|constructor].
Qed.

(** ** constructors and columns *)
Lemma positive_rows m (l : listr) n : inv_rows m l -> lN2 l = Z.of_nat n -> (0 < n)%nat.
Proof. intros (k & P & A & _) E. rewrite E in A. apply as_int_get in A. destruct n; [change (i32 (Z.of_nat 0)) with 0 in A; lia|lia]. Qed.
(** limited covariances: seventeen columns; the length of <dJdF> is not checked *)
Theorem C56_limited_lvalue : forall awri l es spins gt gn gg gf de2 dn2 dndg dg2 dndf dgdf df2 djdn djdg djdf dj2 x, len es < 2 ^ 32 -> length djdf = length es ->
  make_limited_lvalue awri l es spins gt gn gg gf de2 dn2 dndg dg2 dndf dgdf df2 djdn djdg djdf dj2 = Val x ->
  0 < len es /\ Forall (fun v => length v = length es) [spins; gt; gn; gg; gf; de2; dn2; dndg; dg2; dndf; dgdf; df2; djdn; djdg; dj2]
  /\ lC1 x = awri /\ lC2 x = rzero /\ lL1 x = l /\ lL2 x = 0 /\ lN2 x = len es /\ len (lB x) = 18 * len es /\ inv_rows 18 x /\ col_of 18 17 x = Val (repeat rzero (length es))
  /\ ll_ER x = Val es /\ ll_AJ x = Val spins /\ ll_GT x = Val gt /\ ll_GN x = Val gn /\ ll_GG x = Val gg /\ ll_GF x = Val gf /\ ll_DE2 x = Val de2 /\ ll_DN2 x = Val dn2
  /\ ll_DNDG x = Val dndg /\ ll_DG2 x = Val dg2 /\ ll_DNDF x = Val dndf /\ ll_DGDF x = Val dgdf /\ ll_DF2 x = Val df2 /\ ll_DJDN x = Val djdn /\ ll_DJDG x = Val djdg
  /\ ll_DJDF x = Val djdf /\ ll_DJ2 x = Val dj2.
Proof.
  intros awri l es spins gt gn gg gf de2 dn2 dndg dg2 dndf dgdf df2 djdn djdg djdf dj2 x H Lf E. unfold make_limited_lvalue in E.
  destruct (all_sized _ _) eqn:S1; [|discriminate]. cbn [negb] in E. apply all_sized_spec in S1; [|exact H]. destruct (Nat.ltb_spec (length djdf) (length es)); [discriminate|].
  apply obind_val in E. destruct E as ([] & E & K). injection K as <-. apply check_limited_spec in E. assert (Pn := positive_rows _ _ _ E eq_refl).
  split; [unfold len; lia|]. split; [exact S1|]. cbn [lC1 lC2 lL1 lL2 lN2 lB]. do 5 (split; [reflexivity|]).
  split; [unfold len; rewrite rows_of_length; cbn [length]; lia|]. split; [exact E|]. set (x := mklist _ _ _ _ _ _). fcons S1.
  split; [exact (col_pad [] [es; spins; gt; gn; gg; gf; de2; dn2; dndg; dg2; dndf; dgdf; df2; djdn; djdg; djdf; dj2; []] (length es) 18 17 x eq_refl eq_refl ltac:(lia) Pn eq_refl)|].
  assert (C := fun k => col_made [] [es; spins; gt; gn; gg; gf; de2; dn2; dndg; dg2; dndf; dgdf; df2; djdn; djdg; djdf; dj2; []] (length es) 18 k x eq_refl eq_refl).
  split; [exact (C 0%nat ltac:(lia) Pn eq_refl)|]. split; [exact (C 1%nat ltac:(lia) Pn ltac:(assumption))|]. split; [exact (C 2%nat ltac:(lia) Pn ltac:(assumption))|].
  split; [exact (C 3%nat ltac:(lia) Pn ltac:(assumption))|]. split; [exact (C 4%nat ltac:(lia) Pn ltac:(assumption))|]. split; [exact (C 5%nat ltac:(lia) Pn ltac:(assumption))|].
  split; [exact (C 6%nat ltac:(lia) Pn ltac:(assumption))|]. split; [exact (C 7%nat ltac:(lia) Pn ltac:(assumption))|]. split; [exact (C 8%nat ltac:(lia) Pn ltac:(assumption))|].
  split; [exact (C 9%nat ltac:(lia) Pn ltac:(assumption))|]. split; [exact (C 10%nat ltac:(lia) Pn ltac:(assumption))|]. split; [exact (C 11%nat ltac:(lia) Pn ltac:(assumption))|].
  split; [exact (C 12%nat ltac:(lia) Pn ltac:(assumption))|]. split; [exact (C 13%nat ltac:(lia) Pn ltac:(assumption))|]. split; [exact (C 14%nat ltac:(lia) Pn ltac:(assumption))|].
  split; [exact (C 15%nat ltac:(lia) Pn ltac:(assumption))|exact (C 16%nat ltac:(lia) Pn ltac:(assumption))].
Qed.
(** the sizes of the other columns are checked; the one of <dJdF> is not, and a shorter one is undefined behaviour *)
Theorem C56_limited_lvalue_size_refuted : forall awri l es spins gt gn gg gf de2 dn2 dndg dg2 dndf dgdf df2 djdn djdg djdf dj2, len es < 2 ^ 32 ->
  Forall (fun v => length v = length es) [spins; gt; gn; gg; gf; de2; dn2; dndg; dg2; dndf; dgdf; df2; djdn; djdg; dj2] -> (length djdf < length es)%nat ->
  make_limited_lvalue awri l es spins gt gn gg gf de2 dn2 dndg dg2 dndf dgdf df2 djdn djdg djdf dj2 = Undef.
Proof.
  intros awri l es spins gt gn gg gf de2 dn2 dndg dg2 dndf dgdf df2 djdn djdg djdf dj2 H F L. unfold make_limited_lvalue.
  rewrite (proj2 (all_sized_spec (length es) [spins; gt; gn; gg; gf; de2; dn2; dndg; dg2; dndf; dgdf; df2; djdn; djdg; dj2] H) F). cbn [negb].
  destruct (Nat.ltb_spec (length djdf) (length es)); [reflexivity|lia].
Qed.
(** at least one l value *)
Theorem C56_limited : forall spi ap dap ls, len ls < 2 ^ 31 ->
  make_limited spi ap dap ls = (if (0 <? len ls) then Val (mklimited spi ap dap ls) else Throw EStd).
Proof.
  intros spi ap dap ls H. unfold make_limited, at_least_one. rewrite isize_len by exact H. assert (N := len_nonneg ls).
  destruct (Z.ltb_spec 0 (len ls)).
  - replace (len ls <? 1) with false by lia. reflexivity.
  - replace (len ls <? 1) with true by lia. reflexivity.
Qed.
(** compact Breit-Wigner and Reich-Moore *)
Theorem C56_bw_uncertainties : forall awri qx lrx es spins gt gn gg gf der dgn dgg dgf x, len es < 2 ^ 32 ->
  make_bw_uncertainties awri qx lrx es spins gt gn gg gf der dgn dgg dgf = Val x ->
  0 < len es /\ Forall (fun v => length v = length es) [spins; gt; gn; gg; gf; der; dgn; dgg; dgf] /\ lC1 x = awri /\ lC2 x = qx /\ lL1 x = 0 /\ (lL2 x = if lrx then 1 else 0) /\ lN2 x = len es /\ inv_rows 12 x
  /\ col_of 12 7 x = Val (repeat rzero (length es)) /\ col_of 12 8 x = Val (repeat rzero (length es))
  /\ cb_ER x = Val es /\ cb_AJ x = Val spins /\ cb_GT x = Val gt /\ cb_GN x = Val gn /\ cb_GG x = Val gg /\ cb_GF x = Val gf /\ cb_DER x = Val der /\ cb_DGN x = Val dgn /\ cb_DGG x = Val dgg /\ cb_DGF x = Val dgf.
Proof.
  intros awri qx lrx es spins gt gn gg gf der dgn dgg dgf x H E. unfold make_bw_uncertainties in E.
  destruct (all_sized _ _) eqn:S1; [|discriminate]. cbn [negb] in E. apply all_sized_spec in S1; [|exact H].
  apply obind_val in E. destruct E as ([] & E & K). injection K as <-. apply check_uncertainties_spec in E. assert (Pn := positive_rows _ _ _ E eq_refl).
  split; [unfold len; lia|]. split; [exact S1|]. cbn [lC1 lC2 lL1 lL2 lN2 lB]. do 5 (split; [reflexivity|]). split; [exact E|]. set (x := mklist _ _ _ _ _ _). fcons S1.
  assert (D := fun k => col_pad [] [es; spins; gt; gn; gg; gf; der; []; []; dgn; dgg; dgf] (length es) 12 k x eq_refl eq_refl). split; [exact (D 7%nat ltac:(lia) Pn eq_refl)|]. split; [exact (D 8%nat ltac:(lia) Pn eq_refl)|]. clear D.
  assert (C := fun k => col_made [] [es; spins; gt; gn; gg; gf; der; []; []; dgn; dgg; dgf] (length es) 12 k x eq_refl eq_refl).
  split; [exact (C 0%nat ltac:(lia) Pn eq_refl)|]. split; [exact (C 1%nat ltac:(lia) Pn ltac:(assumption))|]. split; [exact (C 2%nat ltac:(lia) Pn ltac:(assumption))|].
  split; [exact (C 3%nat ltac:(lia) Pn ltac:(assumption))|]. split; [exact (C 4%nat ltac:(lia) Pn ltac:(assumption))|]. split; [exact (C 5%nat ltac:(lia) Pn ltac:(assumption))|].
  split; [exact (C 6%nat ltac:(lia) Pn ltac:(assumption))|]. split; [exact (C 9%nat ltac:(lia) Pn ltac:(assumption))|]. split; [exact (C 10%nat ltac:(lia) Pn ltac:(assumption))|exact (C 11%nat ltac:(lia) Pn ltac:(assumption))].
Qed.
Theorem C56_rm_uncertainties : forall awri apl es spins gn gg gfa gfb der dgn dgg dgfa dgfb x, len es < 2 ^ 32 ->
  make_rm_uncertainties awri apl es spins gn gg gfa gfb der dgn dgg dgfa dgfb = Val x ->
  0 < len es /\ Forall (fun v => length v = length es) [spins; gn; gg; gfa; gfb; der; dgn; dgg; dgfa; dgfb] /\ lC1 x = awri /\ lC2 x = apl /\ lL1 x = 0 /\ lL2 x = 0 /\ lN2 x = len es /\ inv_rows 12 x /\ col_of 12 7 x = Val (repeat rzero (length es))
  /\ cr_ER x = Val es /\ cr_AJ x = Val spins /\ cr_GN x = Val gn /\ cr_GG x = Val gg /\ cr_GFA x = Val gfa /\ cr_GFB x = Val gfb /\ cr_DER x = Val der /\ cr_DGN x = Val dgn /\ cr_DGG x = Val dgg /\ cr_DGFA x = Val dgfa /\ cr_DGFB x = Val dgfb.
Proof.
  intros awri apl es spins gn gg gfa gfb der dgn dgg dgfa dgfb x H E. unfold make_rm_uncertainties in E.
  destruct (all_sized _ _) eqn:S1; [|discriminate]. cbn [negb] in E. apply all_sized_spec in S1; [|exact H].
  apply obind_val in E. destruct E as ([] & E & K). injection K as <-. apply check_uncertainties_spec in E. assert (Pn := positive_rows _ _ _ E eq_refl).
  split; [unfold len; lia|]. split; [exact S1|]. cbn [lC1 lC2 lL1 lL2 lN2 lB]. do 5 (split; [reflexivity|]). split; [exact E|]. set (x := mklist _ _ _ _ _ _). fcons S1.
  split; [exact (col_pad [] [es; spins; gn; gg; gfa; gfb; der; []; dgn; dgg; dgfa; dgfb] (length es) 12 7 x eq_refl eq_refl ltac:(lia) Pn eq_refl)|].
  assert (C := fun k => col_made [] [es; spins; gn; gg; gfa; gfb; der; []; dgn; dgg; dgfa; dgfb] (length es) 12 k x eq_refl eq_refl).
  split; [exact (C 0%nat ltac:(lia) Pn eq_refl)|]. split; [exact (C 1%nat ltac:(lia) Pn ltac:(assumption))|]. split; [exact (C 2%nat ltac:(lia) Pn ltac:(assumption))|].
  split; [exact (C 3%nat ltac:(lia) Pn ltac:(assumption))|]. split; [exact (C 4%nat ltac:(lia) Pn ltac:(assumption))|]. split; [exact (C 5%nat ltac:(lia) Pn ltac:(assumption))|].
  split; [exact (C 6%nat ltac:(lia) Pn ltac:(assumption))|]. split; [exact (C 8%nat ltac:(lia) Pn ltac:(assumption))|]. split; [exact (C 9%nat ltac:(lia) Pn ltac:(assumption))|]. split; [exact (C 10%nat ltac:(lia) Pn ltac:(assumption))|exact (C 11%nat ltac:(lia) Pn ltac:(assumption))].
Qed.
(** accepted whenever the columns have the same length, from 1 to 178956970 *)
Theorem C56_uncertainties_accept : forall awri q lrx es, 1 <= len es <= 178956970 ->
  (forall spins gt gn gg gf der dgn dgg dgf, Forall (fun v => length v = length es) [spins; gt; gn; gg; gf; der; dgn; dgg; dgf] ->
    exists x, make_bw_uncertainties awri q lrx es spins gt gn gg gf der dgn dgg dgf = Val x)
  /\ (forall spins gn gg gfa gfb der dgn dgg dgfa dgfb, Forall (fun v => length v = length es) [spins; gn; gg; gfa; gfb; der; dgn; dgg; dgfa; dgfb] ->
    exists x, make_rm_uncertainties awri q es spins gn gg gfa gfb der dgn dgg dgfa dgfb = Val x).
Proof.
  intros awri q lrx es H. unfold len in H.
  assert (K : forall l cols, length cols = 12%nat -> lN2 l = Z.of_nat (length es) -> lB l = rows_of cols (length es) -> check_uncertainties l = Val tt).
  { intros l cols L En Eb. apply check_uncertainties_spec. exists (len es). rewrite En, Eb. unfold len. rewrite rows_of_length, L. split; [lia|]. split; apply as_int_eq; rewrite i32_id; unfold int32; lia. }
  split.
  - intros spins gt gn gg gf der dgn dgg dgf F. unfold make_bw_uncertainties. rewrite (proj2 (all_sized_spec (length es) [spins; gt; gn; gg; gf; der; dgn; dgg; dgf] ltac:(lia)) F). cbn [negb].
    set (r := mklist _ _ _ _ _ _). rewrite (K r [es; spins; gt; gn; gg; gf; der; []; []; dgn; dgg; dgf] eq_refl eq_refl eq_refl). eexists. reflexivity.
  - intros spins gn gg gfa gfb der dgn dgg dgfa dgfb F. unfold make_rm_uncertainties. rewrite (proj2 (all_sized_spec (length es) [spins; gn; gg; gfa; gfb; der; dgn; dgg; dgfa; dgfb] ltac:(lia)) F). cbn [negb].
    set (r := mklist _ _ _ _ _ _). rewrite (K r [es; spins; gn; gg; gfa; gfb; der; []; dgn; dgg; dgfa; dgfb] eq_refl eq_refl eq_refl). eexists. reflexivity.
Qed.
(** unresolved resonances: six columns *)
Theorem C56_unres_lvalue : forall awri l spins d gno gg gf gx x, len spins < 2 ^ 32 -> make_unres_lvalue awri l spins d gno gg gf gx = Val x ->
  Forall (fun v => length v = length spins) [d; gno; gg; gf; gx] /\ lC1 x = awri /\ lC2 x = rzero /\ lL1 x = l /\ lL2 x = 0 /\ lN2 x = len spins /\ inv_independent x
  /\ ul_D x = Val d /\ ul_AJ x = Val spins /\ ul_GNO x = Val gno /\ ul_GG x = Val gg /\ ul_GF x = Val gf /\ ul_GX x = Val gx.
Proof.
  intros awri l spins d gno gg gf gx x H E. unfold make_unres_lvalue in E. destruct (all_sized _ _) eqn:S1; [|discriminate]. cbn [negb] in E. apply all_sized_spec in S1; [|exact H].
  apply obind_val in E. destruct E as ([] & E & K). injection K as <-. apply check_independent_spec in E.
  split; [exact S1|]. cbn [lC1 lC2 lL1 lL2 lN2 lB]. do 5 (split; [reflexivity|]). split; [exact E|]. set (x := mklist _ _ _ _ _ _). fcons S1.
  assert (C := fun k => chunk_made [d; spins; gno; gg; gf; gx] (length spins) 6 k x eq_refl eq_refl).
  split; [exact (C 0%nat ltac:(lia) ltac:(assumption))|]. split; [exact (C 1%nat ltac:(lia) eq_refl)|]. split; [exact (C 2%nat ltac:(lia) ltac:(assumption))|].
  split; [exact (C 3%nat ltac:(lia) ltac:(assumption))|]. split; [exact (C 4%nat ltac:(lia) ltac:(assumption))|exact (C 5%nat ltac:(lia) ltac:(assumption))].
Qed.
(** general Breit-Wigner and Reich-Moore: six columns and the upper triangle of a matrix of order MPAR NRB *)
Lemma i32_small n k : 0 <= n < 2 ^ 32 -> i32 n = k -> 1 <= k -> n = k.
Proof. intros H E P. unfold i32 in E. rewrite Z.mod_small in E by lia. destruct (Z.ltb_spec n 2147483648); lia. Qed.
Theorem C56_short : forall mpar es spins a b c d values x, len es < 2 ^ 32 -> make_short mpar es spins a b c d values = Val x ->
  0 < len es /\ Forall (fun v => length v = length es) [spins; a; b; c; d] /\ lL1 x = mpar /\ lN2 x = len es /\ inv_short x
  /\ sh_ER x = Val es /\ sh_AJ x = Val spins /\ sb_GT x = Val a /\ sb_GN x = Val b /\ sb_GG x = Val c /\ sb_GF x = Val d
  /\ sr_GN x = Val a /\ sr_GG x = Val b /\ sr_GFA x = Val c /\ sr_GFB x = Val d /\ sh_matrix x = Val values
  /\ (int32 mpar -> sh_NPARB x = Val (mpar * len es) /\ (len values < 2 ^ 31 -> sh_NVS x = Val (len values))).
Proof.
  intros mpar es spins a b c d values x H E. unfold make_short in E. destruct (all_sized _ _) eqn:S1; [|discriminate]. cbn [negb] in E. apply all_sized_spec in S1; [|exact H].
  apply obind_val in E. destruct E as ([] & E & K). injection K as <-. apply check_short_spec in E. set (x := mklist _ _ _ _ _ _) in *. assert (E0 := E).
  destruct E as (m & n & p & B1 & B2 & A1 & A2 & A3 & B3 & B4). assert (M0 := A1). apply as_int_get in A1, A2, A3. unfold x in A1, A2, A3. cbn [lL1 lN2 lB] in A1, A2, A3.
  assert (Hn : len es = n) by (apply i32_small; [unfold len in *; lia|exact A2|lia]). assert (Pn : (0 < length es)%nat) by (unfold len in Hn; lia).
  assert (Hp : int32 p) by (rewrite <- A3; apply i32_range). unfold int32 in Hp. assert (F6 : int_op (6 * i32 (lN2 x)) = Val (6 * n)) by (unfold x; cbn [lN2]; rewrite A2; apply int_op_val; split; [reflexivity|unfold int32; nia]).
  assert (L6 : 6 * n = Z.of_nat (length (rows_of [es; spins; a; b; c; d] (length es)))) by (rewrite rows_of_length; cbn [length]; unfold len in Hn; lia).
  assert (C : forall k, (k < 6)%nat -> length (nth k [es; spins; a; b; c; d] []) = length es -> sh_column (Z.of_nat k) x = Val (nth k [es; spins; a; b; c; d] [])).
  { intros k Hk Lk. unfold sh_column. rewrite F6. cbn [obind]. unfold x at 1. cbn [lB]. rewrite (take_app _ _ _ L6). cbn [obind].
    exact (col_made [] [es; spins; a; b; c; d] (length es) 6 k (mklist rzero rzero 0 0 0 (rows_of [es; spins; a; b; c; d] (length es))) eq_refl eq_refl Hk Pn Lk). }
  split; [unfold len; lia|]. split; [exact S1|]. split; [reflexivity|]. split; [reflexivity|]. split; [exact E0|]. fcons S1.
  split; [exact (C 0%nat ltac:(lia) eq_refl)|]. split; [exact (C 1%nat ltac:(lia) ltac:(assumption))|]. split; [exact (C 2%nat ltac:(lia) ltac:(assumption))|].
  split; [exact (C 3%nat ltac:(lia) ltac:(assumption))|]. split; [exact (C 4%nat ltac:(lia) ltac:(assumption))|]. split; [exact (C 5%nat ltac:(lia) ltac:(assumption))|].
  split; [exact (C 2%nat ltac:(lia) ltac:(assumption))|]. split; [exact (C 3%nat ltac:(lia) ltac:(assumption))|]. split; [exact (C 4%nat ltac:(lia) ltac:(assumption))|]. split; [exact (C 5%nat ltac:(lia) ltac:(assumption))|].
  split; [unfold sh_matrix; rewrite F6; cbn [obind]; unfold x; cbn [lB]; apply (drop_app _ _ _ L6)|]. intros Hm. rewrite (i32_id _ Hm) in A1. subst m.
  assert (NP : sh_NPARB x = Val (mpar * len es)). { unfold sh_NPARB, x. cbn [lL1 lN2]. rewrite (i32_id _ Hm), A2. apply int_op_val. rewrite Hn. split; [reflexivity|]. unfold int32 in *. nia. }
  split; [exact NP|]. intros Hv. unfold sh_NVS. rewrite NP. cbn [obind]. rewrite Hn. apply triangle_val; [nia|]. split; [exact B3|].
  assert (N0 := len_nonneg values). assert (Lx : len (rows_of [es; spins; a; b; c; d] (length es) ++ values) = 6 * n + len values) by (unfold len; rewrite app_length; lia). fold (len (rows_of [es; spins; a; b; c; d] (length es) ++ values)) in A3. rewrite Lx in A3.
  apply i32_small in A3; [|lia|nia]. lia.
Qed.
(** R-matrix limited: the particle pairs; nothing relates the announced number of spin groups to those that follow *)
Theorem C56_pairs : forall njsx ma mb za zb ia ib pa pb q pnt shf mt x, len ma < 2 ^ 32 -> make_pairs32 njsx ma mb za zb ia ib pa pb q pnt shf mt = Val x ->
  Forall (fun v => length v = length ma) [mb; za; zb; ia; ib; q; pa; pb] /\ Forall (fun v => length v = length ma) [pnt; shf; mt] /\ 0 < len ma
  /\ lL1 x = len ma /\ lL2 x = njsx /\ lN2 x = 2 * len ma /\ len (lB x) = 12 * len ma /\ inv_pairs_rml x
  /\ pp_MA x = Val ma /\ pp_MB x = Val mb /\ pp_ZA x = Val za /\ pp_ZB x = Val zb /\ pp_IA x = Val ia /\ pp_IB x = Val ib /\ pp_Q x = Val q /\ pp_PA x = Val pa /\ pp_PB x = Val pb
  /\ (Forall (fun z => 0 <= z < 2 ^ 31) pnt -> pp_PNT x = Val pnt) /\ (Forall (fun z => 0 <= z < 2 ^ 31) shf -> pp_SHF x = Val shf)
  /\ (Forall (fun z => 0 <= z < 2 ^ 31) mt -> pp_MT x = Val mt).
Proof.
  intros njsx ma mb za zb ia ib pa pb q pnt shf mt x H E.
  assert (K : exists y, make_pairs_rml ma mb za zb ia ib pa pb q pnt shf mt = Val y /\ x = mklist (lC1 y) (lC2 y) (lL1 y) njsx (lN2 y) (lB y)).
  { unfold make_pairs32 in E. unfold make_pairs_rml. destruct (negb _); [discriminate|]. set (r := mklist _ _ _ _ _ _) in E. set (r0 := mklist _ _ _ _ _ _).
    change (check_pairs_rml r) with (check_pairs_rml r0) in E. destruct (check_pairs_rml r0); [|discriminate]. exists r0. split; [reflexivity|]. assert (x = r) by congruence. subst x. reflexivity. }
  destruct K as (y & Ey & ->). destruct (C46_pairs _ _ _ _ _ _ _ _ _ _ _ _ y H Ey) as (F1 & F2 & P & E1 & E2 & E3 & I1 & R).
  split; [exact F1|]. split; [exact F2|]. split; [exact P|]. split; [exact E1|]. split; [reflexivity|]. split; [exact E2|]. split; [exact E3|]. split; [exact I1|]. exact R.
Qed.
(** general R-matrix limited: the resonances of a spin group; L1 is the number of channels and the padding is not seen *)
Lemma chunks_not_nil n : (0 < n)%nat -> forall fuel (l : list real), Forall (fun c => c <> []) (chunks fuel n l).
Proof.
  intros H. induction fuel as [|f IH]; intros l; [constructor|]. cbn [chunks]. destruct l as [|a l]; [constructor|]. constructor; [|apply IH]. destruct n; [lia|discriminate].
Qed.
Theorem C56_short_parameters : forall es ps x nch, Forall (fun p => len p = nch) ps -> len es * (nch + 6) < 2 ^ 31 -> nch < 2 ^ 31 -> make_short_parameters es ps = Val x ->
  length ps = length es /\ es <> [] /\ lL1 x = nch /\ lL2 x = len es /\ lN2 x * 6 = len (lB x) /\ inv_parameters x /\ pa_ER x = Val es /\ sp_GAM x = Val ps.
Proof.
  intros es ps x nch F H Hn E.
  assert (K : exists y, make_parameters es ps = Val y /\ x = mklist (lC1 y) (lC2 y) (u32 (Z.of_nat (length (nth 0 ps [])))) (lL2 y) (lN2 y) (lB y)).
  { unfold make_short_parameters in E. unfold make_parameters. destruct (negb _); [discriminate|]. destruct (u32 (Z.of_nat (length es)) =? 0); [discriminate|]. destruct (negb _); [discriminate|].
    set (r := mklist _ _ _ _ _ _) in E. set (r0 := mklist _ _ _ _ _ _). change (check_parameters r) with (check_parameters r0) in E. destruct (check_parameters r0); [|discriminate]. exists r0. split; [reflexivity|].
    assert (x = r) by congruence. subst x. reflexivity. }
  destruct K as (y & Ey & ->). destruct (C46_parameters es ps y nch F H Hn Ey) as (L & N & E1 & E2 & I1 & ER & pad & Bp & _ & GA).
  assert (N0 : Z.of_nat (length (nth 0 ps [])) = nch). { destruct ps as [|p ps]; [destruct es; [congruence|discriminate L]|]. inversion F; assumption. }
  rewrite N0, u32_id by (unfold len in *; lia).
  split; [exact L|]. split; [exact N|]. cbn [lL1 lL2 lN2 lB]. split; [reflexivity|]. split; [exact E1|]. split; [exact E2|]. split; [exact I1|]. split; [exact ER|].
  unfold sp_GAM. unfold pa_GAM in GA. change (pa_stride (mklist (lC1 y) (lC2 y) nch (lL2 y) (lN2 y) (lB y))) with (pa_stride y). cbn [lL1 lB]. destruct (pa_stride y) as [n| |] eqn:Es; [|discriminate..]. cbn [obind] in *.
  assert (Hs : (0 < n)%nat). { unfold pa_stride in Es. destruct (lL2 y =? 0); [discriminate|]. destruct (Z.ltb_spec (Z.quot (Z.quot (npl y) 6) (lL2 y) * 6) 1); [discriminate|]. assert (n = Z.to_nat (Z.quot (Z.quot (npl y) 6) (lL2 y) * 6)) by congruence. lia. }
  assert (T : map (@tl real) (chunks (length (lB y)) n (lB y)) = map (fun p => p ++ repeat rzero pad) ps) by congruence.
  assert (NN := chunks_not_nil n Hs (length (lB y)) (lB y)). revert T NN. generalize (chunks (length (lB y)) n (lB y)). clear -F.
  intros cs. revert ps F. induction cs as [|c cs IH]; intros ps F T NN; destruct ps as [|p ps]; try discriminate T; [reflexivity|]. cbn [map all_val].
  assert (T1 : tl c = p ++ repeat rzero pad) by (cbn [map] in T; congruence). assert (T2 : map (@tl real) cs = map (fun p => p ++ repeat rzero pad) ps) by (cbn [map] in T; congruence).
  inversion NN as [|? ? N1 N2]; subst. destruct c as [|a c]; [congruence|]. cbn [tl] in T1. subst c. rewrite drop_one. cbn [obind]. inversion F as [|? ? F1 F2]; subst. rewrite take_app by reflexivity. cbn [obind].
  rewrite (IH ps F2 T2 N2). reflexivity.
Qed.
(** compact R-matrix limited: every resonance takes lines for its parameters and as many for their uncertainties *)
Lemma every_other_pairs {A} : forall (l : list (A * A)), every_other (flat_map (fun p => [fst p; snd p]) l) = map fst l.
Proof. induction l as [|[a b] l IH]; [reflexivity|]. cbn [flat_map app fst snd map every_other]. now rewrite IH. Qed.
Lemma every_other_tail {A} : forall (l : list (A * A)), every_other (tl (flat_map (fun p => [fst p; snd p]) l)) = map snd l.
Proof.
  intros [|[a b] l]; [reflexivity|]. cbn [flat_map app fst snd map tl]. revert b. induction l as [|[c d] l IH]; intros b; [reflexivity|]. cbn [flat_map app fst snd map every_other]. f_equal. apply IH.
Qed.
Lemma flat_pairs {A B} (a b : A -> list B) l : flat_map (fun i => a i ++ b i) l = concat (flat_map (fun c => [fst c; snd c]) (map (fun i => (a i, b i)) l)).
Proof. induction l as [|i l IH]; [reflexivity|]. cbn [flat_map map app concat fst snd]. rewrite IH. symmetry. apply app_assoc. Qed.
Theorem C56_parameters12 : forall es ps ds qs x nch, Forall (fun p => len p = nch) ps -> Forall (fun q => len q = nch) qs -> 2 * len es * (nch + 6) < 2 ^ 31 -> nch < 2 ^ 31 ->
  make_parameters12 es ps ds qs = Val x ->
  length ps = length es /\ length ds = length es /\ length qs = length es /\ es <> [] /\ lL2 x = len es /\ lN2 x * 12 = len (lB x) /\ inv_parameters12 x
  /\ p12_ER x = Val es /\ p12_DER x = Val ds
  /\ exists pad, (pad < 6)%nat /\ (1 + nch + Z.of_nat pad) mod 6 = 0 /\ p12_GAM x = Val (map (fun p => p ++ repeat rzero pad) ps) /\ p12_DGAM x = Val (map (fun p => p ++ repeat rzero pad) qs).
Proof.
  intros es ps ds qs x nch F FQ H Hn E. unfold make_parameters12 in E.
  assert (Hes : es <> []). { intros ->. destruct ps; [|discriminate E]. destruct ds; [|discriminate E]. destruct qs; discriminate E. }
  assert (Pn : 0 < len es) by (destruct es; [congruence|unfold len; cbn [length]; lia]).
  destruct ((Z.of_nat (length ps) =? u32 (Z.of_nat (length es))) && (Z.of_nat (length ds) =? u32 (Z.of_nat (length es))) && (Z.of_nat (length qs) =? u32 (Z.of_nat (length es)))) eqn:L; [|discriminate]. cbn [negb] in E.
  destruct (Z.eqb_spec (u32 (Z.of_nat (length es))) 0); [discriminate|]. fold (len es) in *.
  destruct ps as [|p ps']; [exfalso; cbn [length] in L; assert (R := u32_range (len es)); lia|]. set (ps := p :: ps') in *. assert (Hp : len p = nch) by (inversion F; assumption). assert (N0 := len_nonneg p).
  assert (Hse : 12 * len es < 2 ^ 31) by nia. rewrite (u32_id (len es)) in * by lia. assert (Ls : length ps = length es) by (unfold len in L; lia). assert (Ld : length ds = length es) by (unfold len in L; lia). assert (Lq : length qs = length es) by (unfold len in L; lia). clear L.
  unfold ps in E. cbn [nth] in E. fold ps in E. change (Z.of_nat (length p)) with (len p) in E. rewrite Hp in E. rewrite (u32_id nch) in E by lia.
  destruct (padding_ok nch ltac:(lia)) as (Pb & Pm). set (pad := padding nch) in *. destruct (all_sized nch ps); [|discriminate]. cbn [negb] in E.
  destruct (check_parameters12 _) eqn:K; [|discriminate]. apply check_parameters12_spec in K.
  set (w := 1 + nch + pad) in *. assert (Hw : (u32 (u32 (1 + nch) + pad)) = w) by (rewrite (u32_id (1 + nch)) by lia; apply u32_id; lia).
  rewrite Hw in E, K. assert (Hm : 0 <= len es * w < 2 ^ 32) by nia. rewrite (u32_id (len es * w) Hm) in E, K.
  assert (Dw : exists v, w = 6 * v /\ 0 < v). { exists (w / 6). assert (D := Z_div_mod_eq_full w 6). lia. } destruct Dw as (v & Ev & Pv).
  assert (Q : Z.quot (len es * w) 6 = len es * v) by (rewrite Ev; replace (len es * (6 * v)) with (len es * v * 6) by lia; apply Z.quot_mul; lia). rewrite Q in E, K.
  set (pd := repeat rzero (Z.to_nat pad)) in *.
  set (prs := map (fun i => (nth i es rzero :: nth i ps [] ++ pd, nth i ds rzero :: nth i qs [] ++ pd)) (seq 0 (length es))).
  set (rows := flat_map (fun c => [fst c; snd c]) prs). set (rows2 := map (fun c => fst c ++ snd c) prs).
  assert (FP : Forall (fun c => length (fst c) = Z.to_nat w /\ length (snd c) = Z.to_nat w) prs).
  { apply Forall_map, Forall_forall. intros i Hi. apply in_seq in Hi. cbn [fst snd length]. rewrite !app_length. unfold pd. rewrite repeat_length. rewrite Forall_forall in F, FQ.
    assert (Hi' : (i < length ps)%nat) by lia. assert (A := F (nth i ps []) (nth_In ps [] Hi')). assert (Hi2 : (i < length qs)%nat) by lia. assert (B := FQ (nth i qs []) (nth_In qs [] Hi2)). unfold len in A, B. unfold w. lia. }
  assert (LP : length prs = length es) by (unfold prs; rewrite map_length; apply seq_length).
  assert (FR : Forall (fun r => length r = Z.to_nat w) rows). { unfold rows. clear -FP. induction FP as [|c prs [A B] _ IH]; [constructor|]. cbn [flat_map app]. constructor; [exact A|]. constructor; [exact B|exact IH]. }
  assert (FR2 : Forall (fun r => length r = (2 * Z.to_nat w)%nat) rows2). { unfold rows2. apply Forall_map. revert FP. apply Forall_impl. intros c [A B]. rewrite app_length. lia. }
  assert (RC : parameter_rows12 (Z.to_nat pad) es ps ds qs = concat rows).
  { apply (flat_pairs (fun i => nth i es rzero :: nth i ps [] ++ pd) (fun i => nth i ds rzero :: nth i qs [] ++ pd)). }
  assert (RC2 : concat rows = concat rows2). { unfold rows, rows2. clear. induction prs as [|c prs IH]; [reflexivity|]. cbn [flat_map map app concat]. rewrite IH. apply app_assoc. }
  assert (LL2 : length (concat rows2) = (length es * (2 * Z.to_nat w))%nat) by (rewrite (concat_len _ rows2 FR2); unfold rows2; rewrite map_length, LP; reflexivity).
  assert (LL : len (concat rows) = 2 * len es * w) by (unfold len; rewrite RC2, LL2; unfold len in *; lia).
  assert (E' : mklist rzero rzero 0 (len es) (len es * v) (concat rows) = x) by (rewrite <- RC; congruence). rewrite RC in K. clear E. subst x. set (x := mklist _ _ _ _ _ _) in *.
  split; [exact Ls|]. split; [exact Ld|]. split; [exact Lq|]. split; [exact Hes|]. split; [reflexivity|]. split; [unfold x; cbn [lN2 lB]; lia|]. split; [exact K|].
  assert (ST : lines12 x = Val v).
  { unfold lines12, npl, x. cbn [lL2 lB]. fold (len (concat rows)). rewrite LL. destruct (Z.eqb_spec (len es) 0); [lia|].
    replace (2 * len es * w) with (len es * v * 12) by lia. rewrite Z.quot_mul by lia. rewrite (Z.mul_comm (len es) v), Z.quot_mul by lia. destruct (Z.ltb_spec v 1); [lia|reflexivity]. }
  assert (C := fun k Hk => C46_columns (2 * Z.to_nat w) k (length es) x Hk ltac:(unfold len in Pn; lia) ltac:(unfold x; cbn [lB]; rewrite RC2; exact LL2)).
  assert (NTH : forall k i, (k < 2 * Z.to_nat w)%nat -> (i < length es)%nat -> nth (i * (2 * Z.to_nat w) + k) (lB x) rzero = nth k (nth i rows2 []) rzero).
  { intros k i Hk Hi. unfold x. cbn [lB]. rewrite RC2. apply nth_rows; [lia|exact FR2|unfold rows2; rewrite map_length; lia|exact Hk]. }
  assert (R2 : forall i, (i < length es)%nat -> nth i rows2 [] = (nth i es rzero :: nth i ps [] ++ pd) ++ nth i ds rzero :: nth i qs [] ++ pd).
  { intros i Hi. unfold rows2, prs. rewrite map_map. cbn [fst snd]. apply nth_error_nth. rewrite nth_error_map. rewrite (nth_error_nth' _ 0%nat) by (rewrite seq_length; exact Hi). rewrite seq_nth by exact Hi. reflexivity. }
  assert (W12 : Z.to_nat (v * 12) = (2 * Z.to_nat w)%nat) by lia. assert (W6 : v * 6 = Z.of_nat (Z.to_nat w)) by lia. assert (Wn : Z.to_nat (v * 6) = Z.to_nat w) by lia.
  assert (Pw : (0 < Z.to_nat w)%nat) by lia.
  assert (CH : chunks (length (lB x)) (Z.to_nat w) (lB x) = rows) by (unfold x; cbn [lB]; apply chunks_rows; [exact Pw|exact FR|reflexivity]).
  split.
  { assert (C0 := C 0%nat ltac:(lia)). unfold p12_ER. rewrite ST. cbn [obind]. rewrite W12. unfold col_of in C0. change (Z.of_nat 0) with 0 in C0. assert (D0 : drop_exactly 0 (lB x) = Val (lB x)) by (apply drop_val; split; [assert (T := len_nonneg (lB x)); lia|reflexivity]).
    rewrite D0 in C0. cbn [obind] in C0. rewrite C0. f_equal. rewrite <- (map_nth_seq es (length es) eq_refl) at 2. apply map_ext_in. intros i Hi. apply in_seq in Hi. rewrite NTH by lia. rewrite R2 by lia. reflexivity. }
  split.
  { assert (C0 := C (Z.to_nat w) ltac:(lia)). unfold p12_DER. rewrite ST. cbn [obind]. rewrite W12, W6. unfold col_of in C0. rewrite C0. f_equal. rewrite <- Ld. rewrite <- (map_nth_seq ds (length ds) eq_refl) at 2. apply map_ext_in. intros i Hi. apply in_seq in Hi. rewrite NTH by lia. rewrite R2 by lia.
    assert (Lr : length (nth i es rzero :: nth i ps [] ++ pd) = Z.to_nat w). { rewrite Forall_forall in FP. apply (FP (nth i es rzero :: nth i ps [] ++ pd, nth i ds rzero :: nth i qs [] ++ pd)). unfold prs. apply in_map_iff. exists i. split; [reflexivity|]. apply in_seq. lia. }
    rewrite app_nth2 by lia. rewrite Lr, Nat.sub_diag. reflexivity. }
  assert (MAPS : forall (A : Type) (l : list A) (d : A) (f : A -> list real), length l = length es -> map (fun i => f (nth i l d)) (seq 0 (length es)) = map f l).
  { intros A l d f Ll. rewrite <- Ll. clear. apply list_ext. intros j. rewrite !nth_error_map. destruct (nth_error l j) as [q|] eqn:Ej.
    - assert (Hj : (j < length l)%nat) by (apply nth_error_Some; congruence). rewrite (nth_error_nth' _ 0%nat) by (rewrite seq_length; exact Hj). rewrite seq_nth by exact Hj. cbn [option_map plus]. rewrite (nth_error_nth l j d Ej). reflexivity.
    - apply nth_error_None in Ej. rewrite (proj2 (nth_error_None _ _)) by (rewrite seq_length; exact Ej). reflexivity. }
  exists (Z.to_nat pad). split; [lia|]. split; [rewrite Z2Nat.id by lia; exact Pm|]. split.
  - unfold p12_GAM. rewrite ST. cbn [obind]. unfold tails12. rewrite Wn, CH. unfold rows. rewrite every_other_pairs. unfold prs. rewrite !map_map. cbn [fst tl]. f_equal. apply (MAPS _ ps [] (fun p => p ++ pd) Ls).
  - unfold p12_DGAM. rewrite ST. cbn [obind]. rewrite W6.
    assert (RT : exists r0, rows = r0 :: tl rows /\ length r0 = Z.to_nat w). { destruct rows as [|r0 rows']; [exfalso; unfold len in LL, Pn; cbn [concat length] in LL; nia|]. inversion FR; subst. exists r0. split; [reflexivity|assumption]. }
    destruct RT as (r0 & Er & Lr0). assert (D : drop_exactly (Z.of_nat (Z.to_nat w)) (lB x) = Val (concat (tl rows))) by (unfold x; cbn [lB]; rewrite Er at 1; cbn [concat]; apply drop_app; lia).
    rewrite D. cbn [obind]. unfold tails12. rewrite Wn. rewrite (chunks_rows (Z.to_nat w) Pw (tl rows)); [|destruct rows; [constructor|inversion FR; assumption]|reflexivity].
    unfold rows. rewrite every_other_tail. unfold prs. rewrite !map_map. cbn [snd tl]. f_equal. apply (MAPS _ qs [] (fun p => p ++ pd) Lq).
Qed.
(** the numbers of uncertainties are not checked: with thirteen for one channel the object is accepted and the
    uncertainty of the energy is not the one given *)
Theorem C56_parameters12_size_refuted : exists x, make_parameters12 [r_one] [[r_one]] [r_tiny] [repeat r_pi 13] = Val x /\ p12_DER x = Val [r_pi] /\ ~ same_real r_pi r_tiny.
Proof. eexists. split; [reflexivity|]. split; [reflexivity|]. intros K. rewrite <- req_spec in K. discriminate K. Qed.
(** the upper triangle of a matrix: its order is found from the number of values *)
Lemma triangle_order_of n p : 0 <= n -> 2 * p = n * (n + 1) -> p < 2 ^ 29 -> triangle_order p = n.
Proof.
  intros H E B. unfold triangle_order. rewrite (u32_id p) by nia. rewrite u32_id by nia.
  assert (S1 : Z.sqrt (1 + 8 * p) = 2 * n + 1). { apply Z.sqrt_unique. nia. } rewrite S1. replace (2 * n + 1 - 1) with (n * 2) by lia. apply Z.quot_mul. lia.
Qed.
Theorem C56_triangle : forall l1 values, len values < 2 ^ 29 ->
  (forall n, 1 <= n -> 2 * len values = n * (n + 1) -> make_triangle l1 values = Val (mklist rzero rzero l1 0 n values) /\ inv_triangle (mklist rzero rzero l1 0 n values))
  /\ ((forall n, 1 <= n -> 2 * len values <> n * (n + 1)) -> make_triangle l1 values = Throw EStd).
Proof.
  intros l1 values H. split.
  - intros n P E. unfold make_triangle. fold (len values). rewrite (triangle_order_of n (len values)) by lia.
    assert (I1 : inv_triangle (mklist rzero rzero l1 0 n values)).
    { exists n, (len values). cbn [lN2 lB]. assert (Hn : n < 2 ^ 16) by nia. split; [exact P|]. assert (N := len_nonneg values).
      split; [apply as_int_eq, i32_id; unfold int32; lia|]. split; [apply as_int_eq, i32_id; unfold int32; lia|]. split; [unfold int32; nia|exact E]. }
    split; [|exact I1]. rewrite (proj2 (check_triangle_spec _) I1). reflexivity.
  - intros NT. unfold make_triangle. fold (len values). set (o := triangle_order (len values)). set (r := mklist _ _ _ _ _ _). assert (N := len_nonneg values).
    assert (Bo : 0 <= o < 2 ^ 15). { unfold o, triangle_order. rewrite (u32_id (len values)) by lia. rewrite u32_id by lia. assert (S0 : 1 <= Z.sqrt (1 + 8 * len values)) by (change 1 with (Z.sqrt 1) at 1; apply Z.sqrt_le_mono; lia).
      assert (S1 : Z.sqrt (1 + 8 * len values) < 2 ^ 16) by (apply Z.sqrt_lt_square; lia). rewrite Z.quot_div_nonneg by lia. split; [apply Z.div_pos; lia|]. apply Z.div_lt_upper_bound; lia. }
    destruct (check_triangle r) as [[]|e|] eqn:E.
    + exfalso. apply check_triangle_spec in E. destruct E as (n & p & P & A & B & _ & E). apply as_int_get in B. unfold r in B. cbn [lB] in B. rewrite i32_id in B by (unfold int32; lia). subst p. apply (NT n P). exact E.
    + cbn [obind]. f_equal. unfold check_triangle, ensure in E. destruct (negb _) in E; [|cbn [obind] in E; congruence]. cbn [obind] in E. destruct (negb _) in E; [|cbn [obind] in E; congruence]. cbn [obind] in E.
      unfold triangle, int_op in E. repeat match type of E with context [if ?b then _ else _] => destruct b; cbn [obind] in E end; congruence.
    + exfalso. unfold check_triangle in E. unfold r in E. cbn [lN2 lB npl] in E. rewrite (i32_id o) in E by (unfold int32; lia). unfold ensure in E. destruct (negb _) in E; [|discriminate E]. cbn [obind] in E. destruct (Z.ltb_spec o 1); [discriminate E|]. cbn [negb obind] in E.
      assert (T : triangle o = Val (Z.quot (o * (o + 1)) 2)) by (apply triangle_val; [lia|]; split; [unfold int32; nia|apply quot_product; lia]). rewrite T in E. cbn [obind] in E. destruct (_ =? _) in E; discriminate E.
Qed.
