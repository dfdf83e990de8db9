(** PropSec7.v -- C50: File 7, thermal scattering data. *)
From Coq Require Import ZifyBool ZifyNat QArith.
From Verif Require Import Base Disco DiscoProofs Records RecordProofs RecordRT RecordSound Layout Normal LineFacts RealRound RealProofs Spec Sections SecSpec Codec SectionProofs SecKit CodecKit
  PropRecords PropRecords3 Sec9 Sec9Spec Sec9Proofs Sec4Spec Sec4Proofs Sec6 Sec6Spec Sec6Proofs Sec6Safe Sec33 Sec33Spec Sec33Proofs Sec33Safe ExKit PropSec6 PropSec33
  Sec8 Sec8Spec Sec8Proofs PropSec8 Sec7 Sec7Spec Sec7Proofs.
Open Scope Z_scope.

Theorem C50_mf7_2 : section_codec sec_7_2 rep_elastic inv_elastic.
Proof. exact rt_7_2. Qed.
Theorem C50_mf7_4 : section_rt sec_7_4 rep_thermal inv_thermal.
Proof. exact rt_7_4. Qed.
Theorem C50_mf7_451 : section_rt sec_7_451 (Forall endf_list) (some_of inv_element).
Proof. exact rt_7_451. Qed.
Theorem C50_mf7_4_safe : forall h mat s, int32 (round_int (c1 (sbase h))) -> tame74 (buf s) -> never_other (rd_section sec_7_4 h mat s).
Proof. exact safe_7_4. Qed.
Theorem C50_mf7_451_safe : forall h mat s, int32 (round_int (c1 (sbase h))) -> tame7451 (smt h) (buf s) -> never_other (rd_section sec_7_451 h mat s).
Proof. exact safe_7_451. Qed.

(** ** instances *)
Definition xseries := mkseries (xtab1 2 0) [xlist 3 0 0 [r_one; r_pi; r_tiny]; xlist 4 0 0 [r_pi; r_pi; r_tiny]].
Lemma ex_series : rep_series xseries /\ inv_series xseries.
Proof.
  split; [split; cbn [xseries se_first se_more]; [xt|constructor; [xt|constructor; [xt|constructor]]]|].
  split; cbn [xseries se_first se_more]; [xt|unfold len; cbn [xtab1 xtab2 tbase tL1 length]; nai].
Qed.
Lemma ex_coherent : inv_coherent xseries.
Proof. split; [apply ex_series|]. cbn [xseries se_first se_more]. constructor; [|constructor; [|constructor]]; unfold len; cbn [xtab1 tx xlist lB length]; nai. Qed.
Lemma ex_function : inv_function xseries.
Proof. split; [apply ex_series|]. cbn [xseries se_first se_more]. constructor; [|constructor; [|constructor]]; cbn [xlist lC2 xtab1 xtab2 tbase tC2]; split; apply Qle_refl. Qed.
Example C50_example_2 : meets sec_7_2 rep_elastic inv_elastic (mksect 131 r_pi 2 (Mixed xseries (xtab1 0 0))).
Proof.
  xids; [split; [cbn; reflexivity|exact Logic.I]|]. cbn [rep_elastic inv_elastic]. split; (split; [first [apply ex_series|apply ex_coherent]|xt]).
Qed.
(** two non-principal scatterers, the first without effective temperature *)
Definition xconst (b1 : real) := xlist 1 0 2 [b1; r_one; r_pi; r_one; rzero; r_one; r_one; r_one; r_pi; rzero; rzero; r_one; rzero; r_one; r_pi; rzero; rzero; r_one].
Definition xthermal := mkthermal 1 0 (xconst r_pi) (Tabulated (mkiseq (xtab2 0 0) [xseries; xseries; xseries])) (xtab1 0 0) [None; Some (xtab1 0 0)].
Lemma endf_zero : endf_real rzero.
Proof. left. split; reflexivity. Qed.
Lemma rpi_not_zero : ~ same_real r_pi rzero.
Proof. rewrite <- req_spec. intros E. discriminate E. Qed.
Lemma rone_not_zero : ~ same_real r_one rzero.
Proof. rewrite <- req_spec. intros E. discriminate E. Qed.
Lemma ex_thermal : rep_thermal xthermal /\ inv_thermal xthermal.
Proof.
  split.
  - unfold rep_thermal. cbn [xthermal th_constants th_law th_principal th_secondary]. split.
    + unfold xconst, endf_list; cbn [xlist lC1 lC2 lL1 lL2 lN2 lB]. repeat (split; [xt|]). repeat (constructor; [first [apply endf_zero|apply endf_one|apply endf_pi]|]). constructor.
    + split; [|split; [xt|constructor; [discriminate|constructor; [intros t E; injection E as <-; xt|constructor]]]].
      cbn [rep_inelastic]. split; [cbn [istab]; xt|]. split; [cbn; lia|]. cbn [isrec]. constructor; [|constructor; [|constructor; [|constructor]]]; apply ex_series.
  - unfold inv_thermal. cbn [xthermal th_lat th_lasym th_constants th_law th_principal th_secondary]. split; [auto|]. split; [split; lia|].
    split; [unfold inv_constants, xconst, len; cbn [xlist lN2 lL1 lB length]; split; [lia|split; [nai|right; nai]]|].
    split; [split; [intros K; exfalso; exact (rpi_not_zero K)|discriminate]|]. split.
    + cbn [inv_inelastic]. unfold inv_seq. cbn [istab isrec]. split; [xt|]. split; [cbn; lia|]. split; [reflexivity|]. split; [|exact Logic.I].
      constructor; [|constructor; [|constructor; [|constructor]]]; apply ex_function.
    + split; [xt|]. split; [constructor; [discriminate|constructor; [intros t E; injection E as <-; xt|constructor]]|]. split; [unfold len; cbn; lia|]. split.
      * intros n. unfold kinds. cbn [length xconst xlist lB]. lia.
      * intros [|[|i]] o E; cbn in E; [injection E as <-|injection E as <-|destruct i; discriminate E].
        -- split; [intros _; exact rone_not_zero|reflexivity].
        -- split; [discriminate|]. intros K. exfalso. apply K. split; apply Qle_refl.
Qed.
Example C50_example_4 : meets sec_7_4 rep_thermal inv_thermal (mksect 131 r_pi 4 xthermal).
Proof. xids; [split; [cbn; reflexivity|exact Logic.I]|]. apply ex_thermal. Qed.
Definition xelement := xlist 1 0 2 [r_one; r_one; r_pi; r_one; r_pi; r_one; r_one; r_one; r_pi; r_one; r_pi; r_one].
Example C50_example_451 : meets sec_7_451 (Forall endf_list) (some_of inv_element) (mksect 131 r_pi 451 [xelement; xelement]).
Proof.
  xids; [split; [cbn; reflexivity|exact Logic.I]|]. split; [constructor; [unfold xelement; xt|constructor; [unfold xelement; xt|constructor]]|].
  split; [|unfold len; cbn; lia]. constructor; [|constructor; [|constructor]]; unfold inv_element, xelement; xv 2 12.
Qed.

(** ** undefined behaviour is reachable *)
Definition head7 (mt : Z) : sdiv := mksdiv (mkcont r_one r_one 1 0 0 0) 27 7 mt.
Lemma head7_ok {A} mt (f : Z * real -> M A) s : bind (sec_head false false (head7 mt) 27 7) f s = f (1, r_one) s.
Proof.
  unfold bind, sec_head, head_za32, lift, require, bind. cbv zeta. cbn [head7 sbase c1 c2 smt smat smf]. rewrite round_one.
  change (rlt r_one rzero) with false. reflexivity.
Qed.
Lemma reads7 mt l ln rest : 0 < mt < 1000 -> endf_list l -> rd_list 27 7 mt (mkst (pr_list l 27 7 mt ++ rest) ln) = Ok l (mkst rest (ln + nc_list l)).
Proof. intros H R. refine (co_reads _ _ _ _ _ cod_list 27 7 mt l _ R Logic.I rest ln). split; [|split]; unfold in_cols; cbn; lia. Qed.
(** -1 non-principal scatterers and no constants at all pass the checks *)
Theorem C50_undefined_reachable_4 : exists h s, int32 (round_int (c1 (sbase h))) /\ rd_section sec_7_4 h 27 s = UB.
Proof.
  exists (head7 4), (mkst (pr_list (xlist 0 0 (-1) []) 27 7 4 ++ []) 0). split; [cbn [head7 sbase c1]; rewrite round_one; split; lia|].
  unfold rd_section. rewrite (head7_ok 4). apply bind_ub. change (k_rmat sec_7_4 (head7 4) 27) with 27. change (k_rmt sec_7_4 (head7 4)) with 4.
  cbn [sec_7_4 k_read k_mf]. unfold rd_thermal. erewrite bind_step.
  2:{ unfold rd_checked. rewrite (bind_step _ _ _ _ _ (reads7 4 (xlist 0 0 (-1) []) 0 _ ltac:(lia) ltac:(xt))). reflexivity. }
  apply bind_ub. reflexivity.
Qed.
Theorem C50_undefined_reachable_451 : exists h s, int32 (round_int (c1 (sbase h))) /\ rd_section sec_7_451 h 27 s = UB.
Proof.
  exists (head7 451), (mkst (pr_list huge 27 7 451 ++ []) 0). split; [cbn [head7 sbase c1]; rewrite round_one; split; lia|].
  unfold rd_section. rewrite (head7_ok 451). apply bind_ub. change (k_rmat sec_7_451 (head7 451) 27) with 27. change (k_rmt sec_7_451 (head7 451)) with 451.
  cbn [sec_7_451 k_read k_mf]. unfold rd_elements. apply bind_ub. unfold rd_all, rd_sequence. change (i32 (l1 (sbase (head7 451)))) with 1. erewrite bind_step; [|reflexivity]. change (Z.to_nat 1) with 1%nat. cbn [rd_n].
  apply bind_ub. unfold rd_checked. rewrite (bind_step _ _ _ _ _ (reads7 451 huge 0 [] ltac:(lia) huge_ok)). reflexivity.
Qed.

(** ** a series of temperatures: what the constructor stores is what the accessors return *)
Lemma make_tab1_val C1 C2 L1 L2 bnd int x y t : make_tab1 C1 C2 L1 L2 bnd int x y = Val t -> t = mktab1 (mktab2 C1 C2 L1 L2 bnd int) x y /\ bnd <> [].
Proof.
  unfold make_tab1, make_tab2. destruct bnd as [|b bnd]; [discriminate|]. destruct (negb _); [discriminate|]. destruct (negb _); [discriminate|]. cbn [obind].
  destruct (negb _); [discriminate|]. destruct (negb _); [discriminate|]. destruct (negb _); [discriminate|]. intros E. injection E as <-. split; [reflexivity|discriminate].
Qed.
Lemma make_tab1_inv C1 C2 L1 L2 bnd int x y t : make_tab1 C1 C2 L1 L2 bnd int x y = Val t -> 0 <= last bnd 0 < 2 ^ 32 -> len x < 2 ^ 32 -> inv_tab1 t.
Proof.
  intros E B L. destruct (make_tab1_val _ _ _ _ _ _ _ _ _ E) as [-> N]. destruct (C35_tab1_constructor_exact C1 C2 L1 L2 bnd int x y N B L) as [[H _] _].
  destruct (H E) as (H1 & H2 & H3 & H4 & H5). unfold inv_tab1, inv_tab2. cbn [tbase tbnd tint tx ty]. repeat split; auto; lia.
Qed.
Lemma more_temps_val c2 : forall ts li ss ls, more_temps c2 ts li ss = Val ls -> length ts = length ss ->
  (length ts <= length li)%nat /\ map lC1 ls = ts /\ map lB ls = ss /\ map lL1 ls = firstn (length ts) li /\ Forall (fun l => lC2 l = c2) ls /\ length ls = length ts.
Proof.
  induction ts as [|t ts IH]; intros li [|s ss] ls E L; try discriminate L; cbn [more_temps] in E.
  - injection E as <-. cbn. repeat split; auto; lia.
  - destruct li as [|i li]; [discriminate|]. apply obind_val in E. destruct E as (r & E & K). injection K as <-. injection L as L.
    destruct (IH li ss r E L) as (A & B & C & D & F & G). cbn [map lC1 lB lL1 length firstn]. rewrite B, C, D. repeat split; [lia|constructor; [reflexivity|exact F]|lia].
Qed.
Lemma more_temps_ok c2 : forall ts li ss, length ts = length ss -> (length ts <= length li)%nat -> exists ls, more_temps c2 ts li ss = Val ls.
Proof.
  induction ts as [|t ts IH]; intros [|i li] [|s ss] L1 L2; try discriminate L1; cbn [length more_temps] in *; try (eexists; reflexivity); [lia|].
  destruct (IH li ss ltac:(lia) ltac:(lia)) as [r ->]. eexists. reflexivity.
Qed.
(** the conditions of a table made from vectors, of moderate size *)
Definition curve_ok (bnd int : list Z) (x y : list real) : Prop :=
  bnd <> [] /\ 0 <= last bnd 0 < 2 ^ 31 /\ len x < 2 ^ 31
  /\ length x = length y /\ ascending real_le x /\ length bnd = length int /\ ascending Z.le bnd /\ last bnd 0 = len x.
Lemma make_tab1_ok C1 C2 L1 L2 bnd int x y : curve_ok bnd int x y -> make_tab1 C1 C2 L1 L2 bnd int x y = Val (mktab1 (mktab2 C1 C2 L1 L2 bnd int) x y).
Proof. intros (A & B & C & D). apply C35_tab1_constructor_exact; [exact A|lia|unfold len in C; lia|exact D]. Qed.
Section Made.
  Variables (c2 : real) (bnd int : list Z) (ts : list real) (li : list Z) (es : list real) (ss : list (list real)).
  Definition series_of (x : series) : Prop :=
    length ss = length ts /\ (length ts <= length li + 1)%nat
    /\ se_T x = ts /\ se_S x = ss /\ se_X x = es /\ se_LI x = firstn (length ts - 1) li
    /\ tbnd (tbase (se_first x)) = bnd /\ tint (tbase (se_first x)) = int
    /\ tC2 (tbase (se_first x)) = c2 /\ Forall (fun l => lC2 l = c2) (se_more x)
    /\ (len ts < 2 ^ 31 -> se_NT x = len ts /\ se_LT x = len ts - 1)
    /\ (len ts <= 2 ^ 31 -> 0 <= last bnd 0 < 2 ^ 32 -> len es < 2 ^ 32 -> inv_series x).
End Made.
Lemma series_made c2 bnd int t0 ts li es s0 ss t ls : len (t0 :: ts) < 2 ^ 32 -> make_tab1 t0 c2 (Z.of_nat (length ts)) 0 bnd int es s0 = Val t ->
  u32 (u32 (Z.of_nat (length ts)) + 1) = Z.of_nat (length (s0 :: ss)) -> more_temps c2 (firstn (Z.to_nat (u32 (Z.of_nat (length ts)))) ts) li ss = Val ls ->
  series_of c2 bnd int (t0 :: ts) li es (s0 :: ss) (mkseries t ls).
Proof.
  intros H E1 E2 E3. assert (B : Z.of_nat (length ts) + 1 < 2 ^ 32) by (unfold len in H; cbn [length] in H; lia). rewrite (u32_id (Z.of_nat (length ts))) in E2, E3 by lia. rewrite u32_id in E2 by lia. rewrite Nat2Z.id, firstn_all in E3. cbn [length] in E2.
  destruct (more_temps_val _ _ _ _ _ E3 ltac:(lia)) as (A & C & D & F & G & L). assert (It := make_tab1_inv _ _ _ _ _ _ _ _ _ E1). destruct (make_tab1_val _ _ _ _ _ _ _ _ _ E1) as [-> N].
  unfold series_of, se_T, se_S, se_X, se_LI, se_NT, se_LT. cbn [se_first se_more tbase tC1 tC2 tL1 tx ty tbnd tint length].
  rewrite C, D, F, L. replace (Datatypes.S (length ts) - 1)%nat with (length ts) by lia. unfold len. cbn [length]. split; [lia|]. split; [lia|]. split; [reflexivity|]. split; [reflexivity|]. split; [reflexivity|]. split; [reflexivity|].
  split; [reflexivity|]. split; [reflexivity|]. split; [reflexivity|]. split; [exact G|]. split.
  - intros K. rewrite !i32_id by (unfold int32; lia). lia.
  - intros K1 K2 K3. split; [exact (It K2 K3)|]. cbn [se_first se_more tbase tL1]. unfold len. rewrite L. apply as_int_self. unfold int32. lia.
Qed.
(** coherent elastic scattering *)
Theorem C50_coherent : forall bnd int ts li es ss x, len ts < 2 ^ 32 -> make_coherent bnd int ts li es ss = Val x ->
  series_of rzero bnd int ts li es ss x /\ Forall (fun s => as_int (len es) (len s)) (tl ss)
  /\ (len ts <= 2 ^ 31 -> 0 <= last bnd 0 < 2 ^ 32 -> len es < 2 ^ 32 -> inv_coherent x).
Proof.
  intros bnd int [|t0 ts] li es [|s0 ss] x H E; try discriminate E. cbn [make_coherent] in E. apply obind_val in E. destruct E as (t & E1 & E).
  destruct (Z.eqb_spec (u32 (u32 (Z.of_nat (length ts)) + 1)) (Z.of_nat (length (s0 :: ss)))) as [E2|]; [|discriminate]. cbn [negb] in E.
  apply obind_val in E. destruct E as (ls & E3 & E). cbv zeta in E. destruct (coherent_ok _) eqn:K; [|discriminate]. injection E as <-. apply coherent_ok_spec in K.
  assert (S1 := series_made _ _ _ _ _ _ _ _ _ _ _ H E1 E2 E3). split; [exact S1|].
  destruct S1 as (_ & _ & _ & S2 & S3 & _ & _ & _ & _ & _ & _ & S4). split.
  - unfold se_S in S2. cbn [se_first se_more] in S2. injection S2 as _ <-. unfold se_X in S3. cbn [tl]. apply Forall_map. rewrite S3 in K. exact K.
  - intros K1 K2 K3. split; [auto|exact K].
Qed.
Theorem C50_coherent_accepts : forall bnd int t0 ts li es s0 ss, len ts < 2 ^ 31 -> length ss = length ts -> (length ts <= length li)%nat ->
  curve_ok bnd int es s0 -> Forall (fun s => length s = length es) ss -> exists x, make_coherent bnd int (t0 :: ts) li es (s0 :: ss) = Val x.
Proof.
  intros bnd int t0 ts li es s0 ss H L1 L2 Tb F. cbn [make_coherent]. rewrite make_tab1_ok by exact Tb. cbn [obind]. unfold len in H. rewrite (u32_id (Z.of_nat (length ts))) by lia. rewrite u32_id by lia. cbn [length].
  replace (Z.of_nat (length ts) + 1 =? Z.of_nat (Datatypes.S (length ss))) with true by lia. cbn [negb]. rewrite Nat2Z.id, firstn_all. 
  destruct (more_temps_ok rzero ts li ss (eq_sym L1) L2) as [ls E]. rewrite E. cbn [obind]. destruct (more_temps_val _ _ _ _ _ E (eq_sym L1)) as (_ & _ & D & _).
  destruct (coherent_ok _) eqn:K; [eexists; reflexivity|]. exfalso. rewrite <- Bool.not_true_iff_false in K. apply K. apply coherent_ok_spec. cbn [se_first se_more tx].
  rewrite <- D in F. rewrite Forall_map in F. eapply Forall_impl; [|exact F]. intros l Hl. cbv beta in Hl. unfold len. rewrite Hl. apply as_int_self. destruct Tb as (_ & _ & Lx & _). unfold len, int32 in *. lia.
Qed.
Example C50_example_coherent : exists x, make_coherent [2; 3] [2; 5] [r_tiny; r_one; r_pi] [2; 4] [r_tiny; r_one; r_pi] [[r_one; r_pi; r_pi]; [r_one; r_pi; r_tiny]; [r_one; r_one; r_one]] = Val x.
Proof. eexists. vm_compute. reflexivity. Qed.
(** with fewer temperature interpolations than further temperatures the constructor is undefined; more are
    dropped without notice *)
Theorem C50_coherent_short_refuted : forall bnd int t0 t1 es s0 s1, curve_ok bnd int es s0 -> make_coherent bnd int [t0; t1] [] es [s0; s1] = Undef.
Proof. intros bnd int t0 t1 es s0 s1 Tb. cbn [make_coherent]. rewrite make_tab1_ok by exact Tb. reflexivity. Qed.
Theorem C50_coherent_long_refuted : forall bnd int ts li more es ss x, make_coherent bnd int ts li es ss = Val x ->
  (length ts <= length li + 1)%nat -> len ts < 2 ^ 32 -> make_coherent bnd int ts (li ++ more) es ss = Val x.
Proof.
  intros bnd int [|t0 ts] li more es [|s0 ss] x E L H; try discriminate E. cbn [make_coherent] in *. destruct (make_tab1 _ _ _ _ _ _ _ _) as [t| |]; [|discriminate E..]. cbn [obind] in *.
  destruct (negb _) eqn:N; [discriminate|]. assert (B : Z.of_nat (length ts) + 1 < 2 ^ 32) by (unfold len in H; cbn [length] in H; lia). rewrite (u32_id (Z.of_nat (length ts))) in N, E by lia. rewrite u32_id in N by lia. rewrite (u32_id (Z.of_nat (length ts))) by lia. rewrite Nat2Z.id, firstn_all in E. rewrite Nat2Z.id, firstn_all. cbn [length] in *.
  assert (G : more_temps rzero ts (li ++ more) ss = more_temps rzero ts li ss).
  { assert (Ls : length ts = length ss) by lia. clear - Ls L. revert li ss Ls L. induction ts as [|t ts IH]; intros li [|s ss] Ls L; try discriminate Ls; [reflexivity|].
    destruct li as [|i li]; [cbn in L; lia|]. cbn [app more_temps]. rewrite IH; [reflexivity|injection Ls; auto|cbn in L; lia]. }
  rewrite G. exact E.
Qed.
(** without any temperature too *)
Theorem C50_coherent_none_refuted : forall bnd int li es ss, make_coherent bnd int [] li es ss = Undef.
Proof. reflexivity. Qed.
(** one temperature *)
Theorem C50_coherent_single : forall t0 bnd int es s x, make_coherent1 t0 bnd int es s = Val x ->
  se_T x = [t0] /\ se_S x = [s] /\ se_X x = es /\ se_LI x = [] /\ se_NT x = 1 /\ se_LT x = 0
  /\ (0 <= last bnd 0 < 2 ^ 32 -> len es < 2 ^ 32 -> inv_coherent x).
Proof.
  intros t0 bnd int es s x E. unfold make_coherent1 in E. apply obind_val in E. destruct E as (t & E1 & E). cbv zeta in E. cbn [coherent_ok se_more forallb] in E. injection E as <-.
  assert (It := make_tab1_inv _ _ _ _ _ _ _ _ _ E1). destruct (make_tab1_val _ _ _ _ _ _ _ _ _ E1) as [-> N]. repeat (split; [reflexivity|]).
  intros A B. split; [|constructor]. split; [exact (It A B)|]. unfold len. cbn [se_first se_more tbase tL1 length]. nai.
Qed.
(** incoherent elastic scattering *)
Theorem C50_incoherent : forall sb bnd int ts ws t, make_incoherent sb bnd int ts ws = Val t ->
  ie_SB t = sb /\ ie_T t = ts /\ ie_W t = ws /\ (0 <= last bnd 0 < 2 ^ 32 -> len ts < 2 ^ 32 -> inv_tab1 t).
Proof.
  intros sb bnd int ts ws t E. unfold make_incoherent in E. assert (It := make_tab1_inv _ _ _ _ _ _ _ _ _ E). destruct (make_tab1_val _ _ _ _ _ _ _ _ _ E) as [-> N]. auto.
Qed.
(** S(alpha, beta) *)
Lemma betas_made x : Forall (fun l => lC2 l = tC2 (tbase (se_first x))) (se_more x) -> betas_ok x = true.
Proof.
  intros F. unfold betas_ok. destruct (_ =? 1); [reflexivity|]. apply forallb_forall. rewrite Forall_forall in F. intros l Hl. rewrite (F l Hl). apply req_spec. split; apply Qle_refl.
Qed.
Theorem C50_function : forall beta bnd int ts li als ss x, len ts < 2 ^ 32 -> make_function beta bnd int ts li als ss = Val x ->
  series_of beta bnd int ts li als ss x /\ length ts = S (length li) /\ se_LI x = li /\ sf_B x = beta
  /\ (len ts <= 2 ^ 31 -> 0 <= last bnd 0 < 2 ^ 32 -> len als < 2 ^ 32 -> inv_function x).
Proof.
  intros beta bnd int [|t0 ts] li es [|s0 ss] x H E; try discriminate E. cbn [make_function] in E. apply obind_val in E. destruct E as (t & E1 & E).
  destruct (Z.eqb_spec (u32 (Z.of_nat (length ts))) (Z.of_nat (length li))) as [E0|]; [|discriminate].
  destruct (Z.eqb_spec (u32 (u32 (Z.of_nat (length ts)) + 1)) (Z.of_nat (length (s0 :: ss)))) as [E2|]; [|discriminate]. cbn [negb orb] in E.
  apply obind_val in E. destruct E as (ls & E3 & E). cbv zeta in E. destruct (betas_ok _) eqn:K; [|discriminate]. injection E as <-.
  assert (S1 := series_made _ _ _ _ _ _ _ _ _ _ _ H E1 E2 E3). split; [exact S1|]. rewrite u32_id in E0 by (unfold len in H; cbn [length] in H; lia).
  destruct S1 as (_ & _ & _ & _ & _ & S3 & _ & _ & S5 & S6 & _ & S4). split; [cbn [length]; lia|]. split.
  - rewrite S3. cbn [length]. replace (Datatypes.S (length ts) - 1)%nat with (length li) by lia. apply firstn_all.
  - split; [exact S5|]. intros K1 K2 K3. split; [auto|]. rewrite S5. eapply Forall_impl; [|exact S6]. intros l ->. split; apply Qle_refl.
Qed.
Theorem C50_function_accepts : forall beta bnd int t0 ts li als s0 ss, len ts < 2 ^ 31 -> length ss = length ts -> length li = length ts ->
  curve_ok bnd int als s0 -> exists x, make_function beta bnd int (t0 :: ts) li als (s0 :: ss) = Val x.
Proof.
  intros beta bnd int t0 ts li es s0 ss H L1 L2 Tb. cbn [make_function]. rewrite make_tab1_ok by exact Tb. cbn [obind]. unfold len in H. rewrite (u32_id (Z.of_nat (length ts))) by lia. rewrite u32_id by lia. cbn [length].
  replace (Z.of_nat (length ts) + 1 =? Z.of_nat (Datatypes.S (length ss))) with true by lia. replace (Z.of_nat (length ts) =? Z.of_nat (length li)) with true by lia. cbn [negb orb]. rewrite Nat2Z.id, firstn_all. 
  destruct (more_temps_ok beta ts li ss (eq_sym L1) ltac:(lia)) as [ls E]. rewrite E. cbn [obind]. destruct (more_temps_val _ _ _ _ _ E (eq_sym L1)) as (_ & _ & _ & _ & D & _).
  rewrite betas_made; [eexists; reflexivity|]. exact D.
Qed.
Theorem C50_function_sizes : forall beta bnd int t0 ts li als s0 ss, len ts < 2 ^ 31 -> curve_ok bnd int als s0 ->
  length li <> length ts \/ length ss <> length ts -> len ss < 2 ^ 32 -> make_function beta bnd int (t0 :: ts) li als (s0 :: ss) = Throw EStd.
Proof.
  intros beta bnd int t0 ts li es s0 ss H Tb L Hs. cbn [make_function]. rewrite make_tab1_ok by exact Tb. cbn [obind]. unfold len in *. rewrite (u32_id (Z.of_nat (length ts))) by lia. rewrite u32_id by lia. cbn [length].
  destruct (Z.eqb_spec (Z.of_nat (length ts)) (Z.of_nat (length li))), (Z.eqb_spec (Z.of_nat (length ts) + 1) (Z.of_nat (Datatypes.S (length ss)))); cbn [negb orb]; try reflexivity. lia.
Qed.
Example C50_example_function : exists x, make_function r_one [2; 3] [2; 5] [r_tiny; r_one; r_pi] [2; 4] [r_tiny; r_one; r_pi] [[r_one; r_pi; r_pi]; [r_one; r_pi; r_tiny]; [r_one; r_one; r_one]] = Val x.
Proof. eexists. vm_compute. reflexivity. Qed.
(** the number of values at the further temperatures is not compared with the number of alphas: such a function can
    be made, and printed and read back *)
Definition xragged := mkseries (xtab1 1 0) [xlist 3 0 0 [r_one]].
Theorem C50_function_refuted : rep_series xragged /\ inv_function xragged /\ map (@length real) (se_S xragged) = [3; 1]%nat
  /\ exists x, make_function r_one [2; 3] [2; 5] [r_tiny; r_one] [2] [r_tiny; r_one; r_pi] [[r_one; r_pi; r_pi]; [r_one]] = Val x.
Proof.
  split; [split; cbn [xragged se_first se_more]; [xt|constructor; [xt|constructor]]|]. split.
  - split; [split; cbn [xragged se_first se_more]; [xt|unfold len; cbn [xtab1 xtab2 tbase tL1 length]; nai]|].
    cbn [xragged se_first se_more]. constructor; [|constructor]. cbn [xlist lC2 xtab1 xtab2 tbase tC2]. split; apply Qle_refl.
  - split; [reflexivity|]. eexists. vm_compute. reflexivity.
Qed.

(** ** the constants *)
Lemma nth_rows k : (0 < k)%nat -> forall (rows : list (list real)) j i, Forall (fun r => length r = k) rows -> (j < length rows)%nat -> (i < k)%nat ->
  nth (j * k + i) (concat rows) rzero = nth i (nth j rows []) rzero.
Proof.
  intros Hk. induction rows as [|r rows IH]; intros [|j] i F Hj Hi; cbn [length] in Hj; try lia; inversion F as [|? ? F1 F2]; subst; cbn [concat nth].
  - rewrite app_nth1 by lia. reflexivity.
  - rewrite app_nth2 by lia. rewrite <- IH by (assumption || lia). f_equal. lia.
Qed.
Lemma nth_skipn {A} n (d : A) : forall l i, nth i (skipn n l) d = nth (n + i) l d.
Proof. induction n as [|n IH]; intros l i; [reflexivity|]. destruct l; [now destruct i|]. apply IH. Qed.
Lemma column_rows (i : nat) (l : listr) rows : lB l = concat rows -> Forall (fun r => length r = 6%nat) rows -> (i < 6)%nat -> (i = 0%nat \/ rows <> []) ->
  column6 (Z.of_nat i) l = Val (map (fun r => nth i r rzero) rows).
Proof.
  intros E F Hi N. assert (L := concat_len 6 rows F). unfold column6, drop_exactly. rewrite E.
  assert (Hr : (i <= length (concat rows))%nat) by (rewrite L; destruct N as [->|N]; [lia|destruct rows; [congruence|cbn [length]; lia]]).
  replace ((Z.of_nat i <? 0) || (Z.of_nat (length (concat rows)) <? Z.of_nat i)) with false by lia. cbn [obind]. f_equal. rewrite Nat2Z.id.
  apply list_ext. intros j. rewrite stride_nth by lia. rewrite skipn_length, L. destruct (Nat.ltb_spec (j * 6) (length rows * 6 - i)) as [B|B].
  - assert (Hj : (j < length rows)%nat) by lia. rewrite nth_skipn. replace (i + j * 6)%nat with (j * 6 + i)%nat by lia. rewrite (nth_rows 6) by (assumption || lia).
    symmetry. apply (map_nth_error (fun r => nth i r rzero) j rows (nth_error_nth' rows [] Hj)).
  - symmetry. apply nth_error_None. rewrite map_length. lia.
Qed.
Definition crow (p : Z * real * real * Z) : list real := match p with (t, x, a, n) => [of_int t; x; a; rzero; rzero; of_int n] end.
Lemma rows6_concat : forall types xs awr natoms, rows6 types xs awr natoms = concat (map crow (combine (combine (combine types xs) awr) natoms)).
Proof. induction types as [|t types IH]; intros [|x xs] [|a awr] [|n natoms]; try reflexivity. cbn [rows6 combine map concat crow]. now rewrite IH. Qed.
Lemma combine4 : forall (ts : list Z) (xs awr : list real) (ns : list Z), length xs = length ts -> length awr = length ts -> length ns = length ts ->
  let c := combine (combine (combine ts xs) awr) ns in
  map (fun p => fst (fst (fst p))) c = ts /\ map (fun p => snd (fst (fst p))) c = xs /\ map (fun p => snd (fst p)) c = awr /\ map snd c = ns.
Proof.
  induction ts as [|t ts IH]; intros [|x xs] [|a awr] [|n ns] A B C; try discriminate; [repeat split|]. injection A as A. injection B as B. injection C as C.
  destruct (IH xs awr ns A B C) as (E1 & E2 & E3 & E4). cbv zeta in *. cbn [combine map fst snd]. now rewrite E1, E2, E3, E4.
Qed.
Lemma crows l : Forall (fun r => length r = 6%nat) (map crow l).
Proof. apply Forall_map, Forall_forall. intros [[[t x] a] n] _. reflexivity. Qed.
Theorem C50_constants : forall lln ns eps emax xs awr natoms types l, int32 lln -> int32 ns -> len xs < 2 ^ 31 -> make_constants lln ns eps emax xs awr natoms types = Val l ->
  0 <= ns <= 3 /\ len xs = ns + 1 /\ len awr = ns + 1 /\ len natoms = ns + 1 /\ len types = ns /\ (lln = 0 \/ lln = 1) /\ inv_constants l
  /\ sc_LLN l = lln /\ sc_NS l = ns /\ sc_NI l = 6 * (ns + 1) /\ sc_epsilon l = Val eps /\ sc_EMAX l = Val emax
  /\ MSIGMA l = Val xs /\ sc_AWR l = Val awr /\ sc_M l = Val (map of_int natoms) /\ sc_types l = Val (map of_int types).
Proof.
  intros lln ns eps emax xs awr natoms types l Hl Hn Hx E. unfold make_constants in E. apply obind_val in E. destruct E as (b & E & K). unfold constants_list in E. cbv zeta in E.
  set (m := u32 (u32 ns + 1)) in *. assert (Hm : m = u32 (ns + 1)) by (unfold m, u32; rewrite Zplus_mod_idemp_l; reflexivity).
  destruct (Z.eqb_spec (Z.of_nat (length xs)) m) as [L1|]; [|discriminate]. destruct (Z.eqb_spec (Z.of_nat (length awr)) m) as [L2|]; [|discriminate].
  destruct (Z.eqb_spec (Z.of_nat (length natoms)) m) as [L3|]; [|discriminate]. destruct (Z.eqb_spec (Z.of_nat (length types)) (u32 ns)) as [L4|]; [|discriminate]. cbn [negb orb] in E.
  destruct xs as [|x xs]; [discriminate|]. destruct awr as [|a awr]; [discriminate|]. destruct natoms as [|n natoms]; [discriminate|]. injection E as <-.
  unfold make_constants_list in K. cbv zeta in K. apply obind_val in K. destruct K as ([] & K & J). injection J as <-.
  assert (N : 0 <= ns).
  { unfold len in Hx. cbn [length] in *. unfold u32, int32 in *. destruct (Z.leb_spec 0 ns); [assumption|exfalso]. rewrite Hm in L1.
    destruct (Z.eq_dec ns (-1)) as [->|]; [cbn in L1; lia|]. rewrite <- (Z.mod_add (ns + 1) 1) in L1 by lia. rewrite Z.mod_small in L1 by lia. lia. }
  rewrite Hm, u32_id in L1, L2, L3 by (unfold int32 in Hn; lia). rewrite u32_id in L4 by (unfold int32 in Hn; lia). cbn [length] in L1, L2, L3.
  apply check_constants_spec in K. unfold int_constants in K. cbn [lN2 lL1] in K. cbv zeta in K. rewrite i32_id in K by exact Hn. destruct K as (N3 & _ & K1 & K2).
  assert (C4 := combine4 types xs awr natoms ltac:(lia) ltac:(lia) ltac:(lia)). cbv zeta in C4. set (c := combine (combine (combine types xs) awr) natoms) in *. destruct C4 as (M1 & M2 & M3 & M4).
  set (l := mklist rzero rzero lln 0 ns ([x; eps; a; emax; rzero; of_int n] ++ rows6 types xs awr natoms)) in *.
  match goal with |- context [inv_constants ?k] => change k with l end.
  assert (B : lB l = concat ([x; eps; a; emax; rzero; of_int n] :: map crow c)) by (unfold l; cbn [lB concat]; now rewrite rows6_concat).
  assert (F : Forall (fun r => length r = 6%nat) ([x; eps; a; emax; rzero; of_int n] :: map crow c)) by (constructor; [reflexivity|apply crows]).
  assert (Lc : length c = length types) by (rewrite <- M1; now rewrite map_length).
  assert (Lb := concat_len 6 _ F). rewrite <- B in Lb. cbn [length] in Lb. rewrite map_length in Lb.
  assert (In : inv_constants l).
  { split; [cbn; lia|]. split; [unfold len; rewrite Lb; cbn [l lN2]; replace (Z.of_nat (Datatypes.S (length c) * 6)) with (6 * (ns + 1)) by lia; apply as_int_self; unfold int32; lia|exact K2]. }
  unfold len. cbn [length]. split; [lia|]. split; [lia|]. split; [lia|]. split; [lia|]. split; [lia|].
  split; [rewrite !as_int_eq in K2; rewrite i32_id in K2 by exact Hl; lia|]. split; [exact In|].
  split; [unfold sc_LLN; cbn [l lL1]; apply i32_id, Hl|]. split; [reflexivity|]. split; [unfold sc_NI, npl; rewrite Lb; lia|]. split; [reflexivity|]. split; [reflexivity|].
  split; [|split; [|split]].
  - destruct (msigma_ok l In) as (is & E1 & ->). cbn [l lN2] in E1. f_equal. 
    assert (Hx2 : forall i d, (i < length xs)%nat -> nth (6 * i + 7) (lB l) rzero = nth i xs d).
    { intros i d Hi. rewrite B. replace (6 * i + 7)%nat with (S i * 6 + 1)%nat by lia. rewrite (nth_rows 6); [|lia|exact F|cbn [length]; rewrite map_length; lia|lia].
      cbn [nth]. rewrite (nth_indep _ [] (crow (0, rzero, rzero, 0))) by (rewrite map_length; lia). rewrite map_nth. rewrite <- M2.
      rewrite (nth_indep _ d (snd (fst (fst (0, rzero, rzero, 0))))) by (rewrite map_length; lia). rewrite (map_nth (fun p => snd (fst (fst p)))). destruct (nth i c _) as [[[t' x'] a'] n']. reflexivity. }
    assert (E0 : nth 0 (lB l) rzero = x) by reflexivity. cbn [map]. rewrite E0. f_equal.
    unfold msigma_indices in E1. assert (L1' : length xs = Z.to_nat ns) by lia. assert (C : ns = 0 \/ ns = 1 \/ ns = 2 \/ ns = 3) by lia. clear - C E1 L1' Hx2.
    destruct C as [->|[->|[->| ->]]]; cbn [Z.eqb] in E1; injection E1 as <-; cbn [map]; cbn in L1'.
    + now destruct xs.
    + destruct xs as [|y [|]]; try discriminate L1'. change 7%nat with (6 * 0 + 7)%nat. now rewrite (Hx2 0%nat rzero ltac:(cbn; lia)).
    + destruct xs as [|y [|z [|]]]; try discriminate L1'. assert (P0 := Hx2 0%nat rzero ltac:(cbn; lia)). assert (P1 := Hx2 1%nat rzero ltac:(cbn; lia)). cbn [Nat.mul Nat.add nth] in P0, P1. now rewrite P0, P1.
    + destruct xs as [|y [|z [|u [|]]]]; try discriminate L1'. assert (P0 := Hx2 0%nat rzero ltac:(cbn; lia)). assert (P1 := Hx2 1%nat rzero ltac:(cbn; lia)). assert (P2 := Hx2 2%nat rzero ltac:(cbn; lia)). cbn [Nat.mul Nat.add nth] in P0, P1, P2. now rewrite P0, P1, P2.
  - unfold sc_AWR. change 2 with (Z.of_nat 2). rewrite (column_rows 2 l _ B F) by (lia || (right; discriminate)). cbn [map nth]. rewrite <- M3 at 1. f_equal. f_equal. rewrite !map_map. apply map_ext. intros [[[t' x'] a'] n']. reflexivity.
  - unfold sc_M. change 5 with (Z.of_nat 5). rewrite (column_rows 5 l _ B F) by (lia || (right; discriminate)). cbn [map nth]. rewrite <- M4 at 1. f_equal. f_equal. rewrite !map_map. apply map_ext. intros [[[t' x'] a'] n']. reflexivity.
  - rewrite types_ok by lia. f_equal. assert (B2 : skipn 6 (lB l) = concat (map crow c)) by (rewrite B; reflexivity). rewrite B2. unfold stride. rewrite chunks_rows; [|lia|apply crows|lia].
    rewrite <- M1 at 1. rewrite !map_map. apply map_ext. intros [[[t' x'] a'] n']. reflexivity.
Qed.
Theorem C50_constants_accepts : forall lln ns eps emax xs awr natoms types, lln = 0 \/ lln = 1 -> 0 <= ns <= 3 ->
  len xs = ns + 1 -> len awr = ns + 1 -> len natoms = ns + 1 -> len types = ns -> exists l, make_constants lln ns eps emax xs awr natoms types = Val l.
Proof.
  intros lln ns eps emax xs awr natoms types Hl Hn L1 L2 L3 L4. unfold make_constants, constants_list. cbv zeta. unfold len in *. rewrite (u32_id ns) by lia. rewrite (u32_id (ns + 1)) by lia. rewrite L1, L2, L3, L4, !Z.eqb_refl. cbn [negb orb].
  destruct xs as [|x xs]; [cbn in L1; lia|]. destruct awr as [|a awr]; [cbn in L2; lia|]. destruct natoms as [|n natoms]; [cbn in L3; lia|]. cbn [obind]. unfold make_constants_list. cbv zeta.
  assert (V : check_constants (mklist rzero rzero lln 0 ns ([x; eps; a; emax; rzero; of_int n] ++ rows6 types xs awr natoms)) = Val tt).
  { apply check_constants_spec. unfold int_constants. cbn [lN2 lL1 lB]. cbv zeta. rewrite i32_id by (unfold int32; lia). split; [lia|]. split; [unfold int32; lia|]. split.
    - unfold len. rewrite app_length, rows6_concat, (concat_len 6 _ (crows _)), map_length. cbn [length] in *. rewrite !combine_length. 
      replace (Z.of_nat _) with (6 * (ns + 1)) by lia. apply as_int_self. unfold int32. lia.
    - destruct Hl as [-> | ->]; [left|right]; nai. }
  rewrite V. eexists. reflexivity.
Qed.
Example C50_example_constants : exists l, make_constants 1 2 r_one r_pi [r_one; r_pi; r_tiny] [r_one; r_one; r_pi] [1; 2; 3] [0; 1] = Val l.
Proof. apply C50_constants_accepts; unfold len; cbn [length]; lia. Qed.
(** accessors of any constants that are read *)
Theorem C50_constants_read : forall l, inv_constants l -> len (lB l) < 2 ^ 31 ->
  let b := fun i => nth i (lB l) rzero in let n := Z.to_nat (lN2 l) in
  sc_NI l = 6 * (sc_NS l + 1) /\ (sc_LLN l = 0 \/ sc_LLN l = 1) /\ sc_epsilon l = Val (b 1%nat) /\ sc_EMAX l = Val (b 3%nat)
  /\ MSIGMA l = Val (b 0%nat :: map (fun i => b (6 * i + 1)%nat) (seq 1 n))
  /\ sc_AWR l = Val (map (fun i => b (6 * i + 2)%nat) (seq 0 (n + 1)))
  /\ sc_M l = Val (map (fun i => b (6 * i + 5)%nat) (seq 0 (n + 1)))
  /\ sc_types l = Val (map (fun i => b (6 * i)%nat) (seq 1 n)).
Proof.
  intros l In Hb. cbv zeta. assert (L := constants_length l In). destruct (msigma_ok l In) as (is & E1 & E2). destruct In as (N & A & G).
  assert (Lb : length (lB l) = (6 * (Z.to_nat (lN2 l) + 1))%nat).
  { apply as_int_get in A. rewrite i32_id in A by (unfold int32, len in *; lia). unfold len in A. lia. }
  split; [unfold sc_NI, sc_NS, npl; lia|]. split; [unfold sc_LLN; rewrite !as_int_eq in G; exact G|].
  split; [unfold sc_epsilon; apply element_nth; lia|]. split; [unfold sc_EMAX; apply element_nth; lia|]. split; [|split; [|split]].
  - rewrite E2. f_equal. cbn [map]. f_equal. assert (C : lN2 l = 0 \/ lN2 l = 1 \/ lN2 l = 2 \/ lN2 l = 3) by lia.
    destruct C as [C|[C|[C|C]]]; rewrite C in E1 |- *; cbn in E1; injection E1 as <-; reflexivity.
  - unfold sc_AWR, column6, drop_exactly. replace ((2 <? 0) || (Z.of_nat (length (lB l)) <? 2)) with false by lia. cbn [obind]. f_equal. apply list_ext. intros j.
    rewrite stride_nth by lia. change (Z.to_nat 2) with 2%nat. rewrite skipn_length, nth_skipn, nth_error_map. destruct (Nat.ltb_spec (j * 6) (length (lB l) - 2)).
    + rewrite (nth_error_nth' _ 0%nat) by (rewrite seq_length; lia). rewrite seq_nth by lia. cbn [option_map]. f_equal. f_equal. lia.
    + rewrite (proj2 (nth_error_None _ _)) by (rewrite seq_length; lia). reflexivity.
  - unfold sc_M, column6, drop_exactly. replace ((5 <? 0) || (Z.of_nat (length (lB l)) <? 5)) with false by lia. cbn [obind]. f_equal. apply list_ext. intros j.
    rewrite stride_nth by lia. change (Z.to_nat 5) with 5%nat. rewrite skipn_length, nth_skipn, nth_error_map. destruct (Nat.ltb_spec (j * 6) (length (lB l) - 5)).
    + rewrite (nth_error_nth' _ 0%nat) by (rewrite seq_length; lia). rewrite seq_nth by lia. cbn [option_map]. f_equal. f_equal. lia.
    + rewrite (proj2 (nth_error_None _ _)) by (rewrite seq_length; lia). reflexivity.
  - rewrite types_ok by lia. f_equal. apply list_ext. intros j. rewrite stride_nth by lia. rewrite skipn_length, nth_skipn, nth_error_map. destruct (Nat.ltb_spec (j * 6) (length (lB l) - 6)).
    + rewrite (nth_error_nth' _ 0%nat) by (rewrite seq_length; lia). rewrite seq_nth by lia. cbn [option_map]. f_equal. f_equal. lia.
    + rewrite (proj2 (nth_error_None _ _)) by (rewrite seq_length; lia). reflexivity.
Qed.
Example C50_example_constants_read : inv_constants (xconst r_pi) /\ len (lB (xconst r_pi)) < 2 ^ 31.
Proof. split; [unfold inv_constants, xconst, len; cbn [xlist lN2 lL1 lB length]; split; [lia|split; [nai|right; nai]]|unfold len; cbn; lia]. Qed.
(** -1 non-principal scatterers are accepted when there are no constants; most accessors are then undefined *)
Theorem C50_constants_refuted : forall lln, lln = 0 \/ lln = 1 -> exists l, make_constants_list lln (-1) [] = Val l
  /\ sc_epsilon l = Undef /\ sc_EMAX l = Undef /\ MSIGMA l = Undef /\ sc_AWR l = Undef /\ sc_M l = Undef /\ sc_types l = Undef.
Proof. intros lln [-> | ->]; eexists; repeat split. Qed.

(** ** the section *)
(** one effective temperature for each non-principal scatterer of kind zero, none for the others *)
Theorem C50_thermal : forall lat lasym l w p os x, inv_constants l -> len (lB l) < 2 ^ 31 -> make_thermal lat lasym l w p os = Val x ->
  (lat = 0 \/ lat = 1) /\ len os = lN2 l
  /\ (forall i o, nth_error os i = Some o -> (o = None <-> ~ same_real (nth (6 * (i + 1)) (lB l) rzero) rzero))
  /\ x = mkthermal lat lasym l w p os
  /\ (int32 lasym -> inv_tab1 p -> Forall (fun o => forall t, o = Some t -> inv_tab1 t) os -> inv_inelastic w ->
      (same_real (nth 0 (lB l) rzero) rzero <-> w = Analytical) -> inv_thermal x).
Proof.
  intros lat lasym l w p os x In Hb E. apply make_thermal_val in E. destruct E as (-> & Hl & types & E1 & E2 & E3). assert (L := constants_length l In).
  destruct (C50_constants_read l In Hb) as (_ & _ & _ & _ & _ & _ & _ & E4). assert (E5 := E4). rewrite E1 in E4. injection E4 as ->. rewrite map_length, seq_length in E2.
  assert (A := proj2 (agree_spec _ _) (conj (eq_trans (eq_trans (map_length _ _) (seq_length _ _)) E2) E3)). rewrite types_ok in E5 by lia. injection E5 as E5. rewrite <- E5 in A.
  assert (G : Forall (fun o => forall t, o = Some t -> inv_tab1 t) os -> (forall n, (n <= length os)%nat <-> kinds l n) /\ (forall i o, nth_error os i = Some o -> (o = None <-> ~ same_real (kind l i) rzero))).
  { intros F. apply seconds_spec; [lia|]. rewrite Forall2_nth_iff in A |- *. destruct A as [A1 A2]. split; [exact A1|]. intros i y o Ey Eo. split; [exact (A2 i y o Ey Eo)|].
    rewrite Forall_forall in F. apply F. apply nth_error_In in Eo. exact Eo. }
  split; [exact Hl|]. assert (N : 0 <= lN2 l <= 3) by apply In. split; [unfold len; lia|]. split.
  - intros i o Eo. rewrite Forall2_nth_iff in A. destruct A as [A1 A2].
    destruct (nth_error (stride 6 (skipn 6 (lB l))) i) as [y|] eqn:Ey; [|apply nth_error_None in Ey; assert (Q : nth_error os i <> None) by congruence; apply nth_error_Some in Q; rewrite <- A1 in Q; exfalso; exact (Nat.lt_irrefl _ (Nat.lt_le_trans _ _ _ Q Ey))].
    assert (Q := A2 i y o Ey Eo). rewrite (types_nth l i y Ey) in Q. fold (kind l i). rewrite <- req_spec. destruct o, (req (kind l i) rzero); split; try congruence; intros; exfalso; [destruct Q as [_ Q]; discriminate Q; discriminate|destruct Q as [Q _]; now apply Q].
  - split; [reflexivity|]. intros I1 I2 I3 I4 I5. destruct (G I3) as [G1 G2]. unfold inv_thermal. cbn [th_lat th_lasym th_constants th_law th_principal th_secondary].
    split; [exact Hl|]. split; [exact I1|]. split; [exact In|]. split; [exact I5|]. split; [exact I4|]. split; [exact I2|]. split; [exact I3|]. split; [unfold len; lia|]. auto.
Qed.
Example C50_example_thermal : make_thermal 1 0 (xconst r_pi) Analytical (xtab1 0 0) [None; Some (xtab1 0 0)]
  = Val (mkthermal 1 0 (xconst r_pi) Analytical (xtab1 0 0) [None; Some (xtab1 0 0)]).
Proof. reflexivity. Qed.
(** the constructor does not compare the law with the constants: it makes sections that no text reads as *)
Theorem C50_thermal_refuted : exists x, make_thermal 1 0 (xconst r_pi) Analytical (xtab1 0 0) [None; Some (xtab1 0 0)] = Val x
  /\ forall za awr mt h mat s s', rd_section sec_7_4 h mat s <> Ok (mksect za awr mt x) s'.
Proof.
  eexists. split; [reflexivity|]. intros za awr mt h mat s s' E. apply (sc_sound _ _ _ rt_7_4) in E. destruct E as (_ & _ & _ & _ & _ & _ & _ & In & _).
  destruct In as (_ & _ & _ & [_ I4] & _). apply rpi_not_zero. exact (I4 eq_refl).
Qed.
(** LASYM is taken as it is *)
Theorem C50_lasym_refuted : exists x, make_thermal 1 7 (xconst r_pi) Analytical (xtab1 0 0) [None; Some (xtab1 0 0)] = Val x /\ th_lasym x = 7.
Proof. eexists. split; reflexivity. Qed.

(** ** generalised information *)
Lemma isotope_cols : forall ids st afs ws xs, length st = length ids -> length afs = length ids -> length ws = length ids -> length xs = length ids ->
  let c := isotopes ids st afs ws xs in
  map is_za c = ids /\ map is_state c = st /\ map is_af c = afs /\ map is_awr c = ws /\ map is_xs c = xs.
Proof.
  induction ids as [|i ids IH]; intros [|s st] [|a afs] [|w ws] [|x xs] A B C D; try discriminate; [repeat split|]. injection A as A. injection B as B. injection C as C. injection D as D.
  destruct (IH st afs ws xs A B C D) as (E1 & E2 & E3 & E4 & E5). cbv zeta in *. cbn [isotopes map is_za is_state is_af is_awr is_xs]. now rewrite E1, E2, E3, E4, E5.
Qed.
Lemma isotope_rows c : Forall (fun r => length r = 6%nat) (map isotope_row c).
Proof. apply Forall_map, Forall_forall. reflexivity. Qed.
Theorem C50_element : forall atoms ids states afs ws xs l, len ids < 2 ^ 32 -> make_element atoms ids states afs ws xs = Val l ->
  length states = length ids /\ length afs = length ids /\ length ws = length ids /\ length xs = length ids /\ inv_element l
  /\ lL1 l = atoms /\ (len ids < 2 ^ 31 -> ei_NI l = len ids) /\ ei_ZAI l = Val (map of_int ids)
  /\ (ids <> [] -> ei_LISI l = Val (map of_int states) /\ ei_AFI l = Val afs /\ ei_AWRI l = Val ws /\ ei_SFI l = Val xs).
Proof.
  intros atoms ids st afs ws xs l Hn E. unfold make_element in E. cbv zeta in E. rewrite u32_id in E by (unfold len in Hn; lia).
  destruct (Z.eqb_spec (Z.of_nat (length st)) (Z.of_nat (length ids))) as [L1|]; [|discriminate]. destruct (Z.eqb_spec (Z.of_nat (length afs)) (Z.of_nat (length ids))) as [L2|]; [|discriminate].
  destruct (Z.eqb_spec (Z.of_nat (length ws)) (Z.of_nat (length ids))) as [L3|]; [|discriminate]. destruct (Z.eqb_spec (Z.of_nat (length xs)) (Z.of_nat (length ids))) as [L4|]; [|discriminate].
  cbn [negb orb] in E. apply obind_val in E. destruct E as ([] & E & K). injection K as <-. apply check_element_spec in E. apply Nat2Z.inj in L1, L2, L3, L4.
  destruct (isotope_cols ids st afs ws xs L1 L2 L3 L4) as (M1 & M2 & M3 & M4 & M5). set (c := isotopes ids st afs ws xs) in *.
  set (l := mklist rzero rzero atoms 0 (Z.of_nat (length ids)) (flat_map isotope_row c)) in *.
  assert (B : lB l = concat (map isotope_row c)) by (unfold l; cbn [lB]; apply flat_map_concat_map). assert (F := isotope_rows c).
  split; [exact L1|]. split; [exact L2|]. split; [exact L3|]. split; [exact L4|]. split; [exact E|]. split; [reflexivity|].
  split; [intros H; unfold ei_NI; cbn [l lN2]; apply i32_id, int32_len, H|]. split.
  - unfold ei_ZAI. change 0 with (Z.of_nat 0). rewrite (column_rows 0 l _ B F) by (lia || (left; reflexivity)). f_equal. rewrite <- M1. rewrite !map_map. apply map_ext. reflexivity.
  - intros N. assert (N2 : map isotope_row c <> []) by (destruct c; [cbn in M1; congruence|discriminate]). unfold ei_LISI, ei_AFI, ei_AWRI, ei_SFI.
    change 1 with (Z.of_nat 1). change 2 with (Z.of_nat 2). change 3 with (Z.of_nat 3). change 4 with (Z.of_nat 4).
    split; [|split; [|split]].
    + rewrite (column_rows 1 l _ B F) by (lia || (right; exact N2)). f_equal. rewrite <- M2. rewrite !map_map. apply map_ext. reflexivity.
    + rewrite (column_rows 2 l _ B F) by (lia || (right; exact N2)). f_equal. rewrite <- M3. rewrite !map_map. apply map_ext. reflexivity.
    + rewrite (column_rows 3 l _ B F) by (lia || (right; exact N2)). f_equal. rewrite <- M4. rewrite !map_map. apply map_ext. reflexivity.
    + rewrite (column_rows 4 l _ B F) by (lia || (right; exact N2)). f_equal. rewrite <- M5. rewrite !map_map. apply map_ext. reflexivity.
Qed.
Theorem C50_element_accepts : forall atoms ids states afs ws xs, len ids < 2 ^ 28 -> length states = length ids -> length afs = length ids -> length ws = length ids -> length xs = length ids ->
  exists l, make_element atoms ids states afs ws xs = Val l.
Proof.
  intros atoms ids st afs ws xs Hn L1 L2 L3 L4. unfold make_element. cbv zeta. rewrite u32_id by (unfold len in Hn; lia). rewrite L1, L2, L3, L4, Z.eqb_refl. cbn [negb orb].
  destruct (isotope_cols ids st afs ws xs L1 L2 L3 L4) as (M1 & _). set (c := isotopes ids st afs ws xs) in *.
  assert (V : check_element (mklist rzero rzero atoms 0 (Z.of_nat (length ids)) (flat_map isotope_row c)) = Val tt).
  { apply check_element_spec. exists (len ids), (6 * len ids). cbn [lN2 lB]. split; [apply as_int_self; unfold len, int32 in *; lia|]. split; [|lia].
    unfold len. rewrite flat_map_concat_map, (concat_len 6 _ (isotope_rows c)), map_length. assert (Lc : length c = length ids) by (rewrite <- M1; now rewrite map_length). rewrite Lc.
    replace (Z.of_nat (length ids * 6)) with (6 * Z.of_nat (length ids)) by lia. apply as_int_self. unfold len, int32 in *. lia. }
  rewrite V. eexists. reflexivity.
Qed.
Example C50_example_element : exists l, make_element 2 [8016; 8017] [0; 0] [r_one; r_tiny] [r_pi; r_pi] [r_one; r_one] = Val l.
Proof. eexists. vm_compute. reflexivity. Qed.
(** an element without isotopes is accepted; its columns but the first are undefined *)
Theorem C50_element_refuted : forall atoms, exists l, make_element atoms [] [] [] [] [] = Val l /\ ei_ZAI l = Val [] /\ ei_LISI l = Undef /\ ei_AFI l = Undef /\ ei_AWRI l = Undef /\ ei_SFI l = Undef.
Proof. intros atoms. eexists. repeat split. Qed.
(** at least one element *)
Theorem C50_elements : forall l, len l < 2 ^ 32 -> (l = [] /\ make_elements l = Throw EStd) \/ (l <> [] /\ make_elements l = Val l /\ NA l = len l).
Proof.
  intros l H. unfold make_elements, elements_ok. assert (E : NA l = len l) by (apply u32_id; assert (P := len_nonneg l); unfold len in *; lia). rewrite E.
  destruct l as [|x l]; [left; auto|right]. split; [discriminate|]. replace (len (x :: l) =? 0) with false by (unfold len; cbn [length]; lia). auto.
Qed.
