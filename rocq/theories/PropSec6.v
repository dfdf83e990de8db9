(** PropSec6.v -- C49 (File 6) and C54 (File 26). *)
From Coq Require Import ZifyBool ZifyNat.
From Verif Require Import Base Disco DiscoProofs Records RecordProofs RealRound RealProofs Spec Sections SecSpec Codec SectionProofs SecKit CodecKit
  PropRecords Sec9 Sec9Spec Sec9Proofs Sec4 Sec4Proofs Sec6 Sec6Spec Sec6Proofs Sec6Safe ExKit.
Open Scope Z_scope.

Theorem C49_mf6 : section_rt sec_6 rep_body6 inv_body6.
Proof. exact rt_6. Qed.
Theorem C54_mf26 : section_rt sec_26 (Forall (rep_product rep_law26)) (many_of (inv_product LAW26 inv_law26)).
Proof. exact rt_26. Qed.

Definition xq1 : iseq listr := mkiseq (xtab2 1 0) [xlist 1 1 2 [r_one; r_pi; r_tiny; r_pi; r_one; r_one]; xlist 0 0 2 [r_one; r_pi; r_pi; r_one]; xlist 0 0 0 []].
Definition xq2 : iseq listr := mkiseq (xtab2 0 0) [xlist 0 0 3 [r_one; r_pi; r_tiny]; xlist 12 0 1 [r_one; r_pi]; xlist 14 0 2 [r_pi; r_one; r_one; r_one]].
Definition xq5 : iseq listr := mkiseq (xtab2 0 0) [xlist 1 0 0 [r_one; r_pi; r_tiny]; xlist 2 0 1 [r_one; r_pi]; xlist 15 0 1 [r_pi; r_one]].
Definition xq7 : iseq (iseq tab1) := let q := mkiseq (xtab2 0 0) [xtab1 0 0; xtab1 0 0; xtab1 0 0] in mkiseq (xtab2 0 0) [q; q; q].
Definition xb6 : body6 := mkbody6 0 2
  [ mkproduct (xtab1 0 1) (Continuum xq1); mkproduct (xtab1 0 2) (TwoBody xq2); mkproduct (xtab1 0 (-5)) (Elsewhere (-5));
    mkproduct (xtab1 0 5) (ChargedElastic xq5); mkproduct (xtab1 0 6) (NBody (mkcont r_one rzero 0 0 0 3));
    mkproduct (xtab1 0 7) (LabAngle xq7); mkproduct (xtab1 0 0) UnknownLaw; mkproduct (xtab1 0 3) DiscreteIso; mkproduct (xtab1 0 4) Recoil ].
Lemma endf_rzero : endf_real rzero. Proof. left; split; reflexivity. Qed.
Lemma as_int_self z : int32 z -> as_int z z.
Proof. intros H. apply as_int_eq, i32_id, H. Qed.
Ltac ai := first [apply as_int_self; split; lia | split; [split; lia|reflexivity]].
Ltac xv a b := exists a, b; cbn [xlist lN2 lB len length]; unfold len; cbn [length]; (split; [ai|split; [ai|reflexivity]]).
Ltac base_ex a b c :=
  cbn [xlist lL1 lL2 lN2 lB]; unfold inv_base1, drop_ok, energies_ok, size1_ok, len; cbn [xlist lL1 lL2 lN2 lB length];
  split; [lia|];
  split; [intros i Hi Hl; assert (Hc : i = 0 \/ i = 1 \/ i = 2) by lia; destruct Hc as [->|[->| ->]]; try (exfalso; lia); unfold value; apply QArith_base.Qle_bool_iff; vm_compute; reflexivity|];
  exists a, b, c; (split; [ai|split; [ai|split; [ai|split; [split; lia|reflexivity]]]]).
Lemma ex_base_a : inv_base1 (xlist 1 1 2 [r_one; r_pi; r_tiny; r_pi; r_one; r_one]).
Proof. base_ex 1 2 6. Qed.
Lemma ex_base_b : inv_base1 (xlist 0 0 2 [r_one; r_pi; r_pi; r_one]).
Proof. base_ex 0 2 4. Qed.
Lemma ex_base_c : inv_base1 (xlist 0 0 0 []).
Proof. base_ex 0 0 0. Qed.
Lemma ex_seq1 : inv_seqw inv_law1 xq1.
Proof.
  unfold inv_seqw, xq1. cbn [istab isrec]. split; [xt|]. split; [reflexivity|]. split; [discriminate|]. unfold inv_law1. cbn [xtab2 tL1].
  constructor; [apply ex_base_a|]. constructor; [apply ex_base_b|]. constructor; [apply ex_base_c|]. constructor.
Qed.
Lemma ex_seq2 : inv_seqw (fun _ => inv_law2) xq2.
Proof.
  unfold inv_seqw, xq2. cbn [istab isrec]. split; [xt|]. split; [reflexivity|]. split; [discriminate|].
  constructor; [left; split; [reflexivity|]; xv 3 3|]. constructor; [right; split; [left; reflexivity|]; xv 1 2|].
  constructor; [right; split; [right; reflexivity|]; xv 2 4|]. constructor.
Qed.
Lemma ex_seq5 : inv_seqw (fun _ => inv_law5) xq5.
Proof.
  unfold inv_seqw, xq5. cbn [istab isrec]. split; [xt|]. split; [reflexivity|]. split; [discriminate|].
  constructor; [left; split; [reflexivity|]; exists 0, 3; cbn [xlist lN2 lB]; unfold len; cbn [length]; split; [ai|]; split; [ai|]; split; [split; lia|]; split; [split; lia|]; left; reflexivity|].
  constructor; [right; left; split; [reflexivity|]; xv 1 2|]. constructor; [right; right; split; [right; right; reflexivity|]; xv 1 2|]. constructor.
Qed.
Example C49_example_6 : meets sec_6 rep_body6 inv_body6 (mksect 92235 r_pi 18 xb6).
Proof.
  unfold meets. cbn [s_body]. split; [xt|]. split.
  { split; [cbn; lia|]. unfold allowed. cbn [sec_6 k_for s_mt s_body]. unfold fission_only. cbn [products6 xb6]. repeat constructor. }
  split.
  - unfold rep_body6, xb6. cbn [products6]. repeat (apply Forall_cons || apply Forall_nil); unfold rep_product; cbn [p_mult p_law rep_law6]; unfold xq1, xq2, xq5, xq7, rep_seqw; cbn [istab isrec];
      xt; repeat (progress cbn [istab isrec]; xt); apply endf_rzero.
  - unfold inv_body6. cbn [jp6 lct6 products6 xb6]. split; [split; lia|]. split; [split; lia|]. split; [|vm_compute; reflexivity].
    repeat (apply Forall_cons || apply Forall_nil); unfold inv_product; cbn [p_mult p_law LAW6 xtab1 xtab2 tbase tL2];
      (split; [xt|]; split; [ai|]); cbn [inv_law6]; first [exact ex_seq1|exact ex_seq2|exact ex_seq5|exact Logic.I|lia|idtac].
    unfold xq7. cbv zeta. xt; repeat (progress cbn [istab isrec]; xt).
Qed.
Definition xq26 : iseq listr := mkiseq (xtab2 0 0) [xlist 12 0 1 [r_one; r_pi]; xlist 12 0 1 [r_one; r_pi]; xlist 14 0 2 [r_pi; r_one; r_one; r_one]].
Example C54_example_26 : meets sec_26 (Forall (rep_product rep_law26)) (many_of (inv_product LAW26 inv_law26))
  (mksect 92000 r_pi 525 [mkproduct (xtab1 0 1) (Continuum26 xq1); mkproduct (xtab1 0 2) (TwoBody26 xq26); mkproduct (xtab1 0 8) (Transfer26 (xtab1 0 0))]).
Proof.
  unfold meets. cbn [s_body]. split; [xt|]. split; [split; [cbn; lia|exact Logic.I]|]. split.
  - repeat (apply Forall_cons || apply Forall_nil); unfold rep_product; cbn [p_mult p_law rep_law26]; unfold xq1, xq26, rep_seqw; cbn [istab isrec]; xt.
  - split; [|vm_compute; reflexivity].
    repeat (apply Forall_cons || apply Forall_nil); unfold inv_product; cbn [p_mult p_law LAW26 xtab1 xtab2 tbase tL2]; (split; [xt|]; split; [ai|]); cbn [inv_law26].
    + split; [reflexivity|]. unfold inv_seqw, xq1. cbn [istab isrec]. split; [xt|]. split; [reflexivity|]. split; [discriminate|].
      constructor; [apply ex_base_a|]. constructor; [apply ex_base_b|]. constructor; [apply ex_base_c|]. constructor.
    + unfold inv_seq, xq26. cbn [istab isrec]. split; [xt|]. split; [xt|]. split; [xt|]. split; [|exact Logic.I].
      constructor; [split; [left; ai|]; xv 1 2|]. constructor; [split; [left; ai|]; xv 1 2|]. constructor; [split; [right; ai|]; xv 2 4|]. constructor.
    + xt.
Qed.

(** reading is not undefined behaviour on the texts described by [tame6] and [tame26] *)
Theorem C49_mf6_safe : forall h mat s, int32 (round_int (c1 (sbase h))) -> tame6 (smat h) (smt h) (buf s) ->
  never_other (rd_section sec_6 h mat s).
Proof. exact safe_6. Qed.
Theorem C54_mf26_safe : forall h mat s, int32 (round_int (c1 (sbase h))) -> tame26 (smat h) (smt h) (buf s) ->
  never_other (rd_section sec_26 h mat s).
Proof. exact safe_26. Qed.
(** without the condition it can be: here a LIST record announces five discrete energies and
    has one *)
Definition head6 (mf mt : Z) : sdiv := mksdiv (mkcont r_one r_one 0 2 1 0) 9228 mf mt.
Lemma bad_discrete mf mt : 0 <= mf < 100 -> 0 <= mt < 1000 ->
  let t := pr_tab1 (xtab1 0 1) 9228 mf mt ++ pr_tab2 (xtab2 1 0) 9228 mf mt ++ pr_list (xlist 5 0 1 [r_one; r_pi]) 9228 mf mt in
  exists s1 s2 s3, rd_tab1 9228 mf mt (mkst t 0) = Ok (xtab1 0 1) s1 /\ rd_tab2 9228 mf mt s1 = Ok (xtab2 1 0) s2
    /\ rd_list 9228 mf mt s2 = Ok (xlist 5 0 1 [r_one; r_pi]) s3.
Proof.
  intros Hf Ht t. assert (G : good_tail 9228 mf mt) by (split; [|split]; unfold in_cols; cbn; lia).
  assert (E1 := co_reads _ _ _ _ _ cod_tab1 9228 mf mt (xtab1 0 1) G ltac:(xt) ltac:(xt) (pr_tab2 (xtab2 1 0) 9228 mf mt ++ pr_list (xlist 5 0 1 [r_one; r_pi]) 9228 mf mt) 0).
  do 3 eexists. split; [exact E1|]. split; [apply (co_reads _ _ _ _ _ cod_tab2 9228 mf mt (xtab2 1 0) G); xt|].
  assert (E3 := fun l => co_reads _ _ _ _ _ cod_list 9228 mf mt (xlist 5 0 1 [r_one; r_pi]) G ltac:(xt) Logic.I [] l).
  rewrite app_nil_r in E3. exact (E3 _).
Qed.

Definition bad6 (mf mt : Z) : text :=
  pr_tab1 (xtab1 0 1) 9228 mf mt ++ pr_tab2 (xtab2 1 0) 9228 mf mt ++ pr_list (xlist 5 0 1 [r_one; r_pi]) 9228 mf mt.
Lemma round_one : round_int r_one = 1. Proof. vm_compute. reflexivity. Qed.
Lemma head6_ok {A} mf mt (f : Z * real -> M A) s : 0 < mt -> bind (sec_head true true (head6 mf mt) 9228 mf) f s = f (1, r_one) s.
Proof.
  intros H. unfold bind, sec_head, head_za32, lift, require, bind. cbv zeta. cbn [head6 sbase c1 c2 smt smat smf]. rewrite round_one.
  change (rlt r_one rzero) with false. replace (mt <? 1) with false by lia. rewrite !Z.eqb_refl. reflexivity.
Qed.
Lemma bind_step {A B} (m : M A) (f : A -> M B) s a s' : m s = Ok a s' -> bind m f s = f a s'.
Proof. intros E. unfold bind. now rewrite E. Qed.
Lemma bind_ub {A B} (m : M A) (f : A -> M B) s : m s = UB -> bind m f s = UB.
Proof. intros E. unfold bind. now rewrite E. Qed.
Theorem C49_undefined_reachable : exists h s, int32 (round_int (c1 (sbase h))) /\ rd_section sec_6 h 9228 s = UB.
Proof.
  exists (head6 6 5), (mkst (bad6 6 5) 0). split; [cbn [head6 sbase c1]; rewrite round_one; split; lia|].
  destruct (bad_discrete 6 5 ltac:(lia) ltac:(lia)) as (s1 & s2 & s3 & E1 & E2 & E3).
  unfold rd_section. rewrite (head6_ok 6 5) by lia. apply bind_ub. change (k_rmat sec_6 (head6 6 5) 9228) with 9228. change (k_rmt sec_6 (head6 6 5)) with 5.
  cbn [sec_6 k_read k_mf]. unfold rd_body6. apply bind_ub. unfold rd_all, rd_sequence. change (i32 (n1 (sbase (head6 6 5)))) with 1.
  erewrite bind_step; [|reflexivity]. change (Z.to_nat 1) with 1%nat. cbn [rd_n]. apply bind_ub.
  unfold rd_product6. rewrite (bind_step _ _ _ _ _ E1). apply bind_ub. change (LAW (xtab1 0 1)) with 1. change (rd_law6 ?m 1 9228 6 5) with (bind (rd_law1 9228 6 5) (fun q => ret (Continuum q))).
  apply bind_ub. unfold rd_law1, rd_iseqw. rewrite (bind_step _ _ _ _ _ E2). apply bind_ub. change (rd_while ?r (tn2 (xtab2 1 0)) 9228 6 5) with (rd_n (r 9228 6 5) 3). cbn [rd_n]. apply bind_ub.
  change (rd_law1_rec (tL1 (xtab2 1 0)) 9228 6 5) with (require true ;;; bind (rd_list 9228 6 5) (fun l => lift (check1 1 l) ;;; ret l)). erewrite bind_step; [|reflexivity].
  rewrite (bind_step _ _ _ _ _ E3). reflexivity.
Qed.
Theorem C54_undefined_reachable : exists h s, int32 (round_int (c1 (sbase h))) /\ rd_section sec_26 h 9228 s = UB.
Proof.
  exists (head6 26 5), (mkst (bad6 26 5) 0). split; [cbn [head6 sbase c1]; rewrite round_one; split; lia|].
  destruct (bad_discrete 26 5 ltac:(lia) ltac:(lia)) as (s1 & s2 & s3 & E1 & E2 & E3).
  unfold rd_section. rewrite (head6_ok 26 5) by lia. apply bind_ub. change (k_rmat sec_26 (head6 26 5) 9228) with 9228. change (k_rmt sec_26 (head6 26 5)) with 5.
  cbn [sec_26 k_read k_mf]. unfold rd_all, rd_sequence. change (i32 (n1 (sbase (head6 26 5)))) with 1.
  erewrite bind_step; [|reflexivity]. change (Z.to_nat 1) with 1%nat. cbn [rd_n]. apply bind_ub.
  unfold rd_product26. rewrite (bind_step _ _ _ _ _ E1). apply bind_ub. change (LAW (xtab1 0 1)) with 1. change (rd_law26 1 9228 26 5) with (bind (rd_law1_26 9228 26 5) (fun q => ret (Continuum26 q))).
  apply bind_ub. unfold rd_law1_26. rewrite (bind_step _ _ _ _ _ E2). erewrite bind_step; [|reflexivity]. apply bind_ub.
  change (rd_while ?r (tn2 (xtab2 1 0)) 9228 26 5) with (rd_n (r 9228 26 5) 3). cbn [rd_n]. apply bind_ub.
  unfold rd_checked. rewrite (bind_step _ _ _ _ _ E3). reflexivity.
Qed.

(** a reaction product is accepted exactly when its multiplicity names the law of its distribution *)
Theorem C49_product : forall m d p, make_product6 m d = Val p <-> p = mkproduct m d /\ as_int (tL2 (tbase m)) (LAW6 d).
Proof.
  intros m d p. unfold make_product6, LAW. rewrite as_int_eq. destruct (Z.eqb_spec (i32 (tL2 (tbase m))) (LAW6 d)).
  - split; [intros [= <-]; auto|intros [-> _]; reflexivity].
  - split; [discriminate|intros [_ ?]; congruence].
Qed.
Theorem C54_product : forall m d p, make_product26 m d = Val p <-> p = mkproduct m d /\ as_int (tL2 (tbase m)) (LAW26 d).
Proof.
  intros m d p. unfold make_product26, LAW. rewrite as_int_eq. destruct (Z.eqb_spec (i32 (tL2 (tbase m))) (LAW26 d)).
  - split; [intros [= <-]; auto|intros [-> _]; reflexivity].
  - split; [discriminate|intros [_ ?]; congruence].
Qed.
(** ** the constructors from parts give back the parts *)
Lemma chunks_rows k : (0 < k)%nat -> forall (rows : list (list real)) fuel, Forall (fun r => length r = k) rows ->
  (length (concat rows) <= fuel)%nat -> chunks fuel k (concat rows) = rows.
Proof.
  intros Hk. induction rows as [|r rows IH]; intros fuel F L; [destruct fuel; reflexivity|].
  inversion F as [|? ? Er F']; subst. cbn [concat] in *. rewrite app_length in L. destruct fuel as [|fuel]; [lia|].
  destruct r as [|x r]; [cbn in Hk; lia|]. change (chunks (S fuel) (length (x :: r)) ((x :: r) ++ concat rows)) with
    (firstn (length (x :: r)) ((x :: r) ++ concat rows) :: chunks fuel (length (x :: r)) (skipn (length (x :: r)) ((x :: r) ++ concat rows))).
  rewrite firstn_app, firstn_all, Nat.sub_diag. cbn [firstn]. rewrite app_nil_r, skipn_app, skipn_all, Nat.sub_diag. cbn [skipn app].
  rewrite IH; [reflexivity|exact F'|cbn in L; lia].
Qed.
Lemma rows1_concat : forall es cs, rows1 es cs = concat (map (fun p => fst p :: snd p) (combine es cs)).
Proof. induction es as [|e es IH]; intros [|c cs]; try reflexivity. cbn [rows1 combine map concat fst snd]. now rewrite IH. Qed.
Lemma rows1_chunks k : (0 < k)%nat -> forall es cs, Forall (fun c => length c = k) cs ->
  chunks (length (rows1 es cs)) (S k) (rows1 es cs) = map (fun p => fst p :: snd p) (combine es cs).
Proof.
  intros Hk es cs F. rewrite rows1_concat. apply chunks_rows; [lia| |reflexivity]. apply Forall_map. rewrite Forall_forall in *. intros [e c] H. cbn. f_equal. apply F. eapply in_combine_r. exact H.
Qed.
Lemma combine_fst {A B} : forall (a : list A) (b : list B), length a = length b -> map fst (combine a b) = a.
Proof. induction a as [|x a IH]; intros [|y b] H; try discriminate; [reflexivity|]. cbn. f_equal. apply IH. now injection H. Qed.
Lemma combine_snd {A B} : forall (a : list A) (b : list B), length a = length b -> map snd (combine a b) = b.
Proof. induction a as [|x a IH]; intros [|y b] H; try discriminate; [reflexivity|]. cbn. f_equal. apply IH. now injection H. Qed.
Lemma concat_nth k (d : real) : forall (rows : list (list real)) i j, Forall (fun r => length r = k) rows -> (j < k)%nat ->
  nth (i * k + j) (concat rows) d = nth j (nth i rows []) d.
Proof.
  induction rows as [|r rows IH]; intros i j F L.
  - cbn. destruct (i * k + j)%nat, i, j; reflexivity.
  - inversion F as [|? ? Er F']; subst. cbn [concat]. destruct i as [|i].
    + cbn [Nat.mul Nat.add nth]. now rewrite app_nth1.
    + cbn [Nat.mul nth]. rewrite app_nth2 by lia. rewrite <- (IH i j F' L). f_equal. lia.
Qed.
Lemma concat_len k : forall (rows : list (list real)), Forall (fun r => length r = k) rows -> length (concat rows) = (length rows * k)%nat.
Proof. induction rows as [|r rows IH]; intros F; [reflexivity|]. inversion F; subst. cbn [concat]. rewrite app_length, IH by assumption. reflexivity. Qed.
Lemma list_ext {A} : forall (a b : list A), (forall i, nth_error a i = nth_error b i) -> a = b.
Proof.
  induction a as [|x a IH]; intros [|y b] H; [reflexivity|discriminate (H 0%nat)|discriminate (H 0%nat)|].
  f_equal; [now injection (H 0%nat)|]. apply IH. intros i. exact (H (Datatypes.S i)).
Qed.
(** the second column: drop one number, then a stride *)
Lemma stride_second k : (1 < k)%nat -> forall rows x, Forall (fun r => length r = k) rows -> concat rows = x :: tl (concat rows) ->
  stride k (tl (concat rows)) = map (fun r => nth 1 r rzero) rows.
Proof.
  intros Hk rows x F E. assert (L := concat_len k rows F). assert (Lt : length (tl (concat rows)) = (length rows * k - 1)%nat) by (rewrite <- L, E; cbn; lia).
  apply list_ext. intros i. rewrite stride_nth by lia. rewrite Lt.
  assert (N : nth (i * k) (tl (concat rows)) rzero = nth (i * k + 1) (concat rows) rzero).
  { rewrite E. rewrite Nat.add_1_r. reflexivity. }
  rewrite N, (concat_nth k) by (auto; lia). destruct (Nat.ltb_spec (i * k) (length rows * k - 1)) as [H|H].
  - assert (Hi : (i < length rows)%nat) by nia. erewrite map_nth_error; [reflexivity|]. now apply nth_error_nth'.
  - symmetry. apply nth_error_None. rewrite map_length. destruct rows as [|r rows]; [cbn; lia|]. nia.
Qed.
(** LAW = 1, Legendre coefficients or a tabulated distribution *)
Theorem C49_legendre : forall energy nd na es cs l, 0 <= na < 2 ^ 31 -> make_leg1 energy nd na es cs = Val l ->
  len es = len cs /\ Forall (fun c => len c = na + 1) cs /\ inv_base1 l
  /\ lC2 l = energy /\ lL1 l = nd /\ lL2 l = na /\ lN2 l = len es
  /\ EP l = es /\ data1 l = cs /\ (es <> [] -> F0 l = Val (map (fun c => nth 0 c rzero) cs)).
Proof.
  intros energy nd na es cs l Hn. unfold make_leg1. destruct (Nat.eqb_spec (length es) (length cs)) as [L|]; [|discriminate].
  destruct (forallb _ cs) eqn:F; [|discriminate]. cbn [negb]. set (l0 := mklist _ _ _ _ _ _). intros E. apply obind_val in E. destruct E as ([] & E & K). injection K as <-.
  apply base1_spec in E. assert (Hu : u32 (1 + u32 na) = na + 1) by (unfold u32; rewrite (Z.mod_small na) by lia; rewrite Z.mod_small by lia; lia).
  rewrite Hu in F. assert (F' : Forall (fun c => length c = Z.to_nat (na + 1)) cs).
  { rewrite forallb_forall in F. apply Forall_forall. intros c H. specialize (F c H). lia. }
  assert (Ek : Z.to_nat (2 + na) = S (Z.to_nat (na + 1))) by lia.
  assert (Ch : chunks (length (lB l0)) (Z.to_nat (2 + lL2 l0)) (lB l0) = map (fun p => fst p :: snd p) (combine es cs)).
  { unfold l0. cbn [lB lL2]. rewrite Ek. apply rows1_chunks; [lia|exact F']. }
  split; [unfold len; lia|]. split; [eapply Forall_impl; [|exact F']; cbv beta; intros c H; unfold len; lia|]. split; [exact E|]. do 4 (split; [reflexivity|]).
  split; [|split].
  - unfold EP, stride. rewrite Ch, map_map. cbn [nth]. rewrite <- (combine_fst es cs L) at 2. apply map_ext. intros []; reflexivity.
  - unfold data1. rewrite Ch, map_map. cbn [tl]. now apply combine_snd.
  - intros Ne. unfold F0. unfold l0 at 1. cbn [lB]. destruct es as [|e es]; [congruence|]. destruct cs as [|c cs]; [discriminate|].
    set (rows := map (fun p => fst p :: snd p) (combine (e :: es) (c :: cs))).
    assert (Er : rows1 (e :: es) (c :: cs) = concat rows) by apply rows1_concat. rewrite Er.
    destruct (concat rows) as [|x r] eqn:Ec; [discriminate|]. f_equal. change (lL2 l0) with na. rewrite Ek.
    change r with (tl (x :: r)). rewrite <- Ec. rewrite (stride_second (Datatypes.S (Z.to_nat (na + 1))) ltac:(lia) rows x).
    + unfold rows. rewrite map_map. cbn [nth]. rewrite <- (combine_snd (e :: es) (c :: cs) L) at 2. rewrite map_map. reflexivity.
    + unfold rows. apply Forall_map. rewrite Forall_forall in *. intros [a b] H. cbn. f_equal. apply F'. eapply in_combine_r. exact H.
    + rewrite Ec. reflexivity.
Qed.

(** LAW = 2 and 5: cosines and probabilities *)
Lemma interleave_rows : forall a b, interleave2 a b = concat (map (fun p => [fst p; snd p]) (combine a b)).
Proof. induction a as [|x a IH]; intros [|y b]; try reflexivity. cbn [interleave2 combine map concat fst snd app]. now rewrite IH. Qed.
Lemma interleave_len : forall a b, length a = length b -> length (interleave2 a b) = (2 * length a)%nat.
Proof. induction a as [|x a IH]; intros [|y b] H; try discriminate; [reflexivity|]. cbn [interleave2 length]. rewrite IH; [lia|now injection H]. Qed.
Lemma stride_first a b : length a = length b -> stride 2 (interleave2 a b) = a.
Proof.
  intros L. unfold stride. rewrite interleave_rows, chunks_rows; [|lia|apply Forall_map, Forall_forall; reflexivity|reflexivity].
  rewrite map_map. cbn [nth]. rewrite <- (combine_fst a b L) at 2. apply map_ext. intros []; reflexivity.
Qed.
Lemma stride_snd a b : length a = length b -> a <> [] -> stride 2 (tl (interleave2 a b)) = b.
Proof.
  intros L Ne. destruct a as [|x a]; [congruence|]. destruct b as [|y b]; [discriminate|]. rewrite interleave_rows.
  rewrite (stride_second 2 ltac:(lia) _ x); [|apply Forall_map, Forall_forall; reflexivity|reflexivity].
  rewrite map_map. cbn [nth]. rewrite <- (combine_snd (x :: a) (y :: b) L) at 2. apply map_ext. intros []; reflexivity.
Qed.
Theorem C49_tabulated : forall ok incident lang cosines probs l, make_tab_cosines ok incident lang cosines probs = Val l ->
  len cosines = len probs /\ ok (i32 lang) = true /\ lC1 l = rzero /\ lC2 l = incident /\ lL1 l = lang /\ lL2 l = 0 /\ lN2 l = len cosines
  /\ tab_cosines l = cosines /\ (cosines <> [] -> tab_probs l = Val probs).
Proof.
  intros ok incident lang cosines probs l. unfold make_tab_cosines. destruct (Nat.eqb_spec (length cosines) (length probs)) as [L|]; [|discriminate]. cbn [negb].
  set (l0 := mklist _ _ _ _ _ _). destruct (ok (i32 lang)) eqn:O; [|discriminate]. intros E. apply obind_val in E. destruct E as ([] & E & K). injection K as <-.
  split; [unfold len; lia|]. split; [reflexivity|]. do 5 (split; [reflexivity|]). unfold tab_cosines, tab_probs, l0. cbn [lB]. split; [now apply stride_first|].
  intros Ne. unfold drop_then_stride2. assert (Li := interleave_len cosines probs L). rewrite Li. destruct cosines as [|x cosines]; [congruence|].
  replace ((1 <? 0) || (Z.of_nat (2 * length (x :: cosines)) <? 1)) with false by (cbn [length]; lia). change (Z.to_nat 1) with 1%nat. f_equal.
  destruct probs as [|y probs]; [discriminate|]. exact (stride_snd (x :: cosines) (y :: probs) L Ne).
Qed.
(** without cosines the getter of the probabilities is undefined *)
Theorem C49_no_cosines_refuted : exists l, make_tab_cosines lang2 r_one 12 [] [] = Val l /\ tab_probs l = Undef.
Proof. eexists. split; reflexivity. Qed.
(** LAW = 5: the amplitudes *)
Theorem C49_amplitudes : forall energy nl b ar ai l, 0 <= nl < 2 ^ 31 - 1 -> make_amplitudes energy nl b ar ai = Val l ->
  len ar = nl + 1 /\ len ai = nl + 1 /\ (len b = nl + 1 \/ len b = 2 * nl + 1) /\ lN2 l = nl /\ lL1 l = 1 /\ lL2 l = 0 /\ lC1 l = rzero /\ lC2 l = energy
  /\ amp_B l = b /\ amp_AR l = Val ar /\ amp_AI l = Val ai.
Proof.
  intros energy nl b ar ai l Hn. unfold make_amplitudes. assert (U1 : u32 (u32 nl + 1) = nl + 1) by (unfold u32; rewrite (Z.mod_small nl) by lia; apply Z.mod_small; lia).
  assert (U2 : u32 (2 * u32 nl + 1) = 2 * nl + 1) by (unfold u32; rewrite (Z.mod_small nl) by lia; apply Z.mod_small; lia). rewrite U1, U2.
  destruct (Z.eqb_spec (Z.of_nat (length ar)) (nl + 1)) as [L1|]; [|discriminate]. destruct (Z.eqb_spec (Z.of_nat (length ai)) (nl + 1)) as [L2|]; [|discriminate]. cbn [negb].
  destruct ((Z.of_nat (length b) =? nl + 1) || _) eqn:L3; [|discriminate]. cbn [negb]. intros E. apply obind_val in E. destruct E as ([] & E & K). injection K as <-.
  assert (Lr : length ar = length ai) by lia. assert (Li := interleave_len ar ai Lr).
  assert (Sp : amp_split (mklist rzero energy 1 0 nl (b ++ interleave2 ar ai)) = Z.of_nat (length b)) by (unfold amp_split, npl; cbn [lB lN2]; rewrite app_length, Li; lia).
  split; [exact L1|]. split; [exact L2|]. split; [unfold len; lia|]. do 5 (split; [reflexivity|]).
  unfold amp_B, amp_AR, amp_AI, drop_then_stride2. rewrite Sp. cbn [lB]. rewrite !app_length, Li. split; [|split].
  - rewrite Nat2Z.id, firstn_app, firstn_all, Nat.sub_diag. cbn [firstn]. apply app_nil_r.
  - replace (_ || _) with false by lia. rewrite Nat2Z.id, skipn_app, skipn_all, Nat.sub_diag. cbn [skipn app]. f_equal. now apply stride_first.
  - replace (_ || _) with false by lia. replace (Z.to_nat (Z.of_nat (length b) + 1)) with (length b + 1)%nat by lia.
    rewrite skipn_app, skipn_all2 by lia. replace (length b + 1 - length b)%nat with 1%nat by lia. cbn [app]. f_equal.
    destruct ar as [|x ar]; [cbn in L1; lia|]. destruct ai as [|y ai]; [discriminate|]. exact (stride_snd (x :: ar) (y :: ai) Lr ltac:(discriminate)).
Qed.
(** an order of -1 is accepted; the imaginary amplitudes are then undefined *)
Theorem C49_amplitudes_refuted : exists l, make_amplitudes r_one (-1) [] [] [] = Val l /\ inv_law5 l /\ amp_AI l = Undef.
Proof.
  eexists. split; [reflexivity|]. split; [|reflexivity]. left. split; [reflexivity|]. exists (-1), 0. cbn [lN2 lB]. unfold len. cbn [length].
  split; [ai|]. split; [ai|]. split; [split; lia|]. split; [split; lia|]. left. reflexivity.
Qed.
(** LAW = 5: Legendre coefficients, one more than the order *)
Theorem C49_legendre5 : forall energy cs l, make_leg5 energy cs = Val l ->
  lC1 l = rzero /\ lC2 l = energy /\ lL1 l = 2 /\ lL2 l = 0 /\ lN2 l = len cs - 1 /\ lB l = cs.
Proof. intros energy cs l E. unfold make_leg5 in E. apply obind_val in E. destruct E as ([] & _ & K). injection K as <-. repeat split. Qed.
(** LAW = 1: the reader computes energies before it verifies anything, which is undefined for NA <= -2, for a negative ND
    and for more discrete energies than there are energies; so are sizes that do not fit an int *)
Theorem C49_law1_undefined : forall lang l, In lang [1; 2; 11; 12; 13; 14; 15] ->
  check1 lang l = Undef <->
    lL2 l <= -2 \/ lL1 l < 0 \/ (0 < lL1 l /\ len (lB l) <= (lL1 l - 1) * (lL2 l + 2))
    \/ (energies_ok l /\ (~ int32 (i32 (lL2 l) + 2) \/ ~ int32 (i32 (lN2 l) * (i32 (lL2 l) + 2)))).
Proof.
  intros lang l Hl. assert (B : check1 lang l = Undef <-> base1 l = Undef).
  { cbn [In] in Hl. unfold check1. destruct Hl as [<-|[<-|[<-|[<-|[<-|[<-|[<-|[]]]]]]]]; try reflexivity. change (lang_base 2) with false. change (2 =? 2) with true. cbn iota. unfold kalbach1, ensure. destruct (base1 l); cbn [obind]; [destruct (_ || _); split; discriminate|split; discriminate|reflexivity]. }
  rewrite B. clear B Hl lang. assert (D := drop_ok_spec l). unfold base1. destruct (Z.leb_spec (2 + lL2 l) 0) as [H|H]; [split; [left; lia|reflexivity]|].
  destruct ((lL1 l <? 0) || (Z.of_nat (length (EP l)) <? lL1 l)) eqn:E.
  - split; [|reflexivity]. intros _. assert (N : ~ drop_ok l) by (intros K; apply D in K; destruct K; discriminate). unfold drop_ok in N. destruct (Z.ltb_spec (lL1 l) 0); [now right; left|]. right; right; left.
    assert (K : ~ (lL1 l = 0 \/ (lL1 l - 1) * (lL2 l + 2) < len (lB l))) by (intros K; apply N; repeat split; [lia|lia|exact K]). lia.
  - assert (O : drop_ok l) by (apply D; auto). assert (Se := energies_ok_spec l O). destruct O as (O1 & O2 & O3).
    assert (I : forall z, in32 z = true <-> int32 z) by (intros z; unfold in32, int32; lia).
    assert (Z1 : size1 l = Undef <-> ~ int32 (i32 (lL2 l) + 2) \/ ~ int32 (i32 (lN2 l) * (i32 (lL2 l) + 2))).
    { unfold size1, int_op. rewrite <- !I. destruct (in32 (i32 (lL2 l) + 2)) eqn:E1; cbn [obind]; [|split; [left; discriminate|reflexivity]]. destruct (in32 (i32 (lN2 l) * (i32 (lL2 l) + 2))) eqn:E2; cbn [obind]; [|split; [right; discriminate|reflexivity]].
      unfold ensure. destruct (_ =? _); split; intros K; try discriminate; destruct K; congruence. }
    destruct (is_sorted rlt (skipn (Z.to_nat (lL1 l)) (EP l))) eqn:Es.
    + rewrite Z1. assert (Y : energies_ok l) by (apply Se; reflexivity). split; [right; right; right; auto|]. intros [K|[K|[K|K]]]; [lia|lia|lia|tauto].
    + split; [discriminate|]. intros [K|[K|[K|(K & _)]]]; [lia|lia|lia|]. apply Se in K. discriminate.
Qed.
Example C49_law1_undefined_example : check1 1 (xlist 0 (-2) 1 [r_one]) = Undef /\ check1 1 (xlist 2 0 1 [r_one; r_pi]) = Undef /\ check1 11 (xlist (-1) 0 1 [r_one; r_pi]) = Undef.
Proof. repeat split; vm_compute; reflexivity. Qed.
Theorem C49_no_coefficients : exists l, make_leg5 r_one [] = Val l /\ lN2 l = -1.
Proof. eexists. split; reflexivity. Qed.
(** a LIST record without values gives no zero order coefficients: undefined *)
Theorem C49_no_energies_refuted : exists l, make_leg1 r_one 0 0 [] [] = Val l /\ F0 l = Undef.
Proof. eexists. split; reflexivity. Qed.
(** and these constructors do accept: the hypotheses above are met *)
Example C49_example_legendre : exists l, make_leg1 r_one 0 1 [r_tiny; r_one] [[r_one; r_pi]; [r_pi; r_one]] = Val l.
Proof. eexists. vm_compute. reflexivity. Qed.
Example C49_example_amplitudes : exists l, make_amplitudes r_one 1 [r_one; r_pi; r_one] [r_pi; r_tiny] [r_one; r_one] = Val l.
Proof. eexists. vm_compute. reflexivity. Qed.
Example C49_example_tabulated : exists l, make_tab_cosines ltp5 r_one 15 [r_tiny; r_one] [r_one; r_pi] = Val l.
Proof. eexists. vm_compute. reflexivity. Qed.
(** a distribution given elsewhere (a negative LAW) is constructed for any section, but
    only section 18 can be read with it *)
Theorem C49_elsewhere_refuted : exists m d p, make_product6 m d = Val p /\ rep_product rep_law6 p /\ inv_product LAW6 inv_law6 p
  /\ forall h mat s x s', rd_section sec_6 h mat s = Ok x s' -> In p (products6 (s_body x)) -> s_mt x = 18.
Proof.
  exists (xtab1 0 (-5)), (Elsewhere (-5)). eexists. split; [reflexivity|]. split; [split; [cbn [p_mult]; xt|exact Logic.I]|].
  split; [split; [cbn [p_mult]; xt|split; [cbn [p_mult p_law xtab1 xtab2 tbase tL2 LAW6]; ai|cbn; lia]]|].
  intros h mat s x s' E H. destruct (sc_sound _ _ _ rt_6 _ _ _ _ _ E) as (_ & _ & _ & _ & _ & _ & _ & _ & A & _).
  unfold allowed in A. cbn [sec_6 k_for] in A. unfold fission_only in A. rewrite Forall_forall in A. specialize (A _ H). cbn in A. apply A. lia.
Qed.
