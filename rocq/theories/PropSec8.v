(** PropSec8.v -- C51: File 8, fission yields and decay data. *)
From Coq Require Import ZifyBool ZifyNat QArith.
From Verif Require Import Base Disco DiscoProofs Records RecordProofs RecordRT RecordSound Layout Normal LineFacts RealRound RealProofs Spec Sections SecSpec Codec SectionProofs SecKit CodecKit
  PropRecords Sec9 Sec9Spec Sec9Proofs Sec6 Sec6Spec Sec6Proofs Sec6Safe Sec33 Sec33Spec Sec33Proofs Sec33Safe ExKit PropSec6 PropSec33 Sec8 Sec8Spec Sec8Proofs.
Open Scope Z_scope.

Theorem C51_mf8_454 : section_rt sec_8_454 (Forall endf_list) (many_of inv_yield).
Proof. apply rt_yields. lia. Qed.
Theorem C51_mf8_459 : section_rt sec_8_459 (Forall endf_list) (many_of inv_yield).
Proof. apply rt_yields. lia. Qed.
Theorem C51_mf8_457 : section_rt sec_8_457 rep_decay8 inv_decay8.
Proof. exact rt_457. Qed.
Theorem C51_mf8_454_safe : forall h mat s, int32 (round_int (c1 (sbase h))) -> tame_yields 454 (buf s) -> never_other (rd_section sec_8_454 h mat s).
Proof. intros h mat s. apply safe_yields. Qed.
Theorem C51_mf8_459_safe : forall h mat s, int32 (round_int (c1 (sbase h))) -> tame_yields 459 (buf s) -> never_other (rd_section sec_8_459 h mat s).
Proof. intros h mat s. apply safe_yields. Qed.
Theorem C51_mf8_457_safe : forall h mat s, int32 (round_int (c1 (sbase h))) -> tame457 (buf s) -> never_other (rd_section sec_8_457 h mat s).
Proof. exact safe_457. Qed.

(** ** instances *)
Definition xyield (i : Z) : listr := xlist i 0 2 [r_one; r_tiny; r_pi; r_one; r_pi; r_tiny; r_one; r_one].
Lemma ex_yields : Forall endf_list [xyield 1; xyield 2] /\ many_of inv_yield [xyield 1; xyield 2].
Proof.
  split; [constructor; [unfold xyield; xt|constructor; [unfold xyield; xt|constructor]]|]. split; [|unfold len; cbn; lia].
  constructor; [|constructor; [|constructor]]; unfold inv_yield, xyield; xv 2 8.
Qed.
Example C51_example_454 : meets sec_8_454 (Forall endf_list) (many_of inv_yield) (mksect 92235 r_pi 454 [xyield 1; xyield 2]).
Proof. xids; [split; [cbn; reflexivity|exact Logic.I]|]. apply ex_yields. Qed.
Example C51_example_459 : meets sec_8_459 (Forall endf_list) (many_of inv_yield) (mksect 92235 r_pi 459 [xyield 1; xyield 2]).
Proof. xids; [split; [cbn; reflexivity|exact Logic.I]|]. apply ex_yields. Qed.
Definition xavg := xlist 0 0 0 [r_one; r_tiny; r_pi; r_one; r_pi; r_tiny].
Definition xmodes := xlist 0 0 2 [r_one; r_tiny; r_pi; r_one; r_pi; r_tiny; r_one; r_tiny; r_pi; r_one; r_pi; r_tiny].
Definition xspec0 := mkspec8 (xlist 0 0 2 [r_one; r_tiny; r_pi; r_one; r_pi; r_tiny])
  [xlist 0 0 0 [r_one; r_tiny; r_pi; r_one]; xlist 0 0 0 [r_one; r_tiny; r_pi; r_one; r_pi; r_tiny]] None.
Definition xspec1 := mkspec8 (xlist 1 0 0 [r_one; r_tiny; r_pi; r_one; r_pi; r_tiny]) [] (Some (xtab1 0 0)).
Definition xspec2 := mkspec8 (xlist 2 0 1 [r_one; r_tiny; r_pi; r_one; r_pi; r_tiny])
  [xlist 0 0 0 [r_one; r_tiny; r_pi; r_one; r_pi; r_tiny; r_one; r_tiny; r_pi; r_one; r_pi; r_tiny]] (Some (xtab1 0 0)).
Definition xdecay8 := mkdecay8 1 2 xavg xmodes [xspec0; xspec1; xspec2].
Ltac nai := rewrite as_int_eq; reflexivity.
Lemma not_as z n : i32 z <> n -> as_int z n -> False. Proof. rewrite as_int_eq. auto. Qed.
Lemma ex_disc l : len (lB l) = 4 \/ len (lB l) = 6 \/ len (lB l) = 12 -> inv_discrete l.
Proof. intros H. exists (len (lB l)). split; [apply as_int_self; unfold int32; lia|exact H]. Qed.
Lemma ex_decay8 : rep_decay8 xdecay8 /\ inv_decay8 xdecay8.
Proof.
  split.
  - unfold rep_decay8. cbn [xdecay8 d_energies d_modes d_spectra]. split; [unfold xavg; xt|]. split; [unfold xmodes; xt|].
    constructor; [|constructor; [|constructor; [|constructor]]]; unfold rep_spectrum8; cbn [xspec0 xspec1 xspec2 sp_data sp_discrete sp_cont].
    + split; [xt|]. split; [constructor; [xt|constructor; [xt|constructor]]|discriminate].
    + split; [xt|]. split; [constructor|intros t E; injection E as <-; xt].
    + split; [xt|]. split; [constructor; [xt|constructor]|intros t E; injection E as <-; xt].
  - unfold inv_decay8. cbn [xdecay8 d_lis d_liso d_energies d_modes d_spectra]. split; [lia|]. split; [lia|].
    split; [exists 3; split; [unfold xavg; cbn; nai|auto]|]. split; [unfold inv_modes, xmodes; xv 2 12|]. split; [|unfold len; cbn; lia].
    constructor; [|constructor; [|constructor; [|constructor]]]; unfold inv_spectrum8; cbn [xspec0 xspec1 xspec2 sp_data sp_discrete sp_cont xlist lN2 lL1 lL2].
    + split; [unfold len; cbn [length]; nai|]. split; [constructor; [|constructor; [|constructor]]; apply ex_disc; cbn; auto|]. split; [split; [reflexivity|intros; nai]|].
      split; [discriminate|]. split; [discriminate|nai].
    + split; [unfold len; cbn [length]; nai|]. split; [constructor|]. split; [split; [intros K; exfalso; revert K; apply not_as; discriminate|discriminate]|].
      split; [intros t E; injection E as <-; xt|]. split; [intros K; exfalso; revert K; apply not_as; discriminate|nai].
    + split; [unfold len; cbn [length]; nai|]. split; [constructor; [|constructor]; apply ex_disc; cbn; auto|]. split; [split; [intros K; exfalso; revert K; apply not_as; discriminate|discriminate]|].
      split; [intros t E; injection E as <-; xt|]. split; [discriminate|nai].
Qed.
Example C51_example_457 : meets sec_8_457 rep_decay8 inv_decay8 (mksect 92235 r_pi 457 xdecay8).
Proof. xids; [split; [cbn; reflexivity|exact Logic.I]|]. apply ex_decay8. Qed.

(** ** undefined behaviour is reachable: a count of 2 ^ 30 *)
Definition head8 (mt : Z) : sdiv := mksdiv (mkcont r_one r_one 1 0 0 0) 9228 8 mt.
Definition huge := xlist 0 0 1073741824 [r_one; r_one; r_one; r_one].
Lemma huge_ok : endf_list huge. Proof. unfold huge. xt. Qed.
Lemma head8_ok {A} mt (f : Z * real -> M A) s : bind (sec_head false false (head8 mt) 9228 8) f s = f (1, r_one) s.
Proof.
  unfold bind, sec_head, head_za32, lift, require, bind. cbv zeta. cbn [head8 sbase c1 c2 smt smat smf]. rewrite round_one.
  change (rlt r_one rzero) with false. reflexivity.
Qed.
Lemma good8 mt : 0 < mt < 1000 -> good_tail 9228 8 mt.
Proof. intros H. split; [|split]; unfold in_cols; cbn; lia. Qed.
Lemma reads8 mt l ln rest : 0 < mt < 1000 -> endf_list l -> rd_list 9228 8 mt (mkst (pr_list l 9228 8 mt ++ rest) ln) = Ok l (mkst rest (ln + nc_list l)).
Proof. intros H R. exact (co_reads _ _ _ _ _ cod_list 9228 8 mt l (good8 mt H) R Logic.I rest ln). Qed.
Theorem C51_undefined_reachable_454 : exists h s, int32 (round_int (c1 (sbase h))) /\ rd_section sec_8_454 h 9228 s = UB.
Proof.
  exists (head8 454), (mkst (pr_list huge 9228 8 454 ++ []) 0). split; [cbn [head8 sbase c1]; rewrite round_one; split; lia|].
  unfold rd_section. rewrite (head8_ok 454). apply bind_ub. change (k_rmat sec_8_454 (head8 454) 9228) with 9228. change (k_rmt sec_8_454 (head8 454)) with 454.
  cbn [sec_8_454 sec_yields k_read k_mf]. unfold rd_all, rd_sequence. change (i32 (l1 (sbase (head8 454)))) with 1. erewrite bind_step; [|reflexivity]. change (Z.to_nat 1) with 1%nat. cbn [rd_n].
  apply bind_ub. unfold rd_checked. rewrite (bind_step _ _ _ _ _ (reads8 454 huge 0 [] ltac:(lia) huge_ok)). reflexivity.
Qed.
Theorem C51_undefined_reachable_457 : exists h s, int32 (round_int (c1 (sbase h))) /\ rd_section sec_8_457 h 9228 s = UB.
Proof.
  exists (head8 457), (mkst (pr_list xavg 9228 8 457 ++ pr_list huge 9228 8 457 ++ []) 0). split; [cbn [head8 sbase c1]; rewrite round_one; split; lia|].
  unfold rd_section. rewrite (head8_ok 457). apply bind_ub. change (k_rmat sec_8_457 (head8 457) 9228) with 9228. change (k_rmt sec_8_457 (head8 457)) with 457.
  cbn [sec_8_457 k_read k_mf]. unfold rd_decay8. erewrite bind_step.
  2:{ unfold rd_checked. rewrite (bind_step _ _ _ _ _ (reads8 457 xavg 0 _ ltac:(lia) ltac:(unfold xavg; xt))). reflexivity. }
  apply bind_ub. unfold rd_checked. rewrite (bind_step _ _ _ _ _ (reads8 457 huge _ [] ltac:(lia) huge_ok)). reflexivity.
Qed.

(** ** fission yields: what the constructor stores is what the accessors return *)
Definition row4 (p : Z * Z * (real * real)) : list real := [of_int (fst (fst p)); of_int (snd (fst p)); fst (snd p); snd (snd p)].
Lemma rows4_concat : forall ids st ys, rows4 ids st ys = concat (map row4 (combine (combine ids st) ys)).
Proof.
  induction ids as [|i ids IH]; intros [|s st] [|[y dy] ys]; try reflexivity. cbn [rows4 combine map concat row4 fst snd app]. now rewrite IH.
Qed.
Lemma combine3_ids : forall (ids st : list Z) (ys : list (real * real)), length ids = length st -> length ids = length ys ->
  map (fun p => fst (fst p)) (combine (combine ids st) ys) = ids /\ map (fun p => snd (fst p)) (combine (combine ids st) ys) = st /\ map snd (combine (combine ids st) ys) = ys.
Proof.
  induction ids as [|i ids IH]; intros [|s st] [|y ys] A B; try discriminate; [auto|]. injection A as A. injection B as B.
  destruct (IH st ys A B) as (E1 & E2 & E3). cbn [combine map fst snd]. now rewrite E1, E2, E3.
Qed.
Lemma rows4_forall l : Forall (fun r => length r = 4%nat) (map row4 l).
Proof. apply Forall_map, Forall_forall. reflexivity. Qed.
Lemma every_even : forall (rows : list (list real)) f, Forall (fun r => length r = 4%nat) rows -> (length (concat rows) <= f + 2)%nat ->
  every_other (chunks f 2 (skipn 2 (concat rows))) = map (fun r => [nth 2 r rzero; nth 3 r rzero]) rows.
Proof.
  induction rows as [|r rows IH]; intros f F L; [destruct f; reflexivity|].
  inversion F as [|? ? F1 F2]; subst. destruct r as [|a [|b [|c [|d [|]]]]]; try discriminate F1. cbn [concat app length skipn map nth] in *.
  destruct f as [|f]; [lia|]. cbn [chunks]. cbn [firstn skipn].
  destruct rows as [|r2 rows]; [cbn [concat]; destruct f; reflexivity|].
  specialize (IH (pred f) F2). inversion F2 as [|? ? F3 F4]; subst. destruct r2 as [|a2 [|b2 [|c2 [|d2 [|]]]]]; try discriminate F3. cbn [concat app length skipn map nth] in *.
  destruct f as [|f]; [lia|]. cbn [chunks firstn skipn every_other pred] in *. rewrite IH; [reflexivity|lia].
Qed.
Lemma trunc_of_int z : 0 <= z < 2 ^ 53 -> trunc (of_int z) = z.
Proof.
  intros H. destruct (Z.eq_dec z 0) as [->|Hz]; [reflexivity|]. destruct (of_int_exact z ltac:(lia)) as (m & e & -> & Hm & V).
  replace (z <? 0) with false by lia. unfold trunc, rsig. cbn [rneg rman rexp]. cbv iota. rewrite Z.abs_eq in V by lia. destruct (Z.leb_spec 0 e) as [E|E].
  - rewrite bp_int, <- inject_Z_mult in V by lia. exact (proj1 (inject_Z_injective _ _) V).
  - assert (V2 : (inject_Z m == inject_Z z * bp 2 (- e))%Q) by (rewrite <- V, <- Qmult_assoc, <- bp_plus by lia; replace (e + - e) with 0 by lia; rewrite bp0; ring).
    rewrite bp_int, <- inject_Z_mult in V2 by lia. apply (proj1 (inject_Z_injective _ _)) in V2. rewrite V2. rewrite Z.quot_mul; [reflexivity|]. assert (0 < 2 ^ - e) by (apply Z.pow_pos_nonneg; lia). lia.
Qed.
Lemma cast_unsigned_of z : 0 <= z < 2 ^ 32 -> cast_unsigned (of_int z) = Val z.
Proof. intros H. unfold cast_unsigned. rewrite trunc_of_int by lia. cbv zeta. replace (_ && _) with true by lia. reflexivity. Qed.
Theorem C51_yield : forall ids states ys energy interpolation l, len ids < 2 ^ 32 -> make_yield ids states ys energy interpolation = Val l ->
  length states = length ids /\ length ys = length ids /\ inv_yield l
  /\ lC1 l = energy /\ lL1 l = interpolation
  /\ fy_ZAFP l = Val (map of_int ids) /\ (ids <> [] -> fy_FPS l = Val (map of_int states) /\ fy_Y l = Val (map (fun y => [fst y; snd y]) ys))
  /\ (Forall (fun z => 0 <= z < 2 ^ 32) ids -> map fp_ZAFP (fission_products l) = map Val ids)
  /\ (Forall (fun z => 0 <= z < 2 ^ 32) states -> map fp_FPS (fission_products l) = map Val states)
  /\ map fp_Y (fission_products l) = ys.
Proof.
  intros ids st ys energy interp l Hn E. unfold make_yield in E. cbv zeta in E. rewrite u32_id in E by (unfold len in Hn; lia).
  destruct (Z.eqb_spec (Z.of_nat (length st)) (Z.of_nat (length ids))) as [L1|]; [|discriminate]. destruct (Z.eqb_spec (Z.of_nat (length ys)) (Z.of_nat (length ids))) as [L2|]; [|discriminate].
  cbn [negb orb] in E. apply obind_val in E. destruct E as ([] & E & K). injection K as <-. apply check_yield_spec in E. apply Nat2Z.inj in L1, L2.
  destruct (combine3_ids ids st ys (eq_sym L1) (eq_sym L2)) as (M1 & M2 & M3).
  set (cs := combine (combine ids st) ys) in *. assert (B : rows4 ids st ys = concat (map row4 cs)) by apply rows4_concat.
  assert (Fr := rows4_forall cs). assert (Lb := concat_len 4 _ Fr). rewrite map_length in Lb.
  split; [exact L1|]. split; [exact L2|]. split; [exact E|]. split; [reflexivity|]. split; [reflexivity|].
  assert (Z0 : fy_ZAFP (mklist energy rzero interp 0 (Z.of_nat (length ids)) (rows4 ids st ys)) = Val (map of_int ids)).
  { unfold fy_ZAFP, fy_column, drop_exactly. cbn [lB]. rewrite B. replace ((0 <? 0) || (Z.of_nat (length (concat (map row4 cs))) <? 0)) with false by lia. cbn [obind Z.to_nat skipn]. f_equal. unfold stride.
    rewrite chunks_rows; [|lia|exact Fr|lia]. rewrite map_map. cbn [nth row4]. rewrite <- M1 at 1. now rewrite map_map. }
  split; [exact Z0|].
  assert (Pr : fission_products (mklist energy rzero interp 0 (Z.of_nat (length ids)) (rows4 ids st ys)) = map row4 cs).
  { unfold fission_products. cbn [lB]. rewrite B. apply chunks_rows; [lia|exact Fr|lia]. }
  rewrite Pr. split; [|split; [|split]].
  - intros Ne. assert (Hc : cs <> []) by (intros Hc; rewrite Hc in M1; cbn in M1; congruence).
    assert (Lc : (4 <= length (concat (map row4 cs)))%nat) by (destruct cs; [congruence|cbn [length] in Lb; lia]).
    split.
    + unfold fy_FPS, fy_column, drop_exactly. cbn [lB]. rewrite B. replace (_ || _) with false by lia. change (Z.to_nat 1) with 1%nat. cbn [obind]. f_equal.
      assert (Ex : exists x, concat (map row4 cs) = x :: tl (concat (map row4 cs))) by (destruct (concat (map row4 cs)); [cbn in Lc; lia|eexists; reflexivity]). destruct Ex as [x Ex].
      change (skipn 1 (concat (map row4 cs))) with (tl (concat (map row4 cs))). rewrite (stride_second 4 ltac:(lia) _ x Fr Ex). rewrite map_map. cbn [nth row4]. rewrite <- M2 at 1. now rewrite map_map.
    + unfold fy_Y, drop_exactly. cbn [lB]. rewrite B. replace (_ || _) with false by lia. change (Z.to_nat 2) with 2%nat. cbn [obind]. f_equal.
      rewrite every_even; [|exact Fr|rewrite skipn_length; lia]. rewrite map_map. cbn [nth row4]. rewrite <- M3 at 1. now rewrite map_map.
  - intros F. rewrite <- M1 in F. rewrite Forall_map in F. rewrite <- M1, !map_map. apply map_ext_in. intros p Hp. unfold fp_ZAFP. cbn [nth row4]. apply cast_unsigned_of.
    rewrite Forall_forall in F. exact (F p Hp).
  - intros F. rewrite <- M2 in F. rewrite Forall_map in F. rewrite <- M2, !map_map. apply map_ext_in. intros p Hp. unfold fp_FPS. cbn [nth row4]. apply cast_unsigned_of.
    rewrite Forall_forall in F. exact (F p Hp).
  - rewrite map_map. rewrite <- M3. apply map_ext. intros [[i s] [y dy]]. reflexivity.
Qed.
Example C51_example_yield : exists l, make_yield [92235; 94239] [0; 1] [(r_one, r_tiny); (r_pi, r_one)] r_tiny 2 = Val l.
Proof. eexists. reflexivity. Qed.
(** the constructor accepts every consistent input of moderate size *)
Theorem C51_yield_accepts : forall ids states ys energy interpolation, len ids < 2 ^ 28 -> length states = length ids -> length ys = length ids ->
  exists l, make_yield ids states ys energy interpolation = Val l.
Proof.
  intros ids st ys energy interp Hn L1 L2. unfold make_yield. cbv zeta. rewrite u32_id by (unfold len in Hn; lia). rewrite L1, L2, Z.eqb_refl. cbn [negb orb].
  destruct (check_yield _) as [u|e|] eqn:E; [eexists; reflexivity|..]; exfalso.
  all: assert (V : check_yield (mklist energy rzero interp 0 (Z.of_nat (length ids)) (rows4 ids st ys)) = Val tt); [|congruence].
  all: apply check_yield_spec; exists (len ids), (4 * len ids); cbn [lN2 lB].
  all: destruct (combine3_ids ids st ys (eq_sym L1) (eq_sym L2)) as (M1 & _ & _).
  all: assert (Lb := concat_len 4 _ (rows4_forall (combine (combine ids st) ys))); rewrite <- rows4_concat, map_length in Lb.
  all: assert (Lc : length (combine (combine ids st) ys) = length ids) by (rewrite <- M1 at 2; now rewrite map_length).
  all: unfold len in *; split; [apply as_int_self; unfold int32; lia|]; split; [|reflexivity]; rewrite Lb, Lc;
    replace (Z.of_nat (length ids * 4)) with (4 * Z.of_nat (length ids)) by lia; apply as_int_self; unfold int32; lia.
Qed.
(** ** yields at several energies *)
Lemma all_val_spec {A} : forall (os : list (out A)) ls, all_val os = Val ls -> Forall2 (fun o l => o = Val l) os ls.
Proof.
  induction os as [|o os IH]; intros ls E; cbn [all_val] in E; [injection E as <-; constructor|].
  apply obind_val in E. destruct E as (a & -> & E). apply obind_val in E. destruct E as (b & E1 & E). injection E as <-. constructor; auto.
Qed.
Lemma Forall2_seq {A} (f : nat -> out A) : forall n a ls, Forall2 (fun o l => o = Val l) (map f (seq a n)) ls ->
  length ls = n /\ forall i d, (i < n)%nat -> f (a + i)%nat = Val (nth i ls d).
Proof.
  induction n as [|n IH]; intros a ls F; cbn [seq map] in F.
  - inversion F; subst. split; [reflexivity|]. intros; lia.
  - inversion F as [|? l ? ls' F1 F2]; subst. destruct (IH (Datatypes.S a) ls' F2) as [L H]. split; [cbn; lia|]. intros [|i] d Hi.
    + now rewrite Nat.add_0_r.
    + cbn [nth]. rewrite <- (H i d) by lia. f_equal. lia.
Qed.
(** the i-th energy, the i-th yields of each product; the first record gives the number of further
    energies, each other the interpolation to its energy *)
Theorem C51_yields : forall ids states es ints ys ls, len ids < 2 ^ 32 -> len es < 2 ^ 32 -> make_yields ids states es ints ys = Val ls ->
  len es = len ints + 1 /\ length states = length ids /\ length ys = length ids /\ Forall (fun y => length y = length es) ys
  /\ length ls = length es /\ Forall inv_yield ls
  /\ (forall i d, (i < length es)%nat -> let l := nth i ls d in
        lC1 l = nth i es rzero /\ as_int (match i with O => len es - 1 | S j => nth j ints 0 end) (fy_I l)
        /\ fy_ZAFP l = Val (map of_int ids)
        /\ (ids <> [] -> fy_FPS l = Val (map of_int states) /\ fy_Y l = Val (map (fun y => let v := nth i y (rzero, rzero) in [fst v; snd v]) ys))).
Proof.
  intros ids st es ints ys ls Hi He E. unfold make_yields in E. cbv zeta in E. rewrite !u32_id in E by (unfold len in *; lia).
  destruct (Z.eqb_spec (Z.of_nat (length es)) (Z.of_nat (length ints) + 1)) as [L1|]; [|discriminate].
  destruct (Z.eqb_spec (Z.of_nat (length ids)) (Z.of_nat (length st))) as [L2|]; [|discriminate].
  destruct (Z.eqb_spec (Z.of_nat (length ids)) (Z.of_nat (length ys))) as [L3|]; [|discriminate]. cbn [negb orb] in E.
  destruct (forallb _ ys) eqn:Fy; [|discriminate]. cbn [negb] in E. rewrite Nat2Z.id in E. apply all_val_spec, Forall2_seq in E. destruct E as [L E].
  split; [exact L1|]. split; [lia|]. split; [lia|]. split; [rewrite forallb_forall in Fy; apply Forall_forall; intros y Hy; specialize (Fy y Hy); lia|].
  split; [exact L|].
  assert (G : forall i d, (i < length es)%nat -> inv_yield (nth i ls d) /\ (let l := nth i ls d in
        lC1 l = nth i es rzero /\ as_int (match i with O => len es - 1 | S j => nth j ints 0 end) (fy_I l)
        /\ fy_ZAFP l = Val (map of_int ids)
        /\ (ids <> [] -> fy_FPS l = Val (map of_int st) /\ fy_Y l = Val (map (fun y => let v := nth i y (rzero, rzero) in [fst v; snd v]) ys)))).
  { intros i d Li. specialize (E i d Li). cbn [Nat.add] in E. apply C51_yield in E; [|exact Hi]. destruct E as (_ & _ & K1 & K2 & K3 & K4 & K5 & _).
    split; [exact K1|]. cbv zeta. split; [exact K2|]. split; [|split; [exact K4|intros N; specialize (K5 N); unfold yields_at in K5; rewrite map_map in K5; exact K5]].
    unfold fy_I. rewrite K3. unfold interp_at. rewrite i32_id by apply i32_range. apply as_int_i32. }
  split; [|intros i d Li; apply (G i d Li)].
  apply Forall_forall. intros l Hl. apply (In_nth _ _ l) in Hl. destruct Hl as (i & Li & <-). apply (G i l). lia.
Qed.
Example C51_example_yields : exists ls, make_yields [92235; 94239] [0; 1] [r_tiny; r_one] [2]
  [[(r_one, r_tiny); (r_pi, r_one)]; [(r_pi, r_tiny); (r_one, r_one)]] = Val ls.
Proof. eexists. reflexivity. Qed.

(** ** decay data from parts *)
Lemma join_concat es : join_pairs es = concat (map (fun e => [fst e; snd e]) es).
Proof. unfold join_pairs. apply flat_map_concat_map. Qed.
Theorem C51_energies : forall t es l, make_energies t es = Val l ->
  inv_energies l /\ (lC1 l, lC2 l) = t /\ decay_energies l = map (fun e => [fst e; snd e]) es.
Proof.
  intros [t dt] es l E. unfold make_energies in E. apply obind_val in E. destruct E as ([] & E & K). injection K as <-. apply check_energies_spec in E.
  split; [exact E|]. split; [reflexivity|]. unfold decay_energies. cbn [lB]. rewrite join_concat. apply chunks_rows; [lia|apply Forall_map, Forall_forall; reflexivity|lia].
Qed.
Theorem C51_energies_accepts : forall t es, (length es = 3 \/ length es = 17)%nat -> exists l, make_energies t es = Val l.
Proof.
  intros [t dt] es H. unfold make_energies. assert (V : check_energies (mklist t dt 0 0 0 (join_pairs es)) = Val tt).
  { apply check_energies_spec. exists (len es). assert (L : len (join_pairs es) = len es * 2).
    { unfold len. rewrite join_concat, (concat_len 2), map_length by (apply Forall_map, Forall_forall; reflexivity). lia. }
    cbn [lB]. rewrite L, Z.div_mul by lia. unfold len in *. split; [apply as_int_self; unfold int32; lia|lia]. }
  cbn [fst snd]. rewrite V. eexists. reflexivity.
Qed.
Lemma modes_concat ms : flat_map mode_row ms = concat (map mode_row ms).
Proof. apply flat_map_concat_map. Qed.
Lemma mode_rows ms : Forall (fun r => length r = 6%nat) (map mode_row ms).
Proof. apply Forall_map, Forall_forall. reflexivity. Qed.
Theorem C51_modes : forall spin parity ms l, make_modes spin parity ms = Val l ->
  inv_modes l /\ lC1 l = spin /\ lC2 l = parity /\ decay_modes l = ms /\ (len ms < 2 ^ 31 -> NDK l = len ms).
Proof.
  intros sp pa ms l E. unfold make_modes in E. apply obind_val in E. destruct E as ([] & E & K). injection K as <-. apply check_modes_spec in E.
  split; [exact E|]. split; [reflexivity|]. split; [reflexivity|]. split; [|intros H; unfold NDK; cbn [lN2]; apply i32_id, int32_len, H].
  unfold decay_modes. cbn [lB]. rewrite modes_concat, chunks_rows; [|lia|apply mode_rows|lia]. rewrite map_map. rewrite <- (map_id ms) at 2. apply map_ext. intros [a b [c d] [e f]]. reflexivity.
Qed.
Theorem C51_modes_accepts : forall spin parity ms, 0 < len ms < 2 ^ 28 -> exists l, make_modes spin parity ms = Val l.
Proof.
  intros sp pa ms H. unfold make_modes. assert (V : check_modes (mklist sp pa 0 0 (Z.of_nat (length ms)) (flat_map mode_row ms)) = Val tt).
  { apply check_modes_spec. exists (len ms), (6 * len ms). cbn [lN2 lB].
    assert (L : len (flat_map mode_row ms) = 6 * len ms) by (unfold len; rewrite modes_concat, (concat_len 6), map_length by apply mode_rows; lia).
    rewrite L. split; [apply as_int_self; unfold int32; lia|]. split; [apply as_int_self; unfold int32; lia|]. destruct (Z.eqb_spec (len ms) 0); lia. }
  rewrite V. eexists. reflexivity.
Qed.
(** without any mode the constructor throws (its comment says it can never fail) *)
Theorem C51_modes_empty_refuted : forall spin parity, make_modes spin parity [] = Throw EStd.
Proof. reflexivity. Qed.
(** a stable nuclide announces no decay mode, but has one *)
Theorem C51_stable : forall lis liso spin parity, let d := stable_decay8 lis liso spin parity in
  inv_decay8 d /\ d_nst d = true /\ d_spectra d = [] /\ NDK (d_modes d) = 0 /\ lC1 (d_modes d) = spin /\ lC2 (d_modes d) = parity
  /\ (0 <= lis < 2 ^ 32 -> d_lis d = lis) /\ (0 <= liso < 2 ^ 32 -> d_liso d = liso).
Proof.
  intros lis liso sp pa. cbv zeta. split; [|do 5 (split; [reflexivity|]); split; intros H; exact (Z.mod_small _ _ H)].
  unfold inv_decay8, stable_decay8. cbn [d_lis d_liso d_energies d_modes d_spectra]. split; [apply u32_range|]. split; [apply u32_range|].
  split; [exists 3; split; [unfold stable_energies; cbn [lB]; unfold len; cbn [length zeros6]; nai|auto]|]. split; [|split; [constructor|unfold len; cbn; lia]].
  exists 0, 6. unfold stable_modes, len. cbn [lN2 lB length zeros6]. split; [nai|]. split; [nai|reflexivity].
Qed.
Theorem C51_stable_refuted : forall lis liso spin parity, let d := stable_decay8 lis liso spin parity in
  NDK (d_modes d) = 0 /\ length (decay_modes (d_modes d)) = 1%nat.
Proof. intros. split; reflexivity. Qed.
(** discrete spectra: what was not given reads as zero *)
Theorem C51_discrete4 : forall chain e ri type, exists l, make_discrete4 chain e ri type = Val l /\ inv_discrete l
  /\ ds_RTYP l = Val chain /\ ds_TYPE l = Val type /\ ds_ER l = e /\ ds_RI l = Val ri /\ ds_RIS l = Val zero2 /\ ds_RICC l = Val zero2 /\ ds_RICK l = Val zero2 /\ ds_RICL l = Val zero2.
Proof.
  intros c [e de] [r dr] ty. eexists. split; [reflexivity|]. split; [apply ex_disc; cbn; auto|]. repeat split.
Qed.
Theorem C51_discrete6 : forall chain e ri type ris, exists l, make_discrete6 chain e ri type ris = Val l /\ inv_discrete l
  /\ ds_RTYP l = Val chain /\ ds_TYPE l = Val type /\ ds_ER l = e /\ ds_RI l = Val ri /\ ds_RIS l = Val ris /\ ds_RICC l = Val zero2 /\ ds_RICK l = Val zero2 /\ ds_RICL l = Val zero2.
Proof.
  intros c [e de] [r dr] ty [s ds]. eexists. split; [reflexivity|]. split; [apply ex_disc; cbn; auto|]. repeat split.
Qed.
Theorem C51_discrete12 : forall chain e ri type ris ricc rick ricl, exists l, make_discrete12 chain e ri type ris ricc rick ricl = Val l /\ inv_discrete l
  /\ ds_RTYP l = Val chain /\ ds_TYPE l = Val type /\ ds_ER l = e /\ ds_RI l = Val ri /\ ds_RIS l = Val ris /\ ds_RICC l = Val ricc /\ ds_RICK l = Val rick /\ ds_RICL l = Val ricl.
Proof.
  intros c [e de] [r dr] ty [s ds] [a da] [b db] [l dl]. eexists. split; [reflexivity|]. split; [apply ex_disc; cbn; auto|]. repeat split.
Qed.
(** every discrete spectrum that is accepted, however it was made, has all its values: no value is looked for outside the list *)
Theorem C51_discrete_defined : forall l n, as_int (len (lB l)) n -> n = 4 \/ n = 6 \/ n = 12 -> forall k f, In (k, f) [(2%nat, ds_RI); (4%nat, ds_RIS); (6%nat, ds_RICC); (8%nat, ds_RICK); (10%nat, ds_RICL)] ->
  ds_RTYP l = Val (nth 0 (lB l) rzero) /\ ds_TYPE l = Val (nth 1 (lB l) rzero) /\
  f l = Val (if Z.of_nat k <? n then (nth k (lB l) rzero, nth (Datatypes.S k) (lB l) rzero) else zero2).
Proof.
  intros l n A B k f K. assert (L : n <= len (lB l)). { destruct A as (R & E). change (2 ^ 32) with 4294967296 in E. unfold len in *. pose proof (Z.div_mod (Z.of_nat (length (lB l)) - n) 4294967296). lia. }
  assert (N : forall i, Z.of_nat i < n -> element (lB l) i = Val (nth i (lB l) rzero)).
  { intros i Hi. unfold element. rewrite (nth_error_nth' _ rzero); [reflexivity|]. unfold len in L. lia. }
  split; [apply N; lia|]. split; [apply N; lia|]. apply as_int_get in A.
  cbn [In] in K. repeat destruct K as [K|K]; try contradiction; injection K as <- <-; unfold ds_RI, ds_RIS, ds_RICC, ds_RICK, ds_RICL, return_array, npl; fold (len (lB l)); rewrite A;
    match goal with |- context [?a <? n] => destruct (Z.ltb_spec a n) end; try reflexivity; rewrite N by lia; cbn [obind]; rewrite N by lia; reflexivity.
Qed.
(** the three kinds of decay spectra *)
Theorem C51_spectrum_discrete : forall type dnorm energy ds, len ds < 2 ^ 31 -> Forall inv_discrete ds -> exists x, make_spec_discrete type dnorm energy ds = Val x
  /\ inv_spectrum8 x /\ sp_STYP x = type /\ sp_FD x = Val dnorm /\ sp_ERAV x = Val energy /\ sp_FC x = Val zero2 /\ sp_discrete x = ds /\ sp_cont x = None /\ sp_NER x = len ds.
Proof.
  intros ty [a b] [c d] ds H F. eexists. split; [reflexivity|]. split; [|repeat split; unfold sp_NER; cbn [sp_data spec_data lN2]; apply i32_id, int32_len, H].
  unfold inv_spectrum8. cbn [sp_data sp_discrete sp_cont spec_data lN2 lL1 lL2]. split; [apply as_int_self, int32_len, H|]. split; [exact F|].
  split; [split; [reflexivity|intros; nai]|]. split; [discriminate|]. split; [intros K; exfalso; revert K; apply not_as; discriminate|nai].
Qed.
Theorem C51_spectrum_continuous : forall type cnorm energy c, inv_tab1 c -> exists x, make_spec_continuous type cnorm energy c = Val x
  /\ inv_spectrum8 x /\ sp_STYP x = type /\ sp_FD x = Val zero2 /\ sp_ERAV x = Val energy /\ sp_FC x = Val cnorm /\ sp_discrete x = [] /\ sp_cont x = Some c /\ sp_NER x = 0.
Proof.
  intros ty [a b] [c d] t It. eexists. split; [reflexivity|]. split; [|repeat split].
  unfold inv_spectrum8. cbn [sp_data sp_discrete sp_cont spec_data lN2 lL1 lL2]. split; [unfold len; cbn [length]; nai|]. split; [constructor|].
  split; [split; [intros K; exfalso; revert K; apply not_as; discriminate|discriminate]|]. split; [intros t' E; injection E as <-; exact It|].
  split; [intros K; exfalso; revert K; apply not_as; discriminate|nai].
Qed.
Theorem C51_spectrum_both : forall type dnorm cnorm energy ds c, len ds < 2 ^ 31 -> Forall inv_discrete ds -> inv_tab1 c ->
  (ds = [] /\ make_spec_both type dnorm cnorm energy ds c = Throw EStd)
  \/ (ds <> [] /\ exists x, make_spec_both type dnorm cnorm energy ds c = Val x
  /\ inv_spectrum8 x /\ sp_STYP x = type /\ sp_FD x = Val dnorm /\ sp_ERAV x = Val energy /\ sp_FC x = Val cnorm /\ sp_discrete x = ds /\ sp_cont x = Some c /\ sp_NER x = len ds).
Proof.
  intros ty [a b] [c d] [e f] ds t H F It. destruct ds as [|d0 ds]; [left; auto|]. right. split; [discriminate|]. set (l := d0 :: ds) in *.
  assert (P : isize l <> 0) by (rewrite isize_len by exact H; unfold len, l; cbn [length]; lia).
  exists (mkspec8 (spec_data 2 ty (Z.of_nat (length l)) (a, b) (e, f) (c, d)) l (Some t)). split.
  { unfold make_spec_both, make_spec8, discrete_ok. cbn [sp_data sp_discrete spec_data]. unfold LCON. cbn [lL1]. destruct (Z.eqb_spec (isize l) 0); [contradiction|]. rewrite andb_false_r. reflexivity. }
  split; [|repeat split; unfold sp_NER; cbn [sp_data spec_data lN2]; apply i32_id, int32_len, H].
  unfold inv_spectrum8. cbn [sp_data sp_discrete sp_cont spec_data lN2 lL1 lL2]. split; [apply as_int_self, int32_len, H|]. split; [exact F|].
  split; [split; [intros K; exfalso; revert K; apply not_as; discriminate|discriminate]|]. split; [intros t' E; injection E as <-; exact It|].
  split; [discriminate|nai].
Qed.
(** what the readers accept although it is not usable: a decay spectrum whose LIST record is empty;
    all three accessors are undefined *)
Definition xempty8 : spectrum8 := mkspec8 (xlist 0 0 0 []) [] None.
Theorem C51_spectrum_refuted : rep_spectrum8 xempty8 /\ inv_spectrum8 xempty8 /\ sp_FD xempty8 = Undef /\ sp_ERAV xempty8 = Undef /\ sp_FC xempty8 = Undef.
Proof.
  split; [|split; [|repeat split]].
  - unfold rep_spectrum8, xempty8. cbn [sp_data sp_discrete sp_cont]. split; [xt|]. split; [constructor|discriminate].
  - unfold inv_spectrum8, xempty8. cbn [sp_data sp_discrete sp_cont xlist lN2 lL1 lL2]. split; [unfold len; cbn [length]; nai|]. split; [constructor|]. split; [split; [reflexivity|intros; nai]|].
    split; [discriminate|]. split; [intros K; exfalso; revert K; apply not_as; discriminate|nai].
Qed.
(** seven numbers are accepted as three average energies *)
Theorem C51_energies_refuted : inv_energies (xlist 0 0 0 [r_one; r_tiny; r_pi; r_one; r_pi; r_tiny; r_one])
  /\ endf_list (xlist 0 0 0 [r_one; r_tiny; r_pi; r_one; r_pi; r_tiny; r_one]).
Proof. split; [exists 3; split; [unfold len; cbn [xlist lB length]; nai|auto]|xt]. Qed.
(** the stability flag of the HEAD is not used: it follows from the decay modes *)
Theorem C51_nst_ignored : forall h h' mat s, l1 (sbase h') = l1 (sbase h) -> l2 (sbase h') = l2 (sbase h) -> n2 (sbase h') = n2 (sbase h) ->
  c1 (sbase h') = c1 (sbase h) -> c2 (sbase h') = c2 (sbase h) -> rd_section sec_8_457 h' mat s = rd_section sec_8_457 h mat s.
Proof.
  intros h h' mat s E1 E2 E3 E4 E5. unfold rd_section, sec_head, head_za32. cbn [sec_8_457 k_chk k_fix k_read k_mf]. now rewrite E1, E2, E3, E4, E5.
Qed.
