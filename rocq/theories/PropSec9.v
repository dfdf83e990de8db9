(** PropSec9.v -- C52 (Files 9, 10), C53 (Files 12 to 15), C54 (File 28). *)
From Coq Require Import ZifyBool ZifyNat QArith.
From Verif Require Import Base Disco DiscoProofs Records RecordProofs RecordRT RecordSound Layout
  RealRound RealProofs Spec Normal LineFacts Sections SecSpec Codec SectionProofs SecKit CodecKit Sec9 Sec9Spec Sec9Proofs
  PropRecords ExKit.
Open Scope Z_scope.

(** ** C52 *)
Theorem C52_mf9 : section_codec sec_9 rep_levels inv_levels.
Proof. apply codec_levels. lia. Qed.
Theorem C52_mf10 : section_codec sec_10 rep_levels inv_levels.
Proof. apply codec_levels. lia. Qed.
Example C52_example : meets sec_9 rep_levels inv_levels (mksect 92235 r_pi 102 (mklevels 2 [xtab1 92236 0; xtab1 92236 1])).
Proof. unfold meets, rep_levels, inv_levels; cbn [s_body lv_lis lv_products]; xt. Qed.
(** the lookup of a product by its level finds the first one with that level, or throws *)
(** a section without products is accepted, although 9/src/ctor.hpp asks for at least one *)
Example C52_no_products : meets sec_9 rep_levels inv_levels (mksect 92235 r_pi 102 (mklevels 0 [])).
Proof. unfold meets, rep_levels, inv_levels; cbn [s_body lv_lis lv_products]. xt. Qed.
Theorem C52_lookup : forall b state,
  (has_excited_state b state = true <-> exists p, In p (lv_products b) /\ as_int (tL2 (tbase p)) state)
  /\ match reaction_product b state with
     | Val p => exists before after, lv_products b = before ++ p :: after /\ as_int (tL2 (tbase p)) state
                  /\ Forall (fun q => ~ as_int (tL2 (tbase q)) state) before
     | Throw e => e = EStd /\ has_excited_state b state = false
     | Undef => False
     end.
Proof.
  intros [lis ps] state. unfold has_excited_state, reaction_product. cbn [lv_products]. split.
  - rewrite existsb_exists. split; intros (p & A & B); exists p; (split; [exact A|]).
    + apply as_int_eq. lia.
    + apply as_int_eq in B. lia.
  - induction ps as [|p ps IH]; cbn [find existsb]; [auto|].
    destruct (Z.eqb_spec (i32 (tL2 (tbase p))) state) as [E|E]; cbn [orb].
    + exists [], ps. split; [reflexivity|]. split; [now apply as_int_eq|constructor].
    + destruct (find _ ps) as [q|]; [|exact IH]. destruct IH as (b & a & -> & A & B). exists (p :: b), a. split; [reflexivity|].
      split; [exact A|]. constructor; [now rewrite as_int_eq|exact B].
Qed.

(** ** C53 *)
Theorem C53_mf12 : section_rt sec_12 rep_production inv_production.
Proof. exact rt_12. Qed.
Theorem C53_mf13 : section_codec sec_13 rep_multiplicities inv_multiplicities.
Proof. exact codec_13. Qed.
Theorem C53_mf14 : section_codec sec_14 rep_body14 inv_body14.
Proof. exact codec_14. Qed.
Theorem C53_mf15 : section_codec sec_15 (Forall rep_p15) (some_of inv_p15).
Proof. exact codec_15. Qed.
Lemma ex_as_int z n : as_int z n \/ False -> as_int z n. Proof. tauto. Qed.
Example C53_example_12 :
  meets sec_12 rep_production inv_production
    (mksect 92235 r_pi 102 (Multiplicities (mkmults (Some (xtab1 0 0)) [xtab1 1 2; xtab1 2 1])))
  /\ meets sec_12 rep_production inv_production
    (mksect 92235 r_pi 102 (TransitionProbabilities (xlist 0 0 2 [r_one; r_tiny; r_pi; r_pi; r_one; r_one]))).
Proof.
  unfold meets, rep_production, inv_production, rep_multiplicities, inv_multiplicities, inv_transitions;
    cbn [s_body mu_total mu_partials xlist lN2 lB]. split.
  - split; [xt|]. split; [xt|]. split.
    + split; [intros t E; injection E as <-; xt|xt].
    + split; [xt|]. split; [xt|]. split; [discriminate|]. intros _. exists (xtab1 0 0). split; [reflexivity|xt].
  - split; [xt|]. split; [xt|]. split; [xt|]. split; [discriminate|]. right. xt.
Qed.
Example C53_example_13 : meets sec_13 rep_multiplicities inv_multiplicities (mksect 92235 r_pi 102 (mkmults None [xtab1 1 2])).
Proof.
  unfold meets, rep_multiplicities, inv_multiplicities; cbn [s_body mu_total mu_partials].
  split; [xt|]. split; [xt|]. split; [split; [discriminate|xt]|]. split; [xt|]. split; [xt|]. split; [auto|]. intros H. destruct (H eq_refl).
Qed.
Example C53_example_14 : meets sec_14 rep_body14 inv_body14
  (mksect 92235 r_pi 102 (Photons (Isotropic14 r_one r_pi) [Legendre14 (mkiseq (xtab2 0 0) [xlist 0 0 0 [r_one]; xlist 0 0 0 [r_pi]; xlist 0 0 0 [r_tiny]])])).
Proof.
  unfold meets, rep_body14, inv_body14; cbn [s_body photons_of]. split; [xt|]. split; [xt|]. split.
  - split; [|xt]. constructor; [cbn; xt|]. constructor; [cbn; xt|constructor].
  - split; [constructor; [exact Logic.I|]; constructor; [|constructor]; cbn; xt|]. split; [|exact Logic.I].
    exists [Isotropic14 r_one r_pi]. eexists. exists 1. split; [reflexivity|].
    split; [repeat constructor|]. split; [repeat constructor|now left].
Qed.
(** the records of a section of File 14 are compared with the MAT number of its HEAD record, the SEND record with the one
    asked for: a section of another material whose SEND is right is read, one whose records are right is not *)
Definition photon_text (mat : Z) : text := pr_all pr_photon14 [Isotropic14 r_one r_pi] mat 14 102 ++ pr_sdiv (mksdiv zero_cont 9437 14 0).
Definition photon_head : sdiv := mksdiv (mkcont (of_int 92235) r_pi 0 0 1 1) 9228 14 102.
Theorem C53_mat14_refuted : (exists x s, rd_section sec_14 photon_head 9437 (mkst (photon_text 9228) 0) = Ok x s)
  /\ exists e s, rd_section sec_14 photon_head 9437 (mkst (photon_text 9437) 0) = Err e s.
Proof. split; do 2 eexists; vm_compute; reflexivity. Qed.
Example C53_example_15 : meets sec_15 (Forall rep_p15) (some_of inv_p15)
  (mksect 92235 r_pi 102 [mkp15 (xtab1 0 1) (mkiseq (xtab2 0 0) [xtab1 0 0; xtab1 0 0; xtab1 0 0])]).
Proof.
  unfold meets, some_of; cbn [s_body]. split; [xt|]. split; [xt|].
  split; [constructor; [unfold rep_p15; cbn [p15_prob p15_spec]; xt|constructor]|].
  split; [constructor; [unfold inv_p15; cbn [p15_prob p15_spec]; xt|constructor]|xt].
Qed.
(** File 12: the reader is undefined for a list of transition probabilities with NT = 0
    (integer division by zero), and only then *)
Theorem C53_mf12_undefined : forall h mat s, int32 (round_int (c1 (sbase h))) ->
  (rd_section sec_12 h mat s = UB <->
   1 <= round_int (c1 (sbase h)) /\ real_le rzero (c2 (sbase h)) /\ 1 <= smt h /\ as_int (l1 (sbase h)) 2
   /\ exists l s', rd_list mat 12 (smt h) s = Ok l s' /\ lN2 l = 0).
Proof.
  intros h mat s Hz. unfold rd_section, sec_head, head_za32. cbn [sec_12 k_chk k_fix k_read k_mf k_rmt k_own k_mt k_rmat k_hm].
  unfold k_rmt, k_rmat, k_mt. cbn [k_own k_fix k_hm]. unfold int32 in Hz.
  replace ((-2147483648 <=? round_int (c1 (sbase h))) && (round_int (c1 (sbase h)) <? 2147483648)) with true by lia.
  rewrite <- rlt_zero. unfold bind at 1 2 3 4 5 6. cbn [lift ret]. unfold require at 1.
  destruct (Z.ltb_spec (round_int (c1 (sbase h))) 1); cbn [negb throw ret]. { split; [discriminate|lia]. }
  destruct (rlt (c2 (sbase h)) rzero); cbn [negb require throw ret]. { split; [discriminate|intros (_ & E & _); discriminate]. }
  destruct (Z.ltb_spec (smt h) 1); cbn [negb require throw ret]. { split; [discriminate|lia]. }
  rewrite as_int_eq. unfold rd_production.
  assert (SE : forall (x : out unit) , True) by auto.
  destruct (Z.eqb_spec (i32 (l1 (sbase h))) 1) as [E1|E1].
  { split; [|intros (_ & _ & _ & E & _); lia]. intros E. exfalso. unfold bind at 1 in E.
    assert (K := std_multiplicities (n1 (sbase h)) mat 12 (smt h) s). unfold bind in E.
    destruct (rd_multiplicities (n1 (sbase h)) mat 12 (smt h) s) as [m s1|e s1|]; [|discriminate|exact K]. cbn [ret] in E.
    assert (K' : only_std (rd_SEND mat 12)).
    { unfold rd_SEND. apply only_std_bind; [apply only_std_sdiv|intros]. repeat (apply only_std_bind; [apply only_std_require|intros]). apply only_std_require. }
    specialize (K' s1). destruct (rd_SEND mat 12 s1); [discriminate|discriminate|exact K']. }
  destruct (Z.eqb_spec (i32 (l1 (sbase h))) 2) as [E2|E2]; [|split; [discriminate|intros (_ & _ & _ & E & _); lia]].
  unfold rd_transitions, check_LG. assert (K := only_std_list mat 12 (smt h) s). unfold bind.
  destruct (rd_list mat 12 (smt h) s) as [l s1|e s1|]; [| |destruct K].
  - destruct (Z.eqb_spec (lN2 l) 0) as [E|E].
    + cbn. split; [|reflexivity]. intros _. split; [lia|]. split; [reflexivity|]. split; [lia|]. split; [exact E2|]. exists l, s1. auto.
    + unfold require. destruct ((LG l =? 1) || (LG l =? 2)).
      * cbn [ret]. split; [|intros (_ & _ & _ & _ & l' & s' & Q & Q'); injection Q as <- _; lia].
        assert (K' : only_std (rd_SEND mat 12)).
        { unfold rd_SEND. apply only_std_bind; [apply only_std_sdiv|intros]. repeat (apply only_std_bind; [apply only_std_require|intros]). apply only_std_require. }
        specialize (K' s1). destruct (rd_SEND mat 12 s1); [discriminate|discriminate|destruct K'].
      * cbn. split; [discriminate|]. intros (_ & _ & _ & _ & l' & s' & Q & Q'). injection Q as <- _. lia.
  - split; [discriminate|]. intros (_ & _ & _ & _ & l' & s' & Q & Q'). discriminate.
Qed.
(** otherwise it succeeds or throws a std::exception *)
Theorem C53_mf12_defined : forall h mat s, int32 (round_int (c1 (sbase h))) ->
  rd_section sec_12 h mat s <> UB -> never_other (rd_section sec_12 h mat s).
Proof.
  intros h mat s Hz. enough (E : match rd_section sec_12 h mat s with Err e _ => is_std e = true | _ => True end).
  { destruct (rd_section sec_12 h mat s); [exact (fun _ => Logic.I)|exact (fun _ => E)|congruence]. }
  unfold rd_section, sec_head, head_za32. cbn [sec_12 k_chk k_fix k_read k_mf k_rmt k_own k_mt k_rmat k_hm].
  unfold k_rmt, k_rmat, k_mt. cbn [k_own k_fix k_hm]. unfold int32 in Hz.
  replace ((-2147483648 <=? round_int (c1 (sbase h))) && (round_int (c1 (sbase h)) <? 2147483648)) with true by lia.
  assert (Sx : forall s1, never_other (rd_SEND mat 12 s1)).
  { assert (K' : only_std (rd_SEND mat 12)).
    { unfold rd_SEND. apply only_std_bind; [apply only_std_sdiv|intros]. repeat (apply only_std_bind; [apply only_std_require|intros]). apply only_std_require. }
    exact K'. }
  unfold bind at 1 2 3 4 5 6. cbn [lift ret]. unfold require at 1.
  destruct (negb (round_int (c1 (sbase h)) <? 1)); cbn [throw ret]; [|reflexivity].
  destruct (negb (rlt (c2 (sbase h)) rzero)); cbn [require throw ret]; [|reflexivity].
  destruct (negb (smt h <? 1)); cbn [require throw ret]; [|reflexivity].
  unfold rd_production; rewrite ?as_int_eq.
  destruct (i32 (l1 (sbase h)) =? 1).
  { assert (K := std_multiplicities (n1 (sbase h)) mat 12 (smt h) s). unfold bind.
    destruct (rd_multiplicities (n1 (sbase h)) mat 12 (smt h) s) as [m s1|e s1|]; [|exact K|destruct K]. cbn [ret].
    specialize (Sx s1). destruct (rd_SEND mat 12 s1); [exact Logic.I|exact Sx|destruct Sx]. }
  destruct (i32 (l1 (sbase h)) =? 2); [|reflexivity].
  unfold rd_transitions, check_LG. assert (K := only_std_list mat 12 (smt h) s). unfold bind.
  destruct (rd_list mat 12 (smt h) s) as [l s1|e s1|]; [|exact K|destruct K].
  destruct (lN2 l =? 0); [exact Logic.I|]. unfold require. destruct ((LG l =? 1) || (LG l =? 2)); [|reflexivity].
  cbn [ret]. specialize (Sx s1). destruct (rd_SEND mat 12 s1); [exact Logic.I|exact Sx|destruct Sx].
Qed.
Theorem C53_mf12_safe : forall h mat s, int32 (round_int (c1 (sbase h))) -> i32 (l1 (sbase h)) <> 2 ->
  never_other (rd_section sec_12 h mat s).
Proof.
  intros h mat s Hz H. apply C53_mf12_defined; [exact Hz|]. intros E. apply (C53_mf12_undefined h mat s Hz) in E.
  destruct E as (_ & _ & _ & E & _). rewrite as_int_eq in E. congruence.
Qed.
(** and such a text exists *)
Theorem C53_mf12_undefined_reachable : exists h mat s, int32 (round_int (c1 (sbase h))) /\ rd_section sec_12 h mat s = UB.
Proof.
  set (l := xlist 0 0 0 [r_one]).
  assert (R : endf_list l) by (unfold l; xt).
  assert (G : good_tail 9228 12 102) by (split; [|split]; unfold in_cols; cbn; lia).
  assert (P := co_reads _ _ _ _ _ cod_list 9228 12 102 l G R Logic.I [] 0).
  exists (mksdiv (mkcont r_one r_one 2 0 0 0) 9228 12 102), 9228, (mkst (pr_list l 9228 12 102 ++ []) 0).
  assert (Z1 : round_int r_one = 1) by (vm_compute; reflexivity).
  split; [cbn [sbase c1]; rewrite Z1; split; lia|]. apply C53_mf12_undefined; [cbn [sbase c1]; rewrite Z1; split; lia|]. cbn [sbase c1 c2 l1 smt]. rewrite Z1.
  split; [lia|]. split; [xt|]. split; [lia|]. split; [xt|]. eexists. eexists. split; [exact P|reflexivity].
Qed.
(** NPL need not be a multiple of NT *)
Theorem C53_ragged_refuted : exists l, endf_list l /\ inv_transitions l /\ ~ exists k, len (lB l) = k * lN2 l.
Proof.
  exists (xlist 0 0 2 [r_one; r_pi; r_one; r_pi; r_one]). unfold inv_transitions. cbn [xlist lB lN2]. split; [xt|]. split.
  - split; [discriminate|]. left. xt.
  - intros (k & E). unfold len in E. cbn in E. lia.
Qed.
(** ... and then there is one more transition than NT, without a probability: looking at it is undefined *)
Theorem C53_ragged_undefined : exists l, endf_list l /\ inv_transitions l /\ lN2 l = 2 /\ length (chunked l) = 3%nat
  /\ (exists es, tr_E l = Val es) /\ tr_TP l = Undef.
Proof.
  exists (xlist 0 0 2 [r_one; r_pi; r_one; r_pi; r_one]). split; [xt|]. split; [unfold inv_transitions; cbn [xlist lB lN2]; split; [discriminate|left; xt]|].
  split; [reflexivity|]. split; [reflexivity|]. split; [eexists; reflexivity|reflexivity].
Qed.
(** otherwise there are NT of them, and each has all its numbers *)
Theorem C53_transitions_defined : forall l k, 0 < lN2 l -> len (lB l) = k * lN2 l -> 2 <= k <= 3 -> exists es tp gp, tr_E l = Val es /\ tr_TP l = Val tp /\ tr_GP l = Val gp
  /\ len (chunked l) = lN2 l /\ len es = lN2 l /\ len tp = lN2 l /\ len gp = lN2 l.
Proof.
  intros l k Hn Hl Hk.
  assert (Eq : LG l = k - 1). { unfold LG. change (npl l) with (len (lB l)). rewrite Hl, Z.quot_mul by lia. apply i32_id. unfold int32. lia. }
  assert (G : forall m n b fuel, (1 <= m)%nat -> length b = (n * m)%nat -> (length b <= fuel)%nat -> Forall (fun c => length c = m) (chunks fuel m b) /\ length (chunks fuel m b) = n).
  { intros m. induction n as [|n IH]; intros b fuel Hm L F; [destruct b; [destruct fuel; split; (reflexivity || constructor)|discriminate L]|].
    destruct fuel as [|fuel]; [cbn in L; lia|]. destruct b as [|x b]; [cbn in L; lia|]. cbn [chunks].
    destruct (IH (skipn m (x :: b)) fuel Hm ltac:(rewrite skipn_length; lia) ltac:(rewrite skipn_length; lia)) as (A & B).
    split; [constructor; [rewrite firstn_length; lia|exact A]|cbn [length]; lia]. }
  destruct (G (Z.to_nat k) (Z.to_nat (lN2 l)) (lB l) (length (lB l)) ltac:(lia) ltac:(unfold len in Hl; nia) ltac:(lia)) as (F & L).
  assert (C : chunked l = chunks (length (lB l)) (Z.to_nat k) (lB l)). { unfold chunked. rewrite Eq. now replace (k - 1 + 1) with k by lia. } rewrite <- C in F, L.
  assert (V : forall f : list real -> out real, (forall c, length c = Z.to_nat k -> exists v, f c = Val v) -> exists vs, all_val (map f (chunked l)) = Val vs /\ length vs = length (chunked l)).
  { intros f Hf. clear - F Hf. induction F as [|c cs Hc _ IH]; [exists []; split; reflexivity|]. destruct IH as (vs & E & Lv). destruct (Hf c Hc) as (v & Ev). exists (v :: vs). cbn [map all_val]. rewrite Ev, E. cbn. split; [reflexivity|lia]. }
  destruct (V TR_E) as (es & E1 & L1). { intros [|a c] H; [cbn in H; lia|]. eexists. reflexivity. }
  destruct (V TR_TP) as (tp & E2 & L2). { intros [|a [|b c]] H; try (cbn in H; lia). eexists. reflexivity. }
  destruct (V TR_GP) as (gp & E3 & L3). { intros c H. unfold TR_GP. destruct (Nat.eqb_spec (length c) 3) as [H3|]; [|eexists; reflexivity]. destruct c as [|a [|b [|d c]]]; try discriminate H3. eexists. reflexivity. }
  exists es, tp, gp. split; [exact E1|]. split; [exact E2|]. split; [exact E3|]. unfold len. rewrite L1, L2, L3, L. repeat split; lia.
Qed.
(** transition probabilities give back the values they are made of; an empty list is
    undefined behaviour, lists of different length are rejected *)
Lemma chunks_2 : forall es tp fuel, length tp = length es -> (length (interleave2 es tp) <= fuel)%nat ->
  chunks fuel 2 (interleave2 es tp) = map (fun x => [fst x; snd x]) (combine es tp).
Proof.
  induction es as [|e es IH]; intros [|t tp] fuel H F; try discriminate; [destruct fuel; reflexivity|].
  cbn [interleave2 length] in F. destruct fuel as [|fuel]; [lia|]. cbn. f_equal. apply IH; [now injection H|lia].
Qed.
Lemma chunks_3 : forall es tp gp fuel, length tp = length es -> length gp = length es -> (length (interleave3 es tp gp) <= fuel)%nat ->
  chunks fuel 3 (interleave3 es tp gp) = map (fun x => [fst (fst x); snd (fst x); snd x]) (combine (combine es tp) gp).
Proof.
  induction es as [|e es IH]; intros [|t tp] [|g gp] fuel H H' F; try discriminate; [destruct fuel; reflexivity|].
  cbn [interleave3 length] in F. destruct fuel as [|fuel]; [lia|]. cbn. f_equal. apply IH; [now injection H|now injection H'|lia].
Qed.
Lemma interleave2_length : forall es tp, length tp = length es -> length (interleave2 es tp) = (2 * length es)%nat.
Proof. induction es as [|e es IH]; intros [|t tp] H; try discriminate; [reflexivity|]. cbn [interleave2 length]. rewrite IH; [lia|now injection H]. Qed.
Lemma interleave3_length : forall es tp gp, length tp = length es -> length gp = length es -> length (interleave3 es tp gp) = (3 * length es)%nat.
Proof. induction es as [|e es IH]; intros [|t tp] [|g gp] H H'; try discriminate; [reflexivity|]. cbn [interleave3 length]. rewrite IH; [lia|now injection H|now injection H']. Qed.
Lemma map_fst_combine {A B} : forall (a : list A) (b : list B), length b = length a -> map fst (combine a b) = a.
Proof. induction a as [|x a IH]; intros [|y b] H; try discriminate; [reflexivity|]. cbn. f_equal. apply IH. now injection H. Qed.
Lemma map_snd_combine {A B} : forall (a : list A) (b : list B), length b = length a -> map snd (combine a b) = b.
Proof. induction a as [|x a IH]; intros [|y b] H; try discriminate; [reflexivity|]. cbn. f_equal. apply IH. now injection H. Qed.
Lemma all_val_vals {A B} (g : A -> B) : forall l, all_val (map (fun x => Val (g x)) l) = Val (map g l).
Proof. induction l as [|x l IH]; [reflexivity|]. cbn [map all_val]. rewrite IH. reflexivity. Qed.
Theorem C53_transitions : forall energy es tp,
  (length tp <> length es -> make_transitions2 energy es tp = Throw EStd)
  /\ (length tp = length es -> es = [] -> make_transitions2 energy es tp = Undef)
  /\ (length tp = length es -> es <> [] -> exists l, make_transitions2 energy es tp = Val l
        /\ lC1 l = energy /\ lC2 l = rzero /\ lL1 l = 0 /\ lL2 l = 0 /\ lN2 l = len es
        /\ LG l = 1 /\ tr_E l = Val es /\ tr_TP l = Val tp /\ tr_GP l = Val (repeat (of_int 1) (length es)) /\ inv_transitions l).
Proof.
  intros energy es tp. unfold make_transitions2. split; [|split].
  - intros H. destruct (Nat.eqb_spec (length es) (length tp)); [congruence|reflexivity].
  - intros H ->. destruct tp; [reflexivity|discriminate].
  - intros H Hn. destruct (Nat.eqb_spec (length es) (length tp)); [|congruence]. cbn [negb].
    set (l := mklist _ _ _ _ _ _). 
    assert (Hp : (0 < length es)%nat) by (destruct es; [congruence|cbn; lia]).
    assert (Hl : npl l = 2 * Z.of_nat (length es)) by (unfold npl, l; cbn [lB]; rewrite interleave2_length by exact H; lia).
    assert (Hq : Z.quot (npl l) (lN2 l) = 2) by (rewrite Hl; cbn [l lN2]; rewrite Z.quot_mul by lia; reflexivity).
    assert (L1 : LG l = 1) by (unfold LG; rewrite Hq; reflexivity).
    exists l. unfold verified_LG. rewrite L1. cbn [Z.eqb Pos.eqb orb].
    replace (lN2 l =? 0) with false by (cbn [l lN2]; lia). split; [reflexivity|]. do 5 (split; [reflexivity|]). split; [reflexivity|].
    assert (C : chunked l = map (fun x => [fst x; snd x]) (combine es tp)).
    { unfold chunked. rewrite L1. change (Z.to_nat (1 + 1)) with 2%nat. cbn [l lB]. now apply chunks_2. }
    unfold tr_E, tr_TP, tr_GP. rewrite C, !map_map. cbn [TR_E TR_TP TR_GP element nth_error length Nat.eqb].
    split; [rewrite all_val_vals; f_equal; now apply map_fst_combine|]. split; [rewrite all_val_vals; f_equal; now apply map_snd_combine|]. split.
    + rewrite (all_val_vals (fun _ => of_int 1)). f_equal. replace (length es) with (length (combine es tp)) by (rewrite combine_length; lia). clear. induction (combine es tp); [reflexivity|cbn; now f_equal].
    + unfold inv_transitions. split; [cbn [l lN2]; lia|]. left. change (len (lB l)) with (npl l). rewrite Hq. apply as_int_self. unfold int32; lia.
Qed.
Theorem C53_transitions_conditional : forall energy es tp gp,
  ((length tp <> length es \/ length gp <> length es) -> make_transitions3 energy es tp gp = Throw EStd)
  /\ (length tp = length es -> length gp = length es -> es <> [] -> exists l, make_transitions3 energy es tp gp = Val l
        /\ lC1 l = energy /\ lC2 l = rzero /\ lL1 l = 0 /\ lL2 l = 0 /\ lN2 l = len es
        /\ LG l = 2 /\ tr_E l = Val es /\ tr_TP l = Val tp /\ tr_GP l = Val gp /\ inv_transitions l).
Proof.
  intros energy es tp gp. unfold make_transitions3. split.
  - intros H. destruct (Nat.eqb_spec (length es) (length tp)); [|reflexivity]. destruct (Nat.eqb_spec (length es) (length gp)); [|reflexivity]. lia.
  - intros H H' Hn. destruct (Nat.eqb_spec (length es) (length tp)); [|congruence]. destruct (Nat.eqb_spec (length es) (length gp)); [|congruence]. cbn [negb orb].
    set (l := mklist _ _ _ _ _ _). 
    assert (Hp : (0 < length es)%nat) by (destruct es; [congruence|cbn; lia]).
    assert (Hl : npl l = 3 * Z.of_nat (length es)) by (unfold npl, l; cbn [lB]; rewrite interleave3_length by assumption; lia).
    assert (Hq : Z.quot (npl l) (lN2 l) = 3) by (rewrite Hl; cbn [l lN2]; rewrite Z.quot_mul by lia; reflexivity).
    assert (L1 : LG l = 2) by (unfold LG; rewrite Hq; reflexivity).
    exists l. unfold verified_LG. rewrite L1. cbn [Z.eqb Pos.eqb orb].
    replace (lN2 l =? 0) with false by (cbn [l lN2]; lia). split; [reflexivity|]. do 5 (split; [reflexivity|]). split; [reflexivity|].
    assert (C : chunked l = map (fun x => [fst (fst x); snd (fst x); snd x]) (combine (combine es tp) gp)).
    { unfold chunked. rewrite L1. change (Z.to_nat (2 + 1)) with 3%nat. cbn [l lB]. now apply chunks_3. }
    assert (Lc : length (combine es tp) = length es) by (rewrite combine_length; lia).
    unfold tr_E, tr_TP, tr_GP. rewrite C, !map_map. cbn [TR_E TR_TP TR_GP element nth_error length Nat.eqb]. rewrite !all_val_vals.
    split. { f_equal. rewrite <- (map_map fst fst). rewrite map_fst_combine by lia. now apply map_fst_combine. }
    split. { f_equal. rewrite <- (map_map fst snd). rewrite map_fst_combine by lia. now apply map_snd_combine. }
    split; [f_equal; apply map_snd_combine; lia|].
    unfold inv_transitions. split; [cbn [l lN2]; lia|]. right. change (len (lB l)) with (npl l). rewrite Hq. apply as_int_self. unfold int32; lia.
Qed.
(** the constructors of Files 12 and 13 accept a total with a single photon and no total
    with several; such a section is never read back *)
Theorem C53_total_refuted : exists m, make_multiplicities (mu_total m) (mu_partials m) = Val m /\ rep_multiplicities m
  /\ forall h mat s x s', rd_section sec_13 h mat s = Ok x s' -> s_body x <> m.
Proof.
  exists (mkmults None [xtab1 0 0; xtab1 0 0]). split; [reflexivity|]. split; [split; [discriminate|cbn [mu_partials]; xt]|].
  intros h mat s x s' E Ex. destruct C53_mf13 as [[_ Hs] _]. destruct (Hs _ _ _ _ _ E) as (_ & _ & _ & _ & _ & _ & _ & I & _).
  rewrite Ex in I. destruct I as (_ & _ & _ & I). destruct I as (t & Et & _); [discriminate|discriminate Et].
Qed.
(** the same in File 14 for photons of two kinds *)
Theorem C53_mixed_photons_refuted : exists b, rep_body14 b /\ Forall inv_photon14 (photons_of b)
  /\ forall h mat s x s', rd_section sec_14 h mat s = Ok x s' -> s_body x <> b.
Proof.
  set (q1 := mkiseq (xtab2 0 0) [xlist 0 0 0 [r_one]; xlist 0 0 0 [r_pi]; xlist 0 0 0 [r_tiny]]).
  set (q2 := mkiseq (xtab2 0 0) [xtab1 0 0; xtab1 0 0; xtab1 0 0]).
  exists (Photons (Legendre14 q1) [Tabulated14 q2]). unfold rep_body14. cbn [photons_of]. split; [|split].
  - split; [|xt]. constructor; [cbn; unfold q1; xt|]. constructor; [cbn; unfold q2; xt|constructor].
  - constructor; [cbn; unfold q1; xt|]. constructor; [cbn; unfold q2; xt|constructor].
  - intros h mat s x s' E Ex. destruct C53_mf14 as [[_ Hs] _]. destruct (Hs _ _ _ _ _ E) as (_ & _ & _ & _ & _ & _ & _ & I & _).
    rewrite Ex in I. destruct I as (_ & (iso & ani & k & Ei & F1 & F2 & Hk) & _). cbn [photons_of] in Ei.
    destruct iso as [|p iso]; cbn [app] in Ei.
    + subst ani. inversion F2 as [|? ? A B]. subst. inversion B as [|? ? C _]. subst. cbn in C. discriminate.
    + injection Ei as <- _. inversion F1 as [|? ? A _]. discriminate A.
Qed.
(** the photon energy EG() of an anisotropic photon is the value on file truncated to an
    integer (AngularDistributions::C1 returns a long) *)
Theorem C53_EG_truncated_refuted : exists q, rep_photon14 (Legendre14 q) /\ inv_photon14 (Legendre14 q)
  /\ ~ (valQ (EG14 (Legendre14 q)) == valQ (tC1 (istab q)))%Q.
Proof.
  exists (mkiseq (xtab2 0 0) [xlist 0 0 0 [r_one]; xlist 0 0 0 [r_pi]; xlist 0 0 0 [r_tiny]]).
  split; [cbn; xt|]. split; [cbn; xt|]. intros E. apply Qeq_bool_iff in E. vm_compute in E. discriminate E.
Qed.
Lemma filter_le {A} f (l : list A) : (length (filter f l) <= length l)%nat.
Proof. induction l as [|a l IH]; [reflexivity|]. cbn. destruct (f a); cbn [length]; lia. Qed.
(** what NI(), NK(), LI() and LTT() say about the photons that were read *)
Theorem C53_photon_counts : forall h mat s x s', rd_section sec_14 h mat s = Ok x s' -> len (photons_of (s_body x)) < 2 ^ 31 ->
  let b := s_body x in
  (LI14 b = 1 <-> photons_of b = []) /\ (photons_of b <> [] -> NK14 b = len (photons_of b))
  /\ NI14 b = len (filter (fun p => LTT_photon p =? 0) (photons_of b))
  /\ Forall (fun p => LTT_photon p = 0 \/ LTT_photon p = LTT14 b) (photons_of b).
Proof.
  intros h mat s x s' E Hl b. destruct C53_mf14 as [[_ Hs] _]. destruct (Hs _ _ _ _ _ E) as (_ & _ & _ & _ & _ & _ & _ & I & _).
  fold b in I, Hl. clearbody b. destruct I as (_ & (iso & ani & k & Ei & F1 & F2 & Hk) & _). split; [|split; [|split]].
  - destruct b; cbn; split; congruence.
  - destruct b as [nk|p ps]; cbn [photons_of NK14] in *; [congruence|]. intros _. now apply isize_len.
  - assert (Ef : filter (fun p => LTT_photon p =? 0) (photons_of b) = filter is_iso (photons_of b)).
    { apply filter_ext. intros []; reflexivity. }
    rewrite Ef. unfold NI14. apply isize_len. assert (K := filter_le is_iso (photons_of b)). unfold len in *. lia.
  - destruct b as [nk|p ps]; cbn [photons_of] in *; [constructor|]. rewrite Ei. apply Forall_app. split.
    + eapply Forall_impl; [|exact F1]. cbv beta. auto.
    + destruct ani as [|a ani]; [constructor|]. assert (L := LTT_last iso (a :: ani) k p ps Ei F1 F2 ltac:(discriminate)).
      cbn [LTT14]. rewrite L. eapply Forall_impl; [|exact F2]. cbv beta. auto.
Qed.

