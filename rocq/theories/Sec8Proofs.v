(** Sec8Proofs.v -- File 8 satisfies [section_rt]; no undefined behaviour on tame texts. *)
From Coq Require Import ZifyBool ZifyNat.
From Verif Require Import Base Disco DiscoProofs Records RecordProofs RecordRT RecordSound Layout
  RealRound RealProofs Spec Normal LineFacts Sections SecSpec Codec SectionProofs SecKit CodecKit
  Sec9 Sec9Spec Sec9Proofs Sec6 Sec6Spec Sec6Proofs Sec6Safe Sec33 Sec33Spec Sec33Proofs Sec33Safe Sec8 Sec8Spec.
Open Scope Z_scope.

Lemma as_int_det z n m : as_int z n -> as_int z m -> n = m.
Proof. rewrite !as_int_eq. congruence. Qed.
(** ** the checks *)
Lemma check_yield_spec l : check_yield l = Val tt <-> inv_yield l.
Proof.
  unfold check_yield, inv_yield, values_are. rewrite obind_val. split.
  - intros (p & E & K). apply int_op_val in E. destruct E as [-> _]. apply ensure_val in K.
    exists (i32 (lN2 l)), (i32 (npl l)). split; [apply as_int_i32|]. split; [apply as_int_i32|lia].
  - intros (nl & nw & A & B & E). assert (In : int32 nw) by apply B. apply as_int_get in A, B. exists nw.
    split; [apply int_op_val; rewrite A, <- E; auto|apply ensure_val; unfold npl; fold (len (lB l)); lia].
Qed.
Lemma check_energies_spec l : check_energies l = Val tt <-> inv_energies l.
Proof.
  unfold check_energies, inv_energies, NCE, npl. fold (len (lB l)). rewrite ensure_val, Z.quot_div_nonneg by (unfold len; lia). split.
  - intros E. exists (i32 (len (lB l) / 2)). split; [apply as_int_i32|lia].
  - intros (n & A & B). apply as_int_get in A. lia.
Qed.
Lemma check_modes_spec l : check_modes l = Val tt <-> inv_modes l.
Proof.
  unfold check_modes, inv_modes, values_are, NDK, npl. fold (len (lB l)). destruct (Z.eqb_spec (i32 (lN2 l)) 0) as [E|E].
  - rewrite ensure_val. split.
    + intros K. exists 0, 6. rewrite !as_int_eq. split; [exact E|]. split; [lia|reflexivity].
    + intros (n & m & A & B & K). apply as_int_get in A, B. rewrite E in A. subst n. cbn in K. lia.
  - rewrite obind_val. split.
    + intros (p & K & K2). apply int_op_val in K. destruct K as [-> _]. apply ensure_val in K2.
      exists (i32 (lN2 l)), (i32 (len (lB l))). split; [apply as_int_i32|]. split; [apply as_int_i32|]. destruct (Z.eqb_spec (i32 (lN2 l)) 0); lia.
    + intros (n & m & A & B & K). assert (In : int32 m) by apply B. apply as_int_get in A, B. rewrite A in *. destruct (Z.eqb_spec n 0); [contradiction|]. exists m.
      split; [apply int_op_val; rewrite <- K; auto|apply ensure_val; lia].
Qed.
Lemma check_discrete_spec l : check_discrete l = Val tt <-> inv_discrete l.
Proof.
  unfold check_discrete, inv_discrete, npl. fold (len (lB l)). cbv zeta. rewrite ensure_val. split.
  - intros E. exists (i32 (len (lB l))). split; [apply as_int_i32|lia].
  - intros (n & A & B). apply as_int_get in A. lia.
Qed.

(** ** fission yields *)
Lemma body_yields mt : 0 < mt < 1000 -> body_cod (sec_yields mt) (Forall endf_list) (many_of inv_yield).
Proof.
  intros Hm. split; [cbn; lia|cbn; lia| |].
  - intros m R [I1 I2]. cbn. ints4. apply cols32, int32_len, I2.
  - intros h awr _. apply (cod_imp _ _ _ _ _ (cod_all _ _ _ _ _ (l1 (sbase h)) (cod_checked _ _ check_yield_spec))).
    + intros l [R E] [I1 I2]. unfold head_ints in E. injection E as E1 E2 E3 E4. rewrite E1. fold (len l). rewrite i32_id by (apply int32_len, I2). auto.
    + intros l [F L]. split; [exact F|]. rewrite L. apply i32_pos_bound.
Qed.
Lemma rt_yields mt : 0 < mt < 1000 -> section_rt (sec_yields mt) (Forall endf_list) (many_of inv_yield).
Proof. intros H. apply body_section, body_yields, H. Qed.

(** ** decay data *)
Lemma cod_continuous l : cod (fun c => forall t, c = Some t -> rep_tab1 t) (fun c => (LCON l = 0 <-> c = None) /\ forall t, c = Some t -> inv_tab1 t)
  (rd_continuous l) (pr_opt pr_tab1) (nc_opt nc_tab1).
Proof.
  unfold rd_continuous. destruct (Z.eqb_spec (LCON l) 0) as [E|E].
  - refine (cod_ret None _ _ _ _ _ _ _ _); [|split; [tauto|discriminate]|reflexivity|reflexivity]. intros x _ [[H _] _]. auto.
  - eapply (cod_inj Some); [apply cod_tab1|reflexivity|reflexivity| |].
    + intros [t|] R [H I]; [|tauto]. exists t. auto.
    + intros t I. split; [split; [tauto|discriminate]|]. intros t' K. injection K as <-. exact I.
Qed.
Lemma std_continuous l : std3 (rd_continuous l).
Proof. unfold rd_continuous. intros mat mf mt. destruct (_ =? 0); [apply only_std_ret|apply only_std_bind; [apply std_tab1|intros; apply only_std_ret]]. Qed.
Lemma bind_assoc_st {A B C} (m : M A) (f : A -> M B) (g : B -> M C) s : bind (bind m f) g s = bind m (fun a => bind (f a) g) s.
Proof. unfold bind. destruct (m s); reflexivity. Qed.
Lemma bind_ext {A B} (m : M A) (f g : A -> M B) s : (forall a s', f a s' = g a s') -> bind m f s = bind m g s.
Proof. intros H. unfold bind. destruct (m s); auto. Qed.
Lemma eta_spec8 x : mkspec8 (sp_data x) (fst (sp_discrete x, sp_cont x)) (snd (sp_discrete x, sp_cont x)) = x.
Proof. now destruct x. Qed.
Lemma eta_spec8p (a : listr) (b : list listr * option tab1) : (sp_discrete (mkspec8 a (fst b) (snd b)), sp_cont (mkspec8 a (fst b) (snd b))) = b.
Proof. now destruct b. Qed.
Lemma cod_spectrum8 : cod rep_spectrum8 inv_spectrum8 rd_spectrum8 pr_spectrum8 nc_spectrum8.
Proof.
  assert (D := cod_dep (fun l p => mkspec8 l (fst p) (snd p)) sp_data (fun x => (sp_discrete x, sp_cont x)) endf_list any rd_list pr_list nc_list
    _ _ _ _ _ eta_spec8 (fun a b => eq_refl) eta_spec8p cod_list
    (fun l => cod_pair _ _ _ _ _ _ _ _ _ _ (cod_all _ _ _ _ _ (lN2 l) (cod_checked _ _ check_discrete_spec)) (cod_continuous l))).
  cbn [fst snd] in D.
  assert (D2 := cod_check _ _ _ _ _ (cod_check _ _ _ _ _ D discrete_ok) lcov_ok).
  refine (cod_ext _ _ _ _ _ _ (cod_nc _ _ _ _ _ _ (cod_imp _ _ _ _ _ D2 rep_spectrum8 inv_spectrum8 _ _) _) _).
  - intros x (R1 & R2 & R3) (I1 & I2 & I3 & I4 & I5 & I6). split; [auto|]. 
    assert (L : len (sp_discrete x) = i32 (lN2 (sp_data x))) by (apply as_int_get in I1; lia).
    assert (B : len (sp_discrete x) < 2 ^ 31) by (rewrite L; apply i32_pos_bound).
    rewrite as_int_eq in *. unfold LCON.
    split; [split; [split; [exact Logic.I|split; [split; [exact I2|exact L]|split; assumption]]|]|].
    + unfold discrete_ok, LCON. rewrite isize_len by exact B. destruct (Z.eqb_spec (i32 (lL1 (sp_data x))) 2) as [E|]; [|reflexivity]. apply I5 in E.
      destruct (sp_discrete x); [contradiction|]. unfold len. cbn [length]. lia.
    + unfold lcov_ok. lia.
  - intros x [[(_ & (F & L) & C1 & C2) K1] K2]. unfold inv_spectrum8. rewrite !as_int_eq. unfold LCON in *.
    split; [lia|]. split; [exact F|]. split; [exact C1|]. split; [exact C2|]. split; [|unfold lcov_ok in K2; lia].
    intros E N. unfold discrete_ok, LCON in K1. rewrite E, N in K1. discriminate K1.
  - intros x. unfold nc_spectrum8. lia.
  - intros mat mf mt s. unfold rd_spectrum8. rewrite !bind_assoc_st. apply bind_ext. intros l s1. rewrite !bind_assoc_st. apply bind_ext. intros ds s2.
    rewrite !bind_assoc_st. apply bind_ext. intros c s3. unfold bind, ret. cbn [fst snd]. cbv zeta. unfold require. destruct (discrete_ok _); [|reflexivity]. unfold ret. cbv beta iota. destruct (lcov_ok _); reflexivity.
Qed.
Lemma u32_id z : 0 <= z < 2 ^ 32 -> u32 z = z.
Proof. intros H. unfold u32. apply Z.mod_small. lia. Qed.
Lemma u32_range z : 0 <= u32 z < 2 ^ 32.
Proof. unfold u32. apply Z.mod_pos_bound. lia. Qed.
Lemma u32_i32 z : u32 (i32 z) = u32 z.
Proof.
  destruct (as_int_i32 z) as [_ E]. unfold u32. apply Z.mod_divide in E; [|lia]. destruct E as [k E].
  replace z with (i32 z + k * 4294967296) at 2 by lia. now rewrite Z.mod_add.
Qed.
Lemma cod_decay8 lis liso nsp : cod (fun d => rep_decay8 d /\ d_lis d = u32 (i32 lis) /\ d_liso d = u32 (i32 liso) /\ len (d_spectra d) = i32 nsp) inv_decay8
  (rd_decay8 lis liso nsp) pr_decay8 nc_decay8.
Proof.
  refine (cod_ext _ _ _ _ _ _ (cod_nc _ _ _ _ _ _ (cod_inj (fun p => mkdecay8 (u32 (i32 lis)) (u32 (i32 liso)) (fst p) (fst (snd p)) (snd (snd p))) _ _ pr_decay8 nc_decay8 _ _ _ _ _
    (cod_pair _ _ _ _ _ _ _ _ _ _ (cod_checked _ _ check_energies_spec)
      (cod_pair _ _ _ _ _ _ _ _ _ _ (cod_checked _ _ check_modes_spec) (cod_all _ _ _ _ _ nsp cod_spectrum8))) _ _ _ _) _) _).
  - reflexivity.
  - intros [a [b c]]. unfold nc_decay8. cbn [d_energies d_modes d_spectra fst snd]. lia.
  - intros d ((R1 & R2 & R3) & E1 & E2 & L) (I1 & I2 & I3 & I4 & I5 & I6). exists (d_energies d, (d_modes d, d_spectra d)). cbn [fst snd].
    rewrite <- E1, <- E2. split; [now destruct d|]. auto.
  - intros [a [b c]] (Ia & Ib & Ic & L). cbn [fst snd] in *. unfold inv_decay8. cbn [d_lis d_liso d_energies d_modes d_spectra].
    split; [apply u32_range|]. split; [apply u32_range|]. split; [exact Ia|]. split; [exact Ib|]. split; [exact Ic|]. rewrite L. apply i32_pos_bound.
  - reflexivity.
  - intros mat mf mt s. unfold rd_decay8. rewrite !bind_assoc_st. apply bind_ext. intros e s1. rewrite !bind_assoc_st. apply bind_ext. intros m s2.
    rewrite !bind_assoc_st. apply bind_ext. intros ss s3. reflexivity.
Qed.
Lemma body_457 : body_cod sec_8_457 rep_decay8 inv_decay8.
Proof.
  split; [cbn; lia|cbn; lia| |].
  - intros d R (I1 & I2 & _). cbn. ints4.
    + unfold in_cols. cbn. lia.
    + unfold in_cols. cbn. lia.
    + destruct (d_nst d); cols.
    + assert (K := u32_range (Z.of_nat (length (d_spectra d)))). unfold in_cols. cbn. lia.
  - intros h awr _. apply (cod_imp _ _ _ _ _ (cod_decay8 (l1 (sbase h)) (l2 (sbase h)) (n2 (sbase h)))); [|auto].
    intros d [R E] In. split; [|exact In]. destruct In as (I1 & I2 & _ & _ & _ & I3). cbn in E. unfold head_ints in E. injection E as E1 E2 E3 E4.
    rewrite E1, E2, E4, !u32_i32, !(u32_id _ I1), !(u32_id _ I2). split; [exact R|]. split; [reflexivity|]. split; [reflexivity|]. fold (len (d_spectra d)).
    rewrite u32_id by (assert (P := len_nonneg (d_spectra d)); lia). symmetry. apply i32_id, int32_len, I3.
Qed.
Lemma rt_457 : section_rt sec_8_457 rep_decay8 inv_decay8.
Proof. apply body_section, body_457. Qed.

(** ** no undefined behaviour *)
Lemma never_section_any {B} (k : skind B) h mat s : int32 (round_int (c1 (sbase h))) ->
  never_other (k_read k h (k_rmat k h mat) (k_mf k) (k_rmt k h) s) -> never_other (rd_section k h mat s).
Proof.
  intros Hz H. unfold rd_section. apply never_bind.
  - apply never_std. unfold sec_head. apply only_std_bind.
    + unfold head_za32. cbv zeta. unfold int32 in Hz. destruct (Z.leb_spec (-2147483648) (round_int (c1 (sbase h)))); [|lia]. destruct (Z.ltb_spec (round_int (c1 (sbase h))) 2147483648); [|lia]. apply only_std_ret.
    + intros za. repeat (apply only_std_bind; [apply only_std_require|intros]). apply only_std_ret.
  - intros [za awr] s' E. assert (Q : s' = s).
    { revert E. unfold sec_head. intros E. apply bind_ok in E. destruct E as (za' & s2 & E2 & E).
      assert (s2 = s) by (unfold lift in E2; destruct (head_za32 h); [injection E2 as _ <-; reflexivity|discriminate|discriminate]). subst s2.
      do 4 (apply bind_ok in E; destruct E as (? & ? & E3 & E); apply require_ok in E3; destruct E3 as [?S ->]).
      injection E as _ _ <-. reflexivity. }
    subst s'. apply never_bind; [exact H|]. intros b s1 _. apply never_std. apply only_std_bind; [|intros; apply only_std_ret].
    unfold rd_SEND. apply only_std_bind; [apply only_std_sdiv|intros]. repeat (apply only_std_bind; [apply only_std_require|intros]). apply only_std_require.
Qed.
Lemma never_check_yield l s : small l -> never_other (lift (check_yield l) s).
Proof. intros H%small_i32. unfold check_yield. apply never_op; [unfold int32; lia|apply never_ensure]. Qed.
Lemma safe_yields mt h mat s : int32 (round_int (c1 (sbase h))) -> tame_yields mt (buf s) -> never_other (rd_section (sec_yields mt) h mat s).
Proof.
  intros Hz Tm. apply never_section_any; [exact Hz|]. cbn [sec_yields k_read k_mf]. change (k_rmt (sec_yields mt) h) with mt. change (k_rmat (sec_yields mt) h mat) with mat.
  apply never_all. intros k ls s1 L F. apply rd_n_checked in F. apply never_checked. intros l s2 E2. destruct s as [b ln]. apply never_check_yield. exact (Tm mat ln k ls s1 l s2 F E2).
Qed.
Lemma std_spectrum8 : std3 rd_spectrum8.
Proof.
  intros mat mf mt. unfold rd_spectrum8. apply only_std_bind; [apply std_list|intros l]. apply only_std_bind.
  - apply std_all. intros a b c. unfold rd_checked. apply only_std_bind; [apply std_list|intros x]. apply only_std_bind; [|intros; apply only_std_ret].
    intros s. apply never_ensure.
  - intros ds. apply only_std_bind; [apply std_continuous|intros c]. cbv zeta. apply only_std_bind; [apply only_std_require|intros]. apply only_std_bind; [apply only_std_require|intros; apply only_std_ret].
Qed.
Lemma safe_457 h mat s : int32 (round_int (c1 (sbase h))) -> tame457 (buf s) -> never_other (rd_section sec_8_457 h mat s).
Proof.
  intros Hz Tm. apply never_section_any; [exact Hz|]. cbn [sec_8_457 k_read k_mf]. change (k_rmt sec_8_457 h) with 457. change (k_rmat sec_8_457 h mat) with mat.
  unfold rd_decay8. apply never_bind; [apply never_checked; intros; apply never_ensure|]. intros e s1 E1.
  assert (E1' : rd_n (rd_list mat 8 457) 1 s = Ok [e] s1) by (apply rd_n_checked with check_energies; cbn [rd_n]; unfold bind; rewrite E1; reflexivity).
  apply never_bind.
  - apply never_checked. intros l s2 E2. destruct s as [b ln]. assert (K : small l).
    { cbn [rd_n] in E1'. unfold bind in E1'. destruct (rd_list mat 8 457 (mkst b ln)) as [e' s'| |] eqn:Q; [|discriminate..]. cbn [ret] in E1'. injection E1' as -> ->. exact (Tm mat ln e s1 l s2 Q E2). }
    apply small_i32 in K. unfold check_modes, NDK. destruct (_ =? 0); [apply never_ensure|]. apply never_op; [unfold int32; lia|apply never_ensure].
  - intros m s2 _. apply never_std. apply only_std_bind; [apply std_all, std_spectrum8|intros; apply only_std_ret].
Qed.
