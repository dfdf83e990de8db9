(** Sec2Proofs.v -- File 2 satisfies [section_rt]; no undefined behaviour on tame texts. *)
From Coq Require Import ZifyBool ZifyNat.
From Verif Require Import Base Disco DiscoProofs Records RecordProofs RecordRT RecordSound Layout
  RealRound RealProofs Spec Normal LineFacts Sections SecSpec Codec SectionProofs SecKit CodecKit
  Sec9 Sec9Spec Sec9Proofs Sec4Spec Sec4Proofs Sec6 Sec6Spec Sec6Proofs Sec6Safe Sec33 Sec33Spec Sec33Proofs Sec33Safe Sec8 Sec8Spec Sec8Proofs
  Sec7 Sec7Spec Sec7Proofs Sec2 Sec2Spec.
Open Scope Z_scope.

(** ** combinators *)
Lemma cod_pr {A} (R I : A -> Prop) (rd : Z -> Z -> Z -> M A) pr nc pr' nc' : cod R I rd pr nc ->
  (forall x, R x -> I x -> (forall mat mf mt, pr' x mat mf mt = pr x mat mf mt) /\ nc' x = nc x) -> cod R I rd pr' nc'.
Proof.
  intros [H1 H2 H3 H4] E. split; intros mat mf mt; auto; intros x G Rx Ix; destruct (E x Rx Ix) as [-> ->]; auto.
Qed.
(** a CONT record with a count in N1, that many items *)
Lemma cod_counted {A E} (hd : A -> cont) (items : A -> list E) (mk : cont -> list E -> out A) (R I : A -> Prop) rep inv (rd : Z -> Z -> Z -> M E) pr nc :
  cod rep inv rd pr nc ->
  (forall x, R x -> I x -> okcont (hd x) /\ Forall rep (items x) /\ Forall inv (items x) /\ len (items x) = i32 (n1 (hd x)) /\ mk (hd x) (items x) = Val x) ->
  (forall c l x, many_of inv l -> mk c l = Val x -> I x) ->
  cod R I (fun mat mf mt => c <- rd_cont mat mf mt ;; l <- rd_all rd (n1 c) mat mf mt ;; lift (mk c l))
    (fun x mat mf mt => pr_cont (hd x) mat mf mt ++ pr_all pr (items x) mat mf mt) (fun x => 1 + nc_all nc (items x)).
Proof.
  intros H K1 K2. apply (cod_headed hd R I (fun c mat mf mt => l <- rd_all rd (n1 c) mat mf mt ;; lift (mk c l))).
  - intros x Rx Ix. apply (K1 x Rx Ix).
  - intros c. refine (cod_map (mk c) items _ _ _ _ _ _ _ (cod_all _ _ _ _ _ (n1 c) H) _ _).
    + intros x [Rx ->] Ix. destruct (K1 x Rx Ix) as (_ & A1 & A2 & A3 & A4). auto.
    + intros l x [F L] E1. apply (K2 c l x); [|exact E1]. split; [exact F|]. rewrite L. apply i32_pos_bound.
Qed.
Lemma z2b_b2z b : z2b (b2z b) = b. Proof. now destruct b. Qed.
Lemma b2z_z2b z : b2z (z2b z) = 0 <-> z = 0. Proof. unfold z2b. destruct (Z.eqb_spec z 0); cbn; lia. Qed.
Lemma int32_b2z b : int32 (b2z b). Proof. destruct b; unfold int32; cbn; lia. Qed.
Lemma i32_b2z b : i32 (b2z b) = b2z b. Proof. apply i32_id, int32_b2z. Qed.
Lemma one_val {A} (l : list A) : len l < 2 ^ 31 -> at_least_one l = Val tt <-> 0 < len l.
Proof. intros H. unfold at_least_one. rewrite ensure_val, isize_len by exact H. lia. Qed.
Lemma one_bind {A B} (l : list A) (b c : B) : len l < 2 ^ 31 -> (let! u := at_least_one l in Val b) = Val c <-> 0 < len l /\ b = c.
Proof.
  intros H. rewrite obind_val. split.
  - intros ([] & E & K). apply one_val in E; [|exact H]. injection K as ->. auto.
  - intros [P ->]. exists tt. split; [now apply one_val|reflexivity].
Qed.

(** ** 152 *)
Lemma check_152_spec l : check_152 l = Val tt <-> inv_152_list l.
Proof.
  unfold check_152, inv_152_list, NREAC, NSIGZ, NUNR, npl. fold (len (lB l)). split.
  - intros E. repeat (apply obind_val in E; let H := fresh in destruct E as (? & H & E); apply int_op_val in H; destruct H as [-> ?]). apply ensure_val in E.
    exists (i32 (lL1 l)), (i32 (lL2 l)), (i32 (lN2 l)), (i32 (len (lB l))). split; [apply as_int_i32|]. split; [apply as_int_i32|]. split; [apply as_int_i32|]. split; [apply as_int_i32|].
    split; [assumption|]. split; [assumption|]. split; [assumption|lia].
  - intros (a & b & c & d & A & B & C & D & E1 & E2 & E3 & ->). assert (F : int32 ((a * b + 1) * c + b)) by apply D. apply as_int_get in A, B, C, D. rewrite A, B, C, D.
    apply obind_val. exists (a * b). split; [apply int_op_val; auto|]. apply obind_val. exists (a * b + 1). split; [apply int_op_val; auto|].
    apply obind_val. exists ((a * b + 1) * c). split; [apply int_op_val; auto|]. apply obind_val. exists ((a * b + 1) * c + b). split; [apply int_op_val; auto|].
    apply ensure_val. lia.
Qed.
Lemma body_152 : body_cod sec_2_152 rep_152 inv_152.
Proof.
  split; [cbn; lia|cbn; lia| |].
  - intros x R (I1 & _). cbn [sec_2_152 k_ints]. assert (K := int32_b2z (sh_lssf x)). ints4; apply cols32; assumption.
  - intros h awr _. eapply (cod_inj (mkshielding (z2b (l1 (sbase h))) (i32 (n2 (sbase h))))); [apply (cod_checked _ _ check_152_spec)|reflexivity|reflexivity| |].
    + intros x [R E] (I1 & I2). cbn in E. unfold head_ints in E. injection E as E1 E2 E3 E4. exists (sh_data x). rewrite E1, E4, z2b_b2z, i32_id by exact I1.
      split; [now destruct x|]. split; assumption.
    + intros l I1. split; [apply i32_range|exact I1].
Qed.
Lemma rt_152 : section_rt sec_2_152 rep_152 inv_152.
Proof. apply body_section, body_152. Qed.
Lemma safe_152 h mat s : int32 (round_int (c1 (sbase h))) -> tame152 (smat h) (buf s) -> never_other (rd_section sec_2_152 h mat s).
Proof.
  intros Hz Tm. apply never_section_any; [exact Hz|]. cbn [sec_2_152 k_read k_mf]. change (k_rmt sec_2_152 h) with 152. change (k_rmat sec_2_152 h mat) with (smat h).
  destruct s as [b ln]. unfold rd_152. apply never_bind; [|intros; exact I]. apply never_checked. intros l s' E.
  assert (K := Tm ln l s' E _ _ _ (as_int_i32 _) (as_int_i32 _) (as_int_i32 _)). unfold check_152, NREAC, NSIGZ, NUNR. revert K. generalize (i32 (lL1 l)) (i32 (lL2 l)) (i32 (lN2 l)).
  intros u v w (K1 & K2 & K3). assert (B1 : Z.abs (u * v) <= 2 ^ 16) by nia. assert (B2 : Z.abs ((u * v + 1) * w) <= 2 ^ 14 * (2 ^ 16 + 1)) by nia.
  apply never_op; [unfold int32; lia|]. apply never_op; [unfold int32; lia|]. apply never_op; [unfold int32; lia|]. apply never_op; [unfold int32; lia|]. apply never_ensure.
Qed.

(** ** resolved resonances *)
Lemma check_lvalue_spec l : check_lvalue l = Val tt <-> inv_lvalue l.
Proof.
  unfold check_lvalue, inv_lvalue, npl. fold (len (lB l)). split.
  - intros E. apply obind_val in E. destruct E as ([] & E1 & E). apply obind_val in E. destruct E as ([] & E2 & E). apply obind_val in E. destruct E as (p & E3 & E).
    apply int_op_val in E3. destruct E3 as [-> B]. apply ensure_val in E1, E2, E. exists (i32 (lN2 l)). split; [lia|]. split; [apply as_int_i32|]. apply as_int_eq. lia.
  - intros (n & P & A & B). assert (F : int32 (6 * n)) by apply B. apply as_int_get in A, B. rewrite A, B. apply obind_val. exists tt. split; [apply ensure_val; lia|].
    apply obind_val. exists tt. split; [apply ensure_val; lia|]. apply obind_val. exists (6 * n). split; [apply int_op_val; auto|apply ensure_val; lia].
Qed.
Lemma cod_resolved mk (I : resolved -> Prop) : (forall x, I x -> inv_resolved x) ->
  (forall x, I x -> mk (rs_spi x) (rs_ap x) (rs_lad x) (rs_nlsc x) (rs_lvalues x) = Val x) ->
  (forall spi ap lad nlsc ls x, int32 nlsc -> many_of inv_lvalue ls -> mk spi ap lad nlsc ls = Val x -> I x) ->
  cod rep_resolved I (rd_resolved mk) pr_resolved nc_resolved.
Proof.
  intros H1 H2 H3. refine (cod_counted resolved_head rs_lvalues (fun c ls => mk (c1 c) (c2 c) (z2b (l1 c)) (i32 (n2 c)) ls) _ _ _ _ _ _ _ (cod_checked _ _ check_lvalue_spec) _ _).
  - intros x (R1 & R2 & R3) Ix. destruct (H1 x Ix) as (I1 & I2 & I3). split; [|split; [exact R3|]].
    + apply ok_small_cont; auto using endf_okr, int32_b2z, int32_0, int32_isize.
    + split; [exact I2|]. cbn [resolved_head c1 c2 l1 l2 n1 n2]. rewrite i32_isize by lia. split; [reflexivity|]. rewrite z2b_b2z, i32_id by exact I1. auto.
  - intros c ls x M E. eapply H3; eauto. apply i32_range.
Qed.
Lemma make_resolved_val spi ap lad nlsc ls x : len ls < 2 ^ 31 -> make_resolved spi ap lad nlsc ls = Val x <-> 0 < len ls /\ mkresolved spi ap lad nlsc ls = x.
Proof. intros H. now apply one_bind. Qed.
Lemma cod_bw : cod rep_resolved inv_resolved (rd_resolved make_resolved) pr_resolved nc_resolved.
Proof.
  apply cod_resolved; [auto| |].
  - intros x (I1 & I2 & I3). apply make_resolved_val; [lia|]. split; [lia|now destruct x].
  - intros spi ap lad nlsc ls x In [M1 M2] E. apply make_resolved_val in E; [|exact M2]. destruct E as [P <-]. split; [exact In|]. split; [exact M1|cbn; lia].
Qed.
Lemma cod_rm : cod rep_resolved inv_reich_moore (rd_resolved make_reich_moore) pr_resolved nc_resolved.
Proof.
  apply cod_resolved; [intros x [H _]; exact H| |].
  - intros x ((I1 & I2 & I3) & I4). unfold make_reich_moore. apply obind_val. exists x. split; [apply make_resolved_val; [lia|]; split; [lia|now destruct x]|].
    apply obind_val. exists tt. split; [|reflexivity]. apply ensure_val. rewrite isize_len by lia. lia.
  - intros spi ap lad nlsc ls x In [M1 M2] E. unfold make_reich_moore in E. apply obind_val in E. destruct E as (y & E & K). apply make_resolved_val in E; [|exact M2]. destruct E as [P <-].
    apply obind_val in K. destruct K as ([] & K & J). apply ensure_val in K. injection J as <-. rewrite isize_len in K by lia. split; [|cbn; lia]. split; [exact In|]. split; [exact M1|cbn; lia].
Qed.

(** ** unresolved resonances *)
Lemma check_independent_spec l : check_independent l = Val tt <-> inv_independent l.
Proof.
  unfold check_independent, inv_independent, values_are, npl. fold (len (lB l)). rewrite obind_val. split.
  - intros (p & E & K). apply int_op_val in E. destruct E as [-> _]. apply ensure_val in K.
    exists (i32 (lN2 l)), (i32 (len (lB l))). split; [apply as_int_i32|]. split; [apply as_int_i32|lia].
  - intros (nl & nw & A & B & E). assert (In : int32 nw) by apply B. apply as_int_get in A, B. exists nw.
    split; [apply int_op_val; rewrite A; split; [lia|replace (6 * nl) with nw by lia; exact In]|apply ensure_val; lia].
Qed.
Lemma cod_unresolved {A} rep inv (rd : Z -> Z -> Z -> M A) pr nc : cod rep inv rd pr nc ->
  cod (rep_unresolved rep) (inv_unresolved inv) (rd_unresolved rd) (pr_unresolved pr) (nc_unresolved nc).
Proof.
  intros H. refine (cod_counted unresolved_head un_lvalues (fun c ls => make_unresolved (c1 c) (c2 c) (z2b (l1 c)) ls) _ _ _ _ _ _ _ H _ _).
  - intros x (R1 & R2 & R3) (I2 & I3). split; [|split; [exact R3|]].
    + apply ok_small_cont; auto using endf_okr, int32_b2z, int32_0, int32_isize.
    + split; [exact I2|]. cbn [unresolved_head c1 c2 l1 l2 n1 n2]. rewrite i32_isize by lia. split; [reflexivity|]. rewrite z2b_b2z. apply one_bind; [lia|]. split; [lia|now destruct x].
  - intros c ls x [M1 M2] E. apply one_bind in E; [|exact M2]. destruct E as [P <-]. split; [exact M1|cbn; lia].
Qed.
Lemma cod_jgroup chk P : (forall l, chk l = Val tt <-> P l) -> cod rep_jgroup (inv_jgroup P) (rd_jgroup chk) pr_jgroup nc_jgroup.
Proof.
  intros H. refine (cod_counted jgroup_head jg_j (fun c ls => make_jgroup (c1 c) (i32 (l1 c)) ls) _ _ _ _ _ _ _ (cod_checked _ _ H) _ _).
  - intros x (R1 & R3) (I1 & I2 & I3). split; [|split; [exact R3|]].
    + apply ok_small_cont; auto using endf_okr, int32_b2z, int32_0, int32_isize, okr_rzero.
    + split; [exact I2|]. cbn [jgroup_head c1 c2 l1 l2 n1 n2]. rewrite i32_isize by lia. split; [reflexivity|]. rewrite i32_id by exact I1. apply one_bind; [lia|]. split; [lia|now destruct x].
  - intros c ls x [M1 M2] E. apply one_bind in E; [|exact M2]. destruct E as [Q <-]. split; [apply i32_range|]. split; [exact M1|cbn; lia].
Qed.
Lemma drop_val k (l : list real) b : drop_exactly k l = Val b <-> 0 <= k <= len l /\ b = skipn (Z.to_nat k) l.
Proof.
  unfold drop_exactly, len. destruct ((k <? 0) || (Z.of_nat (length l) <? k)) eqn:E.
  - split; [discriminate|]. lia.
  - split; [intros K; injection K as <-; split; [lia|reflexivity]|]. intros [_ ->]. reflexivity.
Qed.
(** the energies of case C: every sixth number after the first six *)
Lemma jc_NE_val l n : jc_NE l = Val n <-> 6 <= len (lB l) /\ n = ((len (lB l) - 1) / 6) mod 2 ^ 32.
Proof.
  unfold jc_NE, jc_ES, column7, col_of. rewrite obind_val. setoid_rewrite obind_val. setoid_rewrite drop_val.
  assert (Q : forall b : list real, (6 <= length b)%nat -> Z.of_nat (length (stride 6 (skipn 6 b))) = (len b - 1) / 6).
  { intros b Hb. assert (S := stride_length 6 (skipn 6 b)). revert S. generalize (length (stride 6 (skipn 6 b))). intros m S.
    rewrite skipn_length in S. assert (S1 := S m). assert (S2 := S (m + 1)%nat). unfold len. apply Z.div_unique with (r := (Z.of_nat (length b) - 1) mod 6 + (Z.of_nat (length b) - 1) / 6 * 6 - 6 * Z.of_nat m); [|].
    - assert (D := Z.div_mod (Z.of_nat (length b) - 1) 6). lia.
    - assert (D := Z.div_mod (Z.of_nat (length b) - 1) 6). lia. }
  split.
  - intros (es & (b & [[B1 B2] ->] & E) & K). change (Z.to_nat (0 + 6)) with 6%nat in E. assert (E' : es = stride 6 (skipn 6 (lB l))) by congruence. assert (K' : n = u32 (Z.of_nat (length es))) by congruence. subst es n. clear E K. unfold len in B2. split; [unfold len; lia|]. unfold u32. rewrite Q by lia. reflexivity.
  - intros [B ->]. eexists. split; [eexists; split; [split; [|reflexivity]|reflexivity]|]; [unfold len in *; lia|]. f_equal. unfold u32. change (Z.to_nat (0 + 6)) with 6%nat. rewrite Q by (unfold len in B; lia). reflexivity.
Qed.
Lemma check_dependent_spec l : check_dependent l = Val tt <-> inv_dependent l.
Proof.
  unfold check_dependent, inv_dependent. rewrite obind_val. setoid_rewrite jc_NE_val. unfold npl. fold (len (lB l)). split.
  - intros (n & [B ->] & E). apply obind_val in E. destruct E as ([] & E1 & E2). apply ensure_val in E1, E2. set (q := (len (lB l) - 1) / 6) in *.
    assert (D := Z.div_mod (len (lB l) - 1) 6). fold q in D. assert (D2 := Z.mod_pos_bound (len (lB l) - 1) 6). exists q.
    assert (P := Z.mod_pos_bound q (2 ^ 32)).
    split; [lia|]. split; [|lia]. apply Z.eqb_eq in E2. unfold u32 in E2.
    assert (X : (len (lB l)) mod 2 ^ 32 = (6 + 6 * q) mod 2 ^ 32).
    { change 4294967296 with (2 ^ 32) in E2. rewrite E2. rewrite Z.add_mod_idemp_r by lia. rewrite <- Z.add_mod_idemp_r by lia. rewrite Z.mul_mod_idemp_l by lia. rewrite Z.add_mod_idemp_r by lia. f_equal. lia. }
    assert (Y : (len (lB l) - (6 + 6 * q)) mod 2 ^ 32 = 0) by (rewrite Zminus_mod, X, Z.sub_diag; reflexivity).
    apply Z.mod_divide in Y; [|lia]. destruct Y as [k Y]. assert (k = 0) by lia. lia.
  - intros (ne & N & L & P). assert (M := Z.mod_pos_bound ne (2 ^ 32)).
    exists (ne mod 2 ^ 32). split; [split; [lia|]|].
    + f_equal. apply Z.div_unique with (r := 5); lia.
    + apply obind_val. exists tt. split; apply ensure_val; [lia|]. apply Z.eqb_eq. unfold u32. change 4294967296 with (2 ^ 32).
      rewrite Z.add_mod_idemp_r by lia. rewrite L. rewrite <- (Z.add_mod_idemp_r 6 (ne mod 2 ^ 32 * 6)) by lia. rewrite Z.mul_mod_idemp_l by lia. rewrite Z.add_mod_idemp_r by lia. f_equal. lia.
Qed.
Lemma cod_C : cod rep_jgroup (inv_jgroup inv_dependent) (rd_jgroup check_dependent) pr_jgroup nc_jgroup.
Proof. apply cod_jgroup, check_dependent_spec. Qed.
(** case B *)
Lemma jb_NE_val l n : jb_NE l = Val n <-> widths_for n l.
Proof.
  unfold jb_NE, jb_GF, widths_for. rewrite obind_val. setoid_rewrite drop_val. split.
  - intros (g & [B ->] & K). assert (K' : n = u32 (Z.of_nat (length (skipn (Z.to_nat 6) (lB l))))) by congruence. clear K. subst n. split; [lia|]. rewrite skipn_length. unfold u32, len in *. f_equal. lia.
  - intros [B <-]. eexists. split; [split; [lia|reflexivity]|]. rewrite skipn_length. unfold u32, len in *. do 2 f_equal. lia.
Qed.
Lemma widths_fun a b l : widths_for a l -> widths_for b l -> a = b.
Proof. intros [_ <-] [_ <-]. reflexivity. Qed.
Lemma check_widths_spec l : check_widths l = Val tt <-> exists ne, 0 < ne /\ widths_for ne l.
Proof.
  unfold check_widths. rewrite obind_val. setoid_rewrite jb_NE_val. setoid_rewrite ensure_val. split; intros (n & A & B); exists n; (split; [lia || assumption|lia || assumption]).
Qed.
Lemma same_NE_spec js : same_NE js = true -> js <> [] -> exists ne, Forall (widths_for ne) js.
Proof.
  destruct js as [|j js]; [congruence|]. intros E _. cbn [same_NE] in E. rewrite forallb_forall in E. assert (E0 := E j (or_introl eq_refl)).
  destruct (jb_NE j) as [n| |] eqn:Ej; try discriminate. exists n. apply Forall_forall. intros i Hi. specialize (E i Hi). destruct (jb_NE i) as [m| |] eqn:Ei; try discriminate.
  apply jb_NE_val in Ei. replace n with m by lia. exact Ei.
Qed.
Lemma same_NE_ok ne js : Forall (widths_for ne) js -> same_NE js = true.
Proof.
  destruct js as [|j js]; [reflexivity|]. intros F. cbn [same_NE]. rewrite Forall_forall in F. assert (Fj := F j (or_introl eq_refl)). apply jb_NE_val in Fj. rewrite Fj.
  apply forallb_forall. intros i Hi. assert (Fi := F i Hi). apply jb_NE_val in Fi. rewrite Fi. apply Z.eqb_refl.
Qed.
Lemma nonempty_len {A} (l : list A) : 0 < len l -> l <> [].
Proof. intros H ->. exact (Z.lt_irrefl 0 H). Qed.
Lemma len_nil_pos {A} : ~ 0 < len (@nil A). Proof. exact (Z.lt_irrefl 0). Qed.
Lemma cod_width_group : cod rep_jgroup (fun x => exists ne, 0 < ne /\ inv_width_group ne x) rd_width_group pr_jgroup nc_jgroup.
Proof.
  refine (cod_imp _ _ _ _ _ (cod_check _ _ _ _ _ (cod_jgroup _ _ check_widths_spec) (fun x => same_NE (jg_j x))) _ _ _ _).
  - intros x R (ne & P & (I1 & I2 & I3)). split; [exact R|]. split; [split; [exact I1|split; [|exact I3]]|now apply same_NE_ok with ne].
    eapply Forall_impl; [|exact I2]. intros l Hl. exists ne. auto.
  - intros x [(I1 & I2 & I3) E]. destruct (same_NE_spec _ E (nonempty_len _ (proj1 I3))) as [ne F]. exists ne. split.
    + destruct (jg_j x) as [|j js]; [destruct (len_nil_pos (proj1 I3))|]. apply Forall_inv in I2, F. destruct I2 as (n & P & W). rewrite (widths_fun _ _ _ F W). exact P.
    + split; [exact I1|]. split; assumption.
Qed.
Lemma group_NE_val ne x : inv_width_group ne x -> group_NE x = Val ne.
Proof.
  intros (_ & F & L). unfold group_NE. destruct (jg_j x) as [|j js]; [destruct (len_nil_pos (proj1 L))|]. apply jb_NE_val. now apply Forall_inv in F.
Qed.
Lemma make_widths_val l ls x : len ls < 2 ^ 31 -> make_widths_range l ls = Val x <-> 0 < len ls /\ widths_ok l ls = true /\ x = mkwidths l ls.
Proof.
  intros H. unfold make_widths_range. rewrite obind_val. split.
  - intros ([] & E & K). apply one_val in E; [|exact H]. apply obind_val in K. destruct K as ([] & K & J). apply ensure_val in K. injection J as <-. auto.
  - intros (P & W & ->). exists tt. split; [now apply one_val|]. apply obind_val. exists tt. split; [now apply ensure_val|reflexivity].
Qed.
Lemma cod_widths : cod rep_widths inv_widths rd_widths pr_widths nc_widths.
Proof.
  assert (D := cod_dep pair fst snd endf_list any rd_list pr_list nc_list (fun _ => Forall rep_jgroup) _ _ (fun _ => pr_all pr_jgroup) (fun _ => nc_all nc_jgroup)
    (fun c => match c return (fst c, snd c) = c with (a, b) => eq_refl end) (fun a b => eq_refl) (fun a b => eq_refl)
    cod_list (fun l => cod_all _ _ _ _ _ (lN2 l) cod_width_group)).
  refine (cod_ext _ _ _ _ _ _ (cod_map (fun c => make_widths_range (fst c) (snd c)) (fun x => (wd_energies x, wd_lvalues x)) _ _ rep_widths inv_widths _ _ _ D _ _) _).
  - intros x R (P & N & I1 & I2). cbn [fst snd]. split; [exact R|]. split; [split; [exact I|split; [|now apply as_int_get in N]]|].
    + eapply Forall_impl; [|exact I1]. intros g Hg. cbv beta. eauto.
    + apply make_widths_val; [lia|]. split; [lia|]. split; [|now destruct x]. apply forallb_forall. rewrite Forall_forall in I1. intros g Hg.
      rewrite (group_NE_val _ _ (I1 g Hg)). unfold u32, npl. fold (len (lB (wd_energies x))). change 4294967296 with (2 ^ 32). apply Z.eqb_refl.
  - intros [l ls] x [_ [F L]] E. cbn [fst snd] in *. assert (B := i32_pos_bound (lN2 l)). apply make_widths_val in E; [|lia]. destruct E as (P & W & ->).
    unfold inv_widths. cbn [wd_energies wd_lvalues]. unfold widths_ok in W. rewrite forallb_forall in W. rewrite Forall_forall in F.
    assert (G : forall g, In g ls -> 0 < len (lB l) mod 2 ^ 32 /\ inv_width_group (len (lB l) mod 2 ^ 32) g).
    { intros g Hg. destruct (F g Hg) as (ne & Q & I1). specialize (W g Hg). rewrite (group_NE_val _ _ I1) in W. apply Z.eqb_eq in W. unfold u32, npl in W. fold (len (lB l)) in W.
      change 4294967296 with (2 ^ 32) in W. rewrite W. auto. }
    split; [destruct ls as [|g ls]; [destruct (len_nil_pos P)|]; apply (G g), or_introl, eq_refl|]. split; [now apply as_int_eq|]. split; [|lia].
    apply Forall_forall. intros g Hg. apply (G g Hg).
  - intros mat mf mt s. unfold rd_widths. rewrite !bind_assoc_st. apply bind_ext. intros l s1. rewrite !bind_assoc_st. apply bind_ext. intros ls s2. reflexivity.
Qed.

(** ** R-matrix limited *)
Lemma check_pairs_rml_spec l : check_pairs_rml l = true <-> inv_pairs_rml l.
Proof.
  unfold check_pairs_rml, inv_pairs_rml, npl. fold (len (lB l)). split.
  - intros E. exists (i32 (lL1 l)). split; [lia|]. split; [apply as_int_i32|]. apply as_int_eq. lia.
  - intros (n & P & A & B). apply as_int_get in A, B. lia.
Qed.
Lemma check_channels_spec l : check_channels l = true <-> inv_channels l.
Proof.
  unfold check_channels, inv_channels, npl. fold (len (lB l)). split.
  - intros E. exists (i32 (lN2 l)). split; [lia|]. split; [apply as_int_i32|]. apply as_int_eq. lia.
  - intros (n & P & A & B). apply as_int_get in A, B. lia.
Qed.
Lemma check_parameters_spec l : check_parameters l = true <-> inv_parameters l.
Proof.
  unfold check_parameters, inv_parameters, npl. fold (len (lB l)). split.
  - intros E. apply andb_true_iff in E. destruct E as [E1 E2]. apply Z.eqb_eq, Z.rem_divide in E2; [|lia]. destruct E2 as [q E2]. exists q. split; [lia|]. apply as_int_eq. lia.
  - intros (n & P & B). apply as_int_get in B. apply andb_true_iff. split; [lia|]. apply Z.eqb_eq, Z.rem_divide; [lia|]. exists n. lia.
Qed.
Lemma cod_background lbk : cod (fun b => rep_background b /\ LBK b = lbk) inv_background (rd_background lbk) pr_background nc_background.
Proof.
  unfold rd_background. destruct (Z.eqb_spec lbk 0) as [E0|E0]; [|destruct (Z.eqb_spec lbk 1) as [E1|E1]; [|destruct (Z.eqb_spec lbk 2) as [E2|E2]; [|destruct (Z.eqb_spec lbk 3) as [E3|E3]]]].
  - apply cod_ret; [|exact I|reflexivity|reflexivity]. intros [] [_ L] _; cbn [LBK] in L; try lia. reflexivity.
  - refine (cod_ext _ _ _ _ _ _ (cod_inj (fun p => TableBackground (fst p) (snd p)) _ _ pr_background nc_background _ _ _ _ _
      (cod_check _ _ _ _ _ (cod_pair _ _ _ _ _ _ _ _ _ _ cod_tab1 cod_tab1) (fun p => tables_ok (fst p) (snd p))) _ _ _ _) _).
    + reflexivity.
    + reflexivity.
    + intros [|re im| |] [R L] Ib; cbn [LBK] in L; try lia. exists (re, im). cbn [fst snd]. split; [reflexivity|]. split; [exact R|].
      destruct Ib as (I1 & I2 & I3 & I4). split; [auto|]. unfold tables_ok. rewrite I3, I4, !Nat.eqb_refl. reflexivity.
    + intros [re im] [[I1 I2] E]. cbn [fst snd inv_background] in *. unfold tables_ok in E. apply andb_true_iff in E. destruct E as [E3 E4]. apply Nat.eqb_eq in E3, E4. auto.
    + intros mat mf mt s. rewrite !bind_assoc_st. apply bind_ext. intros re s1. rewrite !bind_assoc_st. apply bind_ext. intros im s2. unfold make_table, bind, require, ret, lift. cbn [fst snd].
      destruct (tables_ok re im); reflexivity.
  - refine (cod_pr _ _ _ _ _ _ _ (cod_map make_sammy (fun b => match b with SammyBackground ed eu r0 r1 r2 s0 s1 => mklist ed eu 0 0 0 [r0; r1; r2; s0; s1] | _ => mklist rzero rzero 0 0 0 [] end)
      _ _ _ _ _ _ _ cod_list _ _) _).
    + intros [| |ed eu r0 r1 r2 s0 s1|] [R L] _; cbn [LBK] in L; try lia. split; [|split; [exact I|reflexivity]].
      cbn [rep_background] in R. inversion_clear R. inversion_clear H0. unfold endf_list. cbn [lC1 lC2 lL1 lL2 lN2 lB]. split; [assumption|]. split; [assumption|].
      split; [cols|]. split; [cols|]. split; [cols|]. split; [cbn [length]; cols|exact H2].
    + intros l b _ E. unfold make_sammy in E. destruct (lB l) as [|? [|? [|? [|? [|? [|]]]]]]; try discriminate. injection E as <-. exact I.
    + intros [| |ed eu r0 r1 r2 s0 s1|] [R L] _; cbn [LBK] in L; try lia. split; reflexivity.
  - refine (cod_pr _ _ _ _ _ _ _ (cod_map make_frohner (fun b => match b with FrohnerBackground ed eu r0 s0 ga => mklist ed eu 0 0 0 [r0; s0; ga] | _ => mklist rzero rzero 0 0 0 [] end)
      _ _ _ _ _ _ _ cod_list _ _) _).
    + intros [| | |ed eu r0 s0 ga] [R L] _; cbn [LBK] in L; try lia. split; [|split; [exact I|reflexivity]].
      cbn [rep_background] in R. inversion_clear R. inversion_clear H0. unfold endf_list. cbn [lC1 lC2 lL1 lL2 lN2 lB]. split; [assumption|]. split; [assumption|].
      split; [cols|]. split; [cols|]. split; [cols|]. split; [cbn [length]; cols|exact H2].
    + intros l b _ E. unfold make_frohner in E. destruct (lB l) as [|? [|? [|? [|]]]]; try discriminate. injection E as <-. exact I.
    + intros [| | |ed eu r0 s0 ga] [R L] _; cbn [LBK] in L; try lia. split; reflexivity.
  - apply cod_throw. intros [] [_ L] _; cbn [LBK] in L; lia.
Qed.
Definition rep_entry (e : entry) : Prop := rep_background (en_kind e).
Definition inv_entry (nch : Z) (e : entry) : Prop := 0 < en_lch e <= nch /\ inv_background (en_kind e).
Lemma LBK_range b : 0 <= LBK b <= 3. Proof. destruct b; cbn; lia. Qed.
Lemma cod_entry nch : int32 nch -> cod rep_entry (inv_entry nch) (rd_entry nch) pr_entry nc_entry.
Proof.
  intros Hn. refine (cod_headed entry_head rep_entry (inv_entry nch) (fun c mat mf mt =>
    require ((0 <? i32 (l1 c)) && (i32 (l1 c) <=? nch)) ;;; b <- rd_background (i32 (l2 c)) mat mf mt ;; ret (mkentry (i32 (l1 c)) b))
    (fun e => pr_background (en_kind e)) (fun e => nc_background (en_kind e)) _ _).
  - intros e R [I1 I2]. assert (K := LBK_range (en_kind e)). apply ok_small_cont; try apply okr_rzero; try apply int32_0; unfold int32 in *; lia.
  - intros c. refine (cod_imp _ _ _ _ _ (cod_guard _ _ _ _ _ _ (cod_inj (mkentry (i32 (l1 c))) (fun e => rep_entry e /\ c = entry_head e /\ int32 (en_lch e)) (fun e => inv_background (en_kind e) /\ en_lch e = i32 (l1 c))
      (fun e => pr_background (en_kind e)) (fun e => nc_background (en_kind e)) _ _ _ _ _ (cod_background (i32 (l2 c))) _ _ _ _)) _ _ _ _).
    + reflexivity.
    + reflexivity.
    + intros e (R & -> & B) [Ib E]. exists (en_kind e). cbn [entry_head l1 l2] in *. split; [destruct e; cbn in *; congruence|]. split; [|exact Ib]. split; [exact R|].
      assert (K := LBK_range (en_kind e)). rewrite i32_id by (unfold int32; lia). reflexivity.
    + intros b Ib. split; [exact Ib|reflexivity].
    + intros e [R Ec] [I1 I2]. assert (B : int32 (en_lch e)) by (unfold int32 in *; lia). rewrite Ec. cbn [entry_head l1 l2]. rewrite i32_id by exact B.
      split; [|split; [split; [exact I2|reflexivity]|lia]]. split; [|lia]. split; [exact R|]. split; [|exact B]. unfold entry_head in Ec. exact eq_refl.
    + intros e [[Ib E] G]. split; [lia|exact Ib].
Qed.
(** the elements go to the slots of their channels *)
Lemma nth_set_slot {A} (a : A) : forall l n i, nth_error (set_slot n a l) i = if (i =? n)%nat && (n <? length l)%nat then Some a else nth_error l i.
Proof.
  induction l as [|x l IH]; intros n i; [change (n <? length (@nil A))%nat with false; rewrite andb_false_r; destruct n; reflexivity|]. destruct n as [|n], i as [|i]; cbn [set_slot nth_error length]; try reflexivity.
  rewrite IH. reflexivity.
Qed.
Lemma length_set_slot {A} (a : A) : forall l n, length (set_slot n a l) = length l.
Proof. induction l as [|x l IH]; intros [|n]; cbn; auto. Qed.
Lemma set_slot_app {A} (a b : A) : forall pre post, set_slot (length pre) a (pre ++ b :: post) = pre ++ a :: post.
Proof. induction pre as [|x pre IH]; intros post; cbn [length app set_slot]; [reflexivity|now rewrite IH]. Qed.
Definition put (bg : list (option entry)) (e : entry) : list (option entry) := set_slot (Z.to_nat (en_lch e - 1)) (Some e) bg.
Lemma place_slots : forall slots pre, (forall i e, nth_error slots i = Some (Some e) -> en_lch e = Z.of_nat (length pre + i) + 1) ->
  fold_left put (there slots) (pre ++ repeat None (length slots)) = pre ++ slots.
Proof.
  induction slots as [|o slots IH]; intros pre H; [reflexivity|]. cbn [length repeat].
  assert (H' : forall i e, nth_error slots i = Some (Some e) -> en_lch e = Z.of_nat (length (pre ++ [o]) + i) + 1).
  { intros i e E. rewrite app_length. cbn [length]. rewrite (H (Datatypes.S i) e E). lia. }
  specialize (IH (pre ++ [o]) H'). rewrite <- !app_assoc in IH. cbn [app] in IH. destruct o as [e|].
  - change (there (Some e :: slots)) with (e :: there slots). cbn [fold_left]. rewrite <- IH. f_equal. unfold put.
    replace (Z.to_nat (en_lch e - 1)) with (length pre) by (rewrite (H 0%nat e eq_refl); lia). apply set_slot_app.
  - change (there (None :: slots)) with (there slots). exact IH.
Qed.
Lemma place_there slots : in_slots slots -> place_all (length slots) (there slots) = slots.
Proof. intros H. apply (place_slots slots []). intros i e E. apply (H i e E). Qed.
Lemma there_all slots (P : entry -> Prop) : (forall i e, nth_error slots i = Some (Some e) -> P e) -> Forall P (there slots).
Proof.
  induction slots as [|[e|] slots IH]; intros H; [constructor|constructor; [exact (H 0%nat e eq_refl)|]|]; apply IH; intros i; exact (H (Datatypes.S i)).
Qed.
Lemma there_len slots : len (there slots) <= len slots.
Proof. unfold len. induction slots as [|[e|] slots IH]; [cbn; lia|change (there (Some e :: slots)) with (e :: there slots)|change (there (None :: slots)) with (there slots)]; cbn [length]; lia. Qed.
Lemma place_fold nch : forall es bg, Z.of_nat (length bg) = nch -> Forall (inv_entry nch) es -> in_slots bg ->
  in_slots (fold_left put es bg) /\ Z.of_nat (length (fold_left put es bg)) = nch.
Proof.
  induction es as [|e es IH]; intros bg L F S; [auto|]. cbn [fold_left]. inversion_clear F. apply IH; [|assumption|].
  - unfold put. now rewrite length_set_slot.
  - intros i x E. unfold put in E. rewrite nth_set_slot in E. destruct ((i =? Z.to_nat (en_lch e - 1))%nat && (Z.to_nat (en_lch e - 1) <? length bg)%nat) eqn:K.
    + injection E as <-. destruct H as [H1 H2]. split; [lia|exact H2].
    + exact (S i x E).
Qed.
Lemma place_in nch es : 0 <= nch -> Forall (inv_entry nch) es -> in_slots (place_all (Z.to_nat nch) es) /\ len (place_all (Z.to_nat nch) es) = nch.
Proof.
  intros P F. apply (place_fold nch es (repeat None (Z.to_nat nch))); [rewrite repeat_length; lia|exact F|].
  intros i e E. exfalso. revert i E. induction (Z.to_nat nch) as [|m IH]; intros [|i] E; cbn in E; try discriminate. exact (IH i E).
Qed.
Lemma cod_count_eq {A} rep inv (rd : Z -> Z -> Z -> M A) pr nc n : cod rep inv rd pr nc ->
  cod (fun l => Forall rep l /\ len l = i32 n) (fun l => Forall inv l /\ (0 <= i32 n -> len l = i32 n)) (fun mat mf mt => rd_n (rd mat mf mt) (Z.to_nat (i32 n))) (pr_all pr) (nc_all nc).
Proof.
  intros [H1 H2 H3 H4]. split; intros mat mf mt.
  - intros l G [R L] [I1 I2]. rewrite <- L. unfold len. rewrite Nat2Z.id. apply reads_rd_n. rewrite Forall_forall in *. intros x Hx. apply H1; auto.
  - intros l G [R L] [I1 I2]. apply (layout_flat_map (fun c => pr c mat mf mt)). rewrite Forall_forall in *. intros x Hx. apply H2; auto.
  - apply consumes_rd_n. apply H3.
  - eapply post_weaken; [apply post_rd_n, H4|]. cbv beta. intros l [F L]. split; [exact F|]. unfold len. lia.
Qed.
Lemma cod_backgrounds nch k : int32 nch -> cod (fun es => Forall rep_entry es) (fun es => Forall (inv_entry nch) es /\ len es = i32 k /\ i32 k <= nch)
  (rd_backgrounds nch (i32 k)) (pr_all pr_entry) (nc_all nc_entry).
Proof.
  intros Hn. unfold rd_backgrounds. refine (cod_imp _ _ _ _ _ (cod_guard _ _ _ _ _ _ (cod_count_eq _ _ _ _ _ k (cod_entry nch Hn))) _ _ _ _).
  - intros es R (F & L & B). assert (P := len_nonneg es). split; [split; [split; [exact R|exact L]|lia]|]. split; [|lia]. split; [exact F|]. intros _. exact L.
  - intros es [[F B] G]. split; [exact F|]. split; [apply B|]; lia.
Qed.
Lemma i32_u32 z : i32 (u32 z) = i32 z.
Proof. apply as_int_eq. destruct (as_int_i32 z) as [A B]. split; [exact A|]. unfold u32. rewrite Zminus_mod_idemp_l. exact B. Qed.
Lemma NCH_int l : i32 (NCH l) = i32 (len (lB l) / 6).
Proof. unfold NCH, npl. rewrite i32_u32. rewrite Z.quot_div_nonneg by lia. reflexivity. Qed.
Lemma make_group_val ch pa bg x : make_group ch pa bg = Val x <->
  i32 (lL1 ch) = i32 (len (there bg)) /\ i32 (NCH ch) = i32 (len bg) /\ x = mkgroup ch pa bg.
Proof.
  unfold make_group. fold (len (there bg)) (len bg). rewrite obind_val. split.
  - intros ([] & E & K). apply ensure_val in E. apply obind_val in K. destruct K as ([] & K & J). apply ensure_val in K. injection J as <-. split; [lia|]. split; [lia|reflexivity].
  - intros (A & B & ->). exists tt. split; [apply ensure_val; lia|]. apply obind_val. exists tt. split; [apply ensure_val; lia|reflexivity].
Qed.
Lemma len_cast {A} (l : list A) z : as_int z (len l) -> len l < 2 ^ 31.
Proof. intros [H _]. unfold int32 in H. lia. Qed.
Lemma cod_group : cod rep_group inv_group rd_group pr_group nc_group.
Proof.
  assert (D := cod_dep pair fst snd endf_list (fun l => any l /\ inv_channels l) _ pr_list nc_list (fun _ b => endf_list (fst b) /\ Forall rep_entry (snd b)) _ _
    (fun _ b mat mf mt => pr_list (fst b) mat mf mt ++ pr_all pr_entry (snd b) mat mf mt) (fun _ b => nc_list (fst b) + nc_all nc_entry (snd b))
    (fun c => match c return (fst c, snd c) = c with (a, b) => eq_refl end) (fun a b => eq_refl) (fun a b => eq_refl)
    (cod_require _ _ _ _ _ _ _ cod_list check_channels_spec)
    (fun ch => cod_pair _ _ _ _ _ _ _ _ _ _ (cod_require _ _ _ _ _ _ _ cod_list check_parameters_spec) (cod_backgrounds (i32 (NCH ch)) (lL1 ch) (i32_range _)))).
  refine (cod_ext _ _ _ _ _ _ (cod_nc _ _ _ _ _ _ (cod_map (fun c => make_group (fst c) (fst (snd c)) (place_all (Z.to_nat (i32 (NCH (fst c)))) (snd (snd c))))
    (fun x => (gp_channels x, (gp_parameters x, there (gp_background x)))) _ _ rep_group inv_group _ _ _ D _ _) _) _).
  - intros x (R1 & R2 & R3) (I1 & I2 & I3 & I4 & I5). cbn [fst snd]. assert (L := len_cast _ _ I4). assert (Lt := there_len (gp_background x)). assert (Q := I4). assert (Q5 := I5).
    apply as_int_get in I4, I5. rewrite <- NCH_int in I4. rewrite I4. split; [|split].
    + split; [exact R1|]. split; [exact R2|]. apply there_all. intros i e E. apply nth_error_In in E. exact (R3 e E).
    + split; [split; [exact I|exact I1]|]. split; [split; [exact I|exact I2]|]. split; [|lia].
      apply there_all. intros i e E. assert (Hi : (i < length (gp_background x))%nat) by (apply nth_error_Some; congruence). destruct (I3 i e E) as [E1 E2]. split; [unfold len; lia|exact E2].
    + unfold len at 1. rewrite Nat2Z.id, place_there by exact I3. apply make_group_val. rewrite I4, I5. rewrite !i32_id by (apply int32_len; lia). split; [reflexivity|]. split; [reflexivity|now destruct x].
  - intros [ch [pa es]] x ((_ & C1) & (_ & C2) & F & L & B) E. cbn [fst snd] in *. assert (Pe := len_nonneg es).
    destruct (place_in (i32 (NCH ch)) es ltac:(lia) F) as [S1 S2]. apply make_group_val in E. destruct E as (A1 & A2 & ->). unfold inv_group. cbn [gp_channels gp_parameters gp_background].
    split; [exact C1|]. split; [exact C2|]. split; [exact S1|]. split; apply as_int_eq; [rewrite <- NCH_int; now rewrite S2|].
    assert (T := there_len (place_all (Z.to_nat (i32 (NCH ch))) es)). rewrite S2 in T. assert (U := i32_pos_bound (NCH ch)). rewrite (i32_id (len (there _))) in A1 by (apply int32_len; lia). exact A1.
  - intros x. unfold nc_group. cbn [fst snd]. lia.
  - intros mat mf mt s. unfold rd_group, bind. destruct (rd_list mat mf mt s) as [ch s1| |]; [|reflexivity..]. unfold require. destruct (check_channels ch); [|reflexivity].
    unfold ret. destruct (rd_list mat mf mt s1) as [pa s2| |]; [|reflexivity..]. destruct (check_parameters pa); [|reflexivity]. destruct (rd_backgrounds _ _ _ _ _ _); reflexivity.
Qed.
Lemma cod_rml : cod rep_rml inv_rml rd_rml pr_rml nc_rml.
Proof.
  refine (cod_nc _ _ _ _ _ _ (cod_headed rml_head rep_rml inv_rml (fun c mat mf mt => pp <- rd_list mat mf mt ;; require (check_pairs_rml pp) ;;;
      gs <- rd_all rd_group (n1 c) mat mf mt ;; lift (make_rml (z2b (l1 c)) (z2b (n2 c)) (i32 (l2 c)) pp gs))
    (fun x mat mf mt => pr_list (rm_pairs x) mat mf mt ++ pr_all pr_group (rm_groups x) mat mf mt) (fun x => nc_list (rm_pairs x) + nc_all nc_group (rm_groups x)) _ _) _).
  - intros x R (I1 & _). apply ok_small_cont; auto using okr_rzero, int32_b2z, int32_isize.
  - intros c. refine (cod_ext _ _ _ _ _ _ (cod_map (fun p => make_rml (z2b (l1 c)) (z2b (n2 c)) (i32 (l2 c)) (fst p) (snd p)) (fun x => (rm_pairs x, rm_groups x)) _ _ _ _ _ _ _
      (cod_pair _ _ _ _ _ _ _ _ _ _ (cod_require _ _ _ _ _ _ _ cod_list check_pairs_rml_spec) (cod_all _ _ _ _ _ (n1 c) cod_group)) _ _) _).
    + intros x [[R1 R2] ->] (I1 & I2 & I3 & I4). cbn [fst snd rml_head l1 l2 n1 n2]. rewrite i32_isize by lia. split; [auto|]. split; [repeat split; auto|].
      rewrite !z2b_b2z, i32_id by exact I1. apply one_bind; [lia|]. split; [lia|now destruct x].
    + intros [pp gs] x [[_ P1] [F L]] E. cbn [fst snd] in *. assert (B := i32_pos_bound (n1 c)). apply one_bind in E; [|lia]. destruct E as [P <-]. split; [apply i32_range|]. split; [exact P1|]. split; [exact F|cbn; lia].
    + intros mat mf mt s. unfold bind. destruct (rd_list mat mf mt s) as [pp s1| |]; [|reflexivity..]. unfold require. destruct (check_pairs_rml pp); [|reflexivity].
      unfold ret. destruct (rd_all _ _ _ _ _ _); reflexivity.
  - intros x. unfold nc_rml. lia.
Qed.

(** ** ranges and isotopes *)
Definition flag_ok (lfw : Z) (p : params) : Prop := match p with CaseA _ => lfw = 0 | CaseB _ => lfw = 1 | _ => True end.
Lemma cod_params lru lrf lfw : cod (fun p => rep_params p /\ LRU p = lru /\ LRF p = lrf) (fun p => inv_params p /\ flag_ok lfw p) (rd_params lru lrf lfw) pr_params nc_params.
Proof.
  unfold rd_params. destruct (Z.eqb_spec lru 0) as [E0|E0]; [|destruct (Z.eqb_spec lru 1) as [E1|E1]; [|destruct (Z.eqb_spec lru 2) as [E2|E2]]].
  - refine (cod_ext _ _ _ _ _ _ (cod_pr _ _ _ _ _ _ _ (cod_map (fun c => Val (Special (c1 c) (c2 c))) (fun p => match p with Special spi ap => mkcont spi ap 0 0 0 0 | _ => mkcont rzero rzero 0 0 0 0 end)
      _ _ _ _ _ _ _ cod_cont _ _) _) _).
    + intros [spi ap|x|x|x|x|x|x|x] [R [L1 L2]] _; cbn [LRU] in L1; try lia. split; [|split; [exact I|reflexivity]]. destruct R as [R1 R2].
      unfold endf_cont, ints_fit. cbn [c1 c2 l1 l2 n1 n2]. split; [exact R1|]. split; [exact R2|]. split; [cols|]. split; [cols|]. split; cols.
    + intros c p _ E. injection E as <-. split; exact I.
    + intros [spi ap|x|x|x|x|x|x|x] [R [L1 L2]] _; cbn [LRU] in L1; try lia. split; reflexivity.
    + reflexivity.
  - destruct (Z.eqb_spec lrf 1) as [F1|F1]; [|destruct (Z.eqb_spec lrf 2) as [F2|F2]; [|destruct (Z.eqb_spec lrf 3) as [F3|F3]; [|destruct (Z.eqb_spec lrf 7) as [F7|F7]]]].
    + eapply (cod_inj SLBW); [apply cod_bw|reflexivity|reflexivity| |intros x Ix; exact (conj Ix I)].
      intros [spi ap|x|x|x|x|x|x|x] [R [L1 L2]] [Ix _]; cbn [LRU LRF] in L1, L2; try lia. exists x. auto.
    + eapply (cod_inj MLBW); [apply cod_bw|reflexivity|reflexivity| |intros x Ix; exact (conj Ix I)].
      intros [spi ap|x|x|x|x|x|x|x] [R [L1 L2]] [Ix _]; cbn [LRU LRF] in L1, L2; try lia. exists x. auto.
    + eapply (cod_inj ReichMoore); [apply cod_rm|reflexivity|reflexivity| |intros x Ix; exact (conj Ix I)].
      intros [spi ap|x|x|x|x|x|x|x] [R [L1 L2]] [Ix _]; cbn [LRU LRF] in L1, L2; try lia. exists x. auto.
    + eapply (cod_inj RMatrix); [apply cod_rml|reflexivity|reflexivity| |intros x Ix; exact (conj Ix I)].
      intros [spi ap|x|x|x|x|x|x|x] [R [L1 L2]] [Ix _]; cbn [LRU LRF] in L1, L2; try lia. exists x. auto.
    + apply cod_throw. intros [spi ap|x|x|x|x|x|x|x] [R [L1 L2]] _; cbn [LRU LRF] in L1, L2; lia.
  - destruct (Z.eqb_spec lrf 1) as [F1|F1]; [destruct (Z.eqb_spec lfw 0) as [W0|W0]; [|destruct (Z.eqb_spec lfw 1) as [W1|W1]]|destruct (Z.eqb_spec lrf 2) as [F2|F2]].
    + eapply (cod_inj CaseA); [apply (cod_unresolved _ _ _ _ _ (cod_checked _ _ check_independent_spec))|reflexivity|reflexivity| |intros x Ix; exact (conj Ix W0)].
      intros [spi ap|x|x|x|x|x|x|x] [R [L1 L2]] [Ix Fx]; cbn [LRU LRF flag_ok] in L1, L2, Fx; try lia. exists x. auto.
    + eapply (cod_inj CaseB); [apply cod_widths|reflexivity|reflexivity| |intros x Ix; exact (conj Ix W1)].
      intros [spi ap|x|x|x|x|x|x|x] [R [L1 L2]] [Ix Fx]; cbn [LRU LRF flag_ok] in L1, L2, Fx; try lia. exists x. auto.
    + apply cod_throw. intros [spi ap|x|x|x|x|x|x|x] [R [L1 L2]] [Ix Fx]; cbn [LRU LRF flag_ok] in L1, L2, Fx; lia.
    + eapply (cod_inj CaseC); [apply (cod_unresolved _ _ _ _ _ cod_C)|reflexivity|reflexivity| |intros x Ix; exact (conj Ix I)].
      intros [spi ap|x|x|x|x|x|x|x] [R [L1 L2]] [Ix _]; cbn [LRU LRF] in L1, L2; try lia. exists x. auto.
    + apply cod_throw. intros [spi ap|x|x|x|x|x|x|x] [R [L1 L2]] [Ix Fx]; cbn [LRU LRF flag_ok] in L1, L2, Fx; lia.
  - apply cod_throw. intros [spi ap|x|x|x|x|x|x|x] [R [L1 L2]] _; cbn [LRU LRF] in L1, L2; lia.
Qed.
Lemma cod_radius nro : cod (fun o => rep_opt o /\ NRO o = nro) (fun o => forall t, o = Some t -> inv_tab1 t) (rd_radius nro) (pr_opt pr_tab1) (nc_opt nc_tab1).
Proof.
  unfold rd_radius. destruct (Z.eqb_spec nro 0) as [E0|E0]; [|destruct (Z.eqb_spec nro 1) as [E1|E1]].
  - apply cod_ret; [|discriminate|reflexivity|reflexivity]. intros [t|] [_ L] _; cbn [NRO] in L; [lia|reflexivity].
  - eapply (cod_inj Some); [apply cod_tab1|reflexivity|reflexivity| |].
    + intros [t|] [R L] J; cbn [NRO] in L; [|lia]. exists t. auto.
    + intros t J t' E. injection E as <-. exact J.
  - apply cod_throw. intros [t|] [_ L] _; cbn [NRO] in L; lia.
Qed.
Lemma range_ok_spec naps p o : inv_params p -> (forall t, o = Some t -> inv_tab1 t) -> forall el eh, range_ok naps p o = true <-> inv_range (mkrange el eh naps p o).
Proof.
  intros Ip It el eh. unfold range_ok, inv_range. cbn [rg_params rg_radius rg_naps]. destruct o as [t|].
  - specialize (It t eq_refl). destruct p; cbn [LRU LRF Z.eqb negb andb Pos.eqb]; rewrite ?andb_false_r, ?andb_true_r; split;
      try (intros E; discriminate E); try solve [intros (_ & _ & _ & [])];
      try solve [intros E; split; [exact Ip|]; split; [exact It|]; split; [lia|exact I]]; intros (_ & _ & K & _); lia.
  - split; [intros K; split; [exact Ip|lia]|intros [_ K]; lia].
Qed.
Lemma make_range_val el eh naps p o x : make_range el eh naps p o = Val x <-> range_ok naps p o = true /\ x = mkrange el eh naps p o.
Proof.
  unfold make_range. destruct (range_ok naps p o); split; [|intros [_ ->]; reflexivity|discriminate|intros [K _]; discriminate].
  intros E. injection E as <-. auto.
Qed.
Lemma LRU_range p : 0 <= LRU p <= 2. Proof. destruct p; cbn; lia. Qed.
Lemma LRF_range p : 0 <= LRF p <= 7. Proof. destruct p; cbn; lia. Qed.
Lemma NRO_range o : 0 <= NRO o <= 1. Proof. destruct o; cbn; lia. Qed.
Lemma naps_range x : inv_range x -> 0 <= rg_naps x <= 2.
Proof. intros [_ K]. destruct (rg_radius x); [apply K|lia]. Qed.
Lemma cod_range lfw : cod rep_range (fun x => inv_range x /\ flag_ok lfw (rg_params x)) (rd_range lfw) pr_range nc_range.
Proof.
  refine (cod_nc _ _ _ _ _ _ (cod_headed range_head rep_range (fun x => inv_range x /\ flag_ok lfw (rg_params x)) (fun c mat mf mt =>
      o <- rd_radius (i32 (n1 c)) mat mf mt ;; p <- rd_params (i32 (l1 c)) (i32 (l2 c)) lfw mat mf mt ;; lift (make_range (c1 c) (c2 c) (i32 (n2 c)) p o))
    (fun x mat mf mt => pr_opt pr_tab1 (rg_radius x) mat mf mt ++ pr_params (rg_params x) mat mf mt) (fun x => nc_opt nc_tab1 (rg_radius x) + nc_params (rg_params x)) _ _) _).
  - intros x (R1 & R2 & _) [Ix _]. assert (A := LRU_range (rg_params x)). assert (B := LRF_range (rg_params x)). assert (C := NRO_range (rg_radius x)). assert (D := naps_range x Ix).
    apply ok_small_cont; auto using endf_okr; unfold int32; lia.
  - intros c. refine (cod_ext _ _ _ _ _ _ (cod_map (fun p => make_range (c1 c) (c2 c) (i32 (n2 c)) (snd p) (fst p)) (fun x => (rg_radius x, rg_params x)) _ _ _ _ _ _ _
      (cod_pair _ _ _ _ _ _ _ _ _ _ (cod_radius (i32 (n1 c))) (cod_params (i32 (l1 c)) (i32 (l2 c)) lfw)) _ _) _).
    + intros x [(R1 & R2 & R3 & R4) ->] [Ix Fx]. assert (A := LRU_range (rg_params x)). assert (B := LRF_range (rg_params x)). assert (C := NRO_range (rg_radius x)). assert (D := naps_range x Ix).
      cbn [fst snd range_head c1 c2 l1 l2 n1 n2]. rewrite !i32_id by (unfold int32; lia). split; [split; [split; [exact R4|reflexivity]|auto]|].
      assert (It : forall t, rg_radius x = Some t -> inv_tab1 t). { intros t E. destruct Ix as [_ K]. rewrite E in K. apply K. }
      split; [split; [exact It|split; [apply Ix|exact Fx]]|]. apply make_range_val. split; [|now destruct x].
      apply (range_ok_spec _ _ _ (proj1 Ix) It (rg_el x) (rg_eh x)). destruct x. exact Ix.
    + intros [o p] x [It [Ip Fp]] E. cbn [fst snd] in *. apply make_range_val in E. destruct E as [E ->]. split; [|exact Fp]. now apply range_ok_spec.
    + intros mat mf mt s. unfold bind. destruct (rd_radius _ _ _ _ _) as [o s1| |]; [|reflexivity..]. destruct (rd_params _ _ _ _ _ _ _); reflexivity.
  - intros x. unfold nc_range. lia.
Qed.
Lemma Forall_flag rs (P : range -> Prop) : Forall P rs -> forall Q : range -> Prop, (forall r, P r -> Q r) -> Forall Q rs.
Proof. intros F Q H. now apply (Forall_impl Q H). Qed.
Lemma cod_resisotope : cod rep_resisotope inv_resisotope rd_resisotope pr_resisotope nc_resisotope.
Proof.
  refine (cod_headed resisotope_head rep_resisotope inv_resisotope (fun c mat mf mt => z <- lift (cast_int (c1 c)) ;;
    rs <- rd_all (rd_range (i32 (l2 c))) (n1 c) mat mf mt ;; ret (mkresisotope z (c2 c) (z2b (l2 c)) rs)) (fun x => pr_all pr_range (ri_ranges x)) (fun x => nc_all nc_range (ri_ranges x)) _ _).
  - intros x (R1 & R2 & _) _. apply ok_small_cont; auto using endf_okr, okr_of_int, int32_0, int32_b2z, int32_isize.
  - intros c. refine (cod_imp _ _ _ _ _ (cod_lift (cast_int (c1 c)) (fun x => rep_resisotope x /\ c = resisotope_head x) (fun z x => inv_resisotope x /\ ri_zai x = z)
      (fun z mat mf mt => rs <- rd_all (rd_range (i32 (l2 c))) (n1 c) mat mf mt ;; ret (mkresisotope z (c2 c) (z2b (l2 c)) rs)) _ _ _) _ _ _ _).
    + intros z Ez. eapply (cod_inj (mkresisotope z (c2 c) (z2b (l2 c)))); [apply (cod_all _ _ _ _ _ (n1 c) (cod_range (i32 (l2 c))))|reflexivity|reflexivity| |].
      * intros x [(R1 & R2 & R3 & R4) ->] [((I1 & I2) & I3 & I4) <-]. exists (ri_ranges x). cbn [resisotope_head c1 c2 l1 l2 n1 n2]. rewrite z2b_b2z, i32_b2z, i32_isize by exact I2.
        split; [now destruct x|]. split; [exact R3|]. split; [|reflexivity]. rewrite Forall_forall in I1 |- *. intros r Hr. split; [exact (I1 r Hr)|].
        destruct (ri_lfw x); [specialize (R4 eq_refl); rewrite Forall_forall in R4; specialize (R4 r Hr)|specialize (I3 eq_refl); rewrite Forall_forall in I3; specialize (I3 r Hr)];
          destruct (rg_params r) eqn:Er; cbn [flag_ok b2z]; try exact I; try reflexivity; exfalso; [apply R4|apply I3]; eexists; exact Er.
      * intros rs [F L]. split; [|reflexivity]. assert (B := i32_pos_bound (n1 c)). unfold inv_resisotope. cbn [ri_zai ri_ranges ri_lfw]. split; [|split].
        -- split; [|lia]. eapply Forall_impl; [|exact F]. intros r Hr. apply Hr.
        -- intros E. assert (Z0 : l2 c = 0) by (apply b2z_z2b; now rewrite E). eapply Forall_impl; [|exact F]. cbv beta. intros r [_ Hr] [b Eb]. rewrite Eb, Z0 in Hr. discriminate Hr.
        -- destruct (Z.eqb_spec (i32 (l2 c)) 0) as [E|E]; [right|left]; (eapply Forall_impl; [|exact F]); cbv beta; intros r [_ Hr] [b Eb]; rewrite Eb in Hr; cbn [flag_ok] in Hr; lia.
    + intros x [R ->] Ix. split; [split; [exact R|reflexivity]|]. exists (ri_zai x). destruct R as (R1 & _). cbn [resisotope_head c1]. split; [now apply cast_of_int|]. auto.
    + intros x (z & _ & Ix & _). exact Ix.
Qed.
Lemma body_151 : body_cod sec_2_151 (Forall rep_resisotope) (some_of inv_resisotope).
Proof.
  split; [cbn; lia|cbn; lia| |].
  - intros l R I. cbn [sec_2_151 k_ints]. ints4. apply cols32, int32_isize.
  - intros h awr _. refine (cod_map make_isotopes (fun l => l) _ _ _ _ _ _ _ (cod_all _ _ _ _ _ (n1 (sbase h)) cod_resisotope) _ _).
    + intros l [R E] [I1 I2]. cbn in E. unfold head_ints in E. injection E as E1 E2 E3 E4. rewrite E3, i32_isize by lia. split; [exact R|]. split; [auto|]. apply one_bind; [lia|]. split; [lia|reflexivity].
    + intros l x [F L] E. assert (B := i32_pos_bound (n1 (sbase h))). apply one_bind in E; [|lia]. destruct E as [P <-]. split; [exact F|lia].
Qed.
Lemma rt_151 : section_rt sec_2_151 (Forall rep_resisotope) (some_of inv_resisotope).
Proof. apply body_section, body_151. Qed.

(** ** no undefined behaviour *)
Lemma never_check_lvalue l s : small l -> never_other (lift (check_lvalue l) s).
Proof.
  intros H. apply small_i32 in H. unfold check_lvalue. apply never_lift_bind; [apply never_ensure|intros]. apply never_lift_bind; [apply never_ensure|intros].
  apply never_op; [unfold int32; lia|apply never_ensure].
Qed.
Lemma never_check_independent l s : small l -> never_other (lift (check_independent l) s).
Proof. intros H. apply small_i32 in H. unfold check_independent. apply never_op; [unfold int32; lia|apply never_ensure]. Qed.
Lemma never_check_dependent l s : six l -> never_other (lift (check_dependent l) s).
Proof.
  intros H. unfold check_dependent. rewrite (proj2 (jc_NE_val l _) (conj H eq_refl)). cbn [obind]. apply never_lift_bind; [apply never_ensure|intros; apply never_ensure].
Qed.
Lemma never_check_widths l s : six l -> never_other (lift (check_widths l) s).
Proof. intros H. unfold check_widths. rewrite (proj2 (jb_NE_val l _) (conj H eq_refl)). cbn [obind]. apply never_ensure. Qed.
Lemma never_one {A B} (l : list A) (f : out B) s : never_other (lift f s) -> never_other (lift (let! u := at_least_one l in f) s).
Proof. intros H. apply never_lift_bind; [apply never_ensure|intros; exact H]. Qed.
Lemma never_lists_from chk (P : listr -> Prop) n mat mf mt s : (forall l s', P l -> never_other (lift (chk l) s')) -> lists_from P mat mf mt s ->
  never_other (rd_all (rd_checked chk) n mat mf mt s).
Proof.
  intros H F. apply never_all. intros k ls s' L E. apply rd_n_checked in E. apply never_checked. intros l s2 E2. apply H. eapply F; eauto.
Qed.
Lemma never_resolved mk mat mf mt s : (forall a b c d ls s', never_other (lift (mk a b c d ls) s')) -> lists_in small mat mf mt s -> never_other (rd_resolved mk mat mf mt s).
Proof.
  intros H F. unfold rd_resolved. apply never_bind; [apply never_std, std_cont|]. intros c s1 E. apply never_bind; [|intros; apply H].
  apply (never_lists_from _ small); [intros; now apply never_check_lvalue|exact (F c s1 E)].
Qed.
Lemma never_jgroup chk (P : listr -> Prop) mat mf mt s : (forall l s', P l -> never_other (lift (chk l) s')) -> lists_in P mat mf mt s -> never_other (rd_jgroup chk mat mf mt s).
Proof.
  intros H F. unfold rd_jgroup. apply never_bind; [apply never_std, std_cont|]. intros c s1 E. apply never_bind; [|intros; apply never_one; exact I].
  apply (never_lists_from _ P); [exact H|exact (F c s1 E)].
Qed.
Lemma never_width_group mat mf mt s : lists_in six mat mf mt s -> never_other (rd_width_group mat mf mt s).
Proof.
  intros F. unfold rd_width_group. apply never_bind; [apply (never_jgroup _ six); [intros; now apply never_check_widths|exact F]|]. intros x s1 _. apply never_std.
  apply only_std_bind; [apply only_std_require|intros; apply only_std_ret].
Qed.
Lemma never_widths mat mf mt s : (forall l s1 s2, rd_list mat mf mt s = Ok l s1 -> after (rd_width_group mat mf mt) s1 s2 -> lists_in six mat mf mt s2) -> never_other (rd_widths mat mf mt s).
Proof.
  intros F. unfold rd_widths. apply never_bind; [apply never_std, std_list|]. intros l s1 E. apply never_bind.
  - apply never_all_after. intros s2 Fs. apply never_width_group. exact (F l s1 s2 E Fs).
  - intros ls s2 _. unfold make_widths_range. apply never_one. apply never_lift_bind; [apply never_ensure|intros; exact I].
Qed.
Lemma never_unresolved {A} (rd : Z -> Z -> Z -> M A) mat mf mt s : (forall c s1, rd_cont mat mf mt s = Ok c s1 -> never_other (rd_all rd (n1 c) mat mf mt s1)) -> never_other (rd_unresolved rd mat mf mt s).
Proof.
  intros F. unfold rd_unresolved. apply never_bind; [apply never_std, std_cont|]. intros c s1 E. apply never_bind; [exact (F c s1 E)|]. intros ls s2 _. apply never_one. exact I.
Qed.
Lemma std_background lbk : std3 (rd_background lbk).
Proof.
  intros mat mf mt. unfold rd_background. destruct (lbk =? 0); [apply only_std_ret|]. destruct (lbk =? 1); [|destruct (lbk =? 2); [|destruct (lbk =? 3)]].
  - apply only_std_bind; [apply std_tab1|intros re]. apply only_std_bind; [apply std_tab1|intros im]. intros s. unfold make_table. destruct (tables_ok _ _); exact I || reflexivity.
  - apply only_std_bind; [apply std_list|intros l]. intros s. unfold make_sammy. destruct (lB l) as [|? [|? [|? [|? [|? [|]]]]]]; exact I || reflexivity.
  - apply only_std_bind; [apply std_list|intros l]. intros s. unfold make_frohner. destruct (lB l) as [|? [|? [|? [|]]]]; exact I || reflexivity.
  - apply only_std_throw. reflexivity.
Qed.
Lemma std_entry nch : std3 (rd_entry nch).
Proof.
  intros mat mf mt. unfold rd_entry. apply only_std_bind; [apply std_cont|intros c]. apply only_std_bind; [apply only_std_require|intros _].
  apply only_std_bind; [apply std_background|intros; apply only_std_ret].
Qed.
Lemma std_group : std3 rd_group.
Proof.
  intros mat mf mt. unfold rd_group. apply only_std_bind; [apply std_list|intros ch]. apply only_std_bind; [apply only_std_require|intros _].
  apply only_std_bind; [apply std_list|intros pa]. apply only_std_bind; [apply only_std_require|intros _]. apply only_std_bind.
  - unfold rd_backgrounds. apply only_std_bind; [apply only_std_require|intros _]. apply only_std_rd_n, std_entry.
  - intros es s. unfold make_group. apply (never_lift_bind _ _ s); [apply never_ensure|intros]. apply never_lift_bind; [apply never_ensure|intros; exact I].
Qed.
Lemma std_rml : std3 rd_rml.
Proof.
  intros mat mf mt. unfold rd_rml. apply only_std_bind; [apply std_cont|intros c]. apply only_std_bind; [apply std_list|intros pp]. apply only_std_bind; [apply only_std_require|intros _].
  apply only_std_bind; [apply std_all, std_group|]. intros gs s. apply (never_one gs (Val (mkrml (z2b (l1 c)) (z2b (n2 c)) (i32 (l2 c)) pp gs)) s). exact I.
Qed.
Lemma std_radius nro : std3 (rd_radius nro).
Proof.
  intros mat mf mt. unfold rd_radius. destruct (nro =? 0); [apply only_std_ret|]. destruct (nro =? 1); [|apply only_std_throw; reflexivity].
  apply only_std_bind; [apply std_tab1|intros; apply only_std_ret].
Qed.
Lemma never_then {A B} (m : M A) (f : A -> B) s : never_other (m s) -> never_other (bind m (fun x => ret (f x)) s).
Proof. intros H. apply never_bind; [exact H|intros; exact I]. Qed.
Lemma never_params lru lrf lfw mat mf mt s : tame_params lru lrf lfw mat mf mt s -> never_other (rd_params lru lrf lfw mat mf mt s).
Proof.
  intros (T1 & T2 & T3 & T4). unfold rd_params.
  destruct (Z.eqb_spec lru 0) as [E0|E0]; [|destruct (Z.eqb_spec lru 1) as [E1|E1]; [|destruct (Z.eqb_spec lru 2) as [E2|E2]; [|reflexivity]]].
  - apply never_bind; [apply never_std, std_cont|intros; exact I].
  - destruct (Z.eqb_spec lrf 1) as [F1|F1]; [|destruct (Z.eqb_spec lrf 2) as [F2|F2]; [|destruct (Z.eqb_spec lrf 3) as [F3|F3]; [|destruct (Z.eqb_spec lrf 7) as [F7|F7]; [|reflexivity]]]]; apply never_then.
    + apply never_resolved; [intros; apply never_one; exact I|apply T1; lia].
    + apply never_resolved; [intros; apply never_one; exact I|apply T1; lia].
    + apply never_resolved; [|apply T1; lia]. intros a b c d ls s'. unfold make_reich_moore. apply never_lift_bind; [apply never_one; exact I|intros].
      apply never_lift_bind; [apply never_ensure|intros; exact I].
    + apply never_std, std_rml.
  - destruct (Z.eqb_spec lrf 1) as [F1|F1]; [destruct (Z.eqb_spec lfw 0) as [W0|W0]; [|destruct (Z.eqb_spec lfw 1) as [W1|W1]; [|reflexivity]]|destruct (Z.eqb_spec lrf 2) as [F2|F2]; [|reflexivity]]; apply never_then.
    + apply never_unresolved. intros c s1 E. apply (never_lists_from _ small); [intros; now apply never_check_independent|]. exact (T2 E2 F1 W0 c s1 E).
    + apply never_widths. exact (T3 E2 F1 W1).
    + apply never_unresolved. intros c s1 E. apply never_all_after. intros s2 Fs. apply (never_jgroup _ six); [intros; now apply never_check_dependent|]. exact (T4 E2 F2 c s1 s2 E Fs).
Qed.
Lemma never_range lfw mat mf mt s : tame_range lfw mat mf mt s -> never_other (rd_range lfw mat mf mt s).
Proof.
  intros Tm. unfold rd_range. apply never_bind; [apply never_std, std_cont|]. intros c s1 E1. apply never_bind; [apply never_std, std_radius|]. intros o s2 E2.
  apply never_bind; [apply never_params; exact (Tm c s1 o s2 _ _ _ E1 (as_int_i32 _) (as_int_i32 _) (as_int_i32 _) E2)|]. intros p s3 _. unfold make_range. destruct (range_ok _ _ _); exact I || reflexivity.
Qed.
Lemma never_resisotope mat mf mt s : tame_resisotope mat mf mt s -> never_other (rd_resisotope mat mf mt s).
Proof.
  intros Tm. unfold rd_resisotope. apply never_bind; [apply never_std, std_cont|]. intros c s1 E1. destruct (Tm c s1 E1) as [B K].
  apply never_bind; [now apply never_cast|]. intros z s2 E2. assert (s2 = s1) as -> by (unfold lift in E2; destruct (cast_int (c1 c)); [injection E2 as _ <-; reflexivity|discriminate|discriminate]).
  apply never_then. apply never_all_after. intros s3 F. apply never_range. exact (K _ s3 (as_int_i32 _) F).
Qed.
Lemma safe_151 h mat s : int32 (round_int (c1 (sbase h))) -> tame151 (buf s) -> never_other (rd_section sec_2_151 h mat s).
Proof.
  intros Hz Tm. apply never_section_any; [exact Hz|]. cbn [sec_2_151 k_read k_mf]. change (k_rmt sec_2_151 h) with 151. change (k_rmat sec_2_151 h mat) with mat.
  destruct s as [b ln]. unfold rd_151. apply never_bind; [|intros l s1 _; apply never_one; exact I]. apply never_all_after. intros s1 F. apply never_resisotope. exact (Tm mat ln s1 F).
Qed.
