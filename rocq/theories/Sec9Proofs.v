(** Sec9Proofs.v -- the sections of Sec9.v satisfy [section_codec]. *)
From Coq Require Import ZifyBool ZifyNat.
From Verif Require Import Base Disco DiscoProofs Records RecordProofs RecordRT RecordSound Layout
  RealRound RealProofs Spec Normal LineFacts Sections SecSpec Codec SectionProofs SecKit CodecKit Sec9 Sec9Spec.
Open Scope Z_scope.

(** ** 9, 10 *)
Lemma cod_levels lis ns : cod (fun b => rep_levels b /\ lis = lv_lis b /\ ns = len (lv_products b)) inv_levels
  (rd_levels lis ns) (fun b => pr_all pr_tab1 (lv_products b)) (fun b => nc_all nc_tab1 (lv_products b)).
Proof.
  split; intros mat mf mt.
  - intros [l ps] G (R & -> & ->) (I1 & I2 & I3). cbn [lv_lis lv_products] in *. unfold rd_levels. rewrite (i32_id l I1).
    apply (reads_bind_ret (rd_all rd_tab1 (len ps) mat mf mt) (mklevels l)). eapply reads_cod; [eauto with cod|exact G|exact R|].
    split; [exact I2|]. symmetry. apply i32_id, int32_len, I3.
  - intros [l ps] G (R & -> & ->) (I1 & I2 & I3). cbn [lv_lis lv_products] in *.
    eapply layout_cod; [eauto with cod|exact G|exact R|]. split; [exact I2|]. symmetry. apply i32_id, int32_len, I3.
  - unfold rd_levels. apply consumes_bind; [eapply consumes_cod; eauto with cod|intros; apply consumes_ret].
  - unfold rd_levels. eapply post_bind; [eapply post_cod; eauto with cod|]. cbv beta. intros ps [F L]. apply post_ret.
    split; [apply i32_range|]. cbn [lv_products]. split; [exact F|]. rewrite L. apply i32_pos_bound.
Qed.
Lemma codec_levels mf : 0 < mf < 100 -> section_codec (sec_levels mf) rep_levels inv_levels.
Proof.
  intros Hm. apply body_codec.
  - split; [exact Hm|exact I| |].
    + intros [l ps] R (I1 & I2 & I3). cbn [sec_levels k_ints lv_lis lv_products] in *.
      split; [now apply cols32|]. split; [cols|]. split; [|cols]. apply cols_small. fold (len ps). assert (K := len_nonneg ps). lia.
    + intros h awr _. apply (cod_imp _ _ _ _ _ (cod_levels (l1 (sbase h)) (n1 (sbase h)))); [|tauto]. intros b [R E] I. heads E. auto.
  - intros h mat mf' mt. cbn. unfold rd_levels. apply only_std_bind; [eapply std_cod; eauto with cod|intros; apply only_std_ret].
Qed.

(** ** 12, 13 *)
Lemma cod_multiplicities nk : cod (fun m => rep_multiplicities m /\ nk = len (mu_partials m)) inv_multiplicities
  (rd_multiplicities nk) pr_multiplicities nc_multiplicities.
Proof.
  assert (E : forall ps : list tab1, 0 < len ps < 2 ^ 31 -> len ps = i32 (len ps)) by (intros; symmetry; apply i32_id; unfold int32; lia).
  split; intros mat mf mt.
  - intros [t ps] G ((R1 & R2) & ->) (I1 & I2 & I3 & I4). unfold rd_multiplicities, pr_multiplicities, nc_multiplicities. cbn [mu_total mu_partials] in *.
    assert (Ht : reads (rd_total (len ps) mat mf mt) (pr_opt pr_tab1 t mat mf mt) t (nc_opt nc_tab1 t)).
    { unfold rd_total. rewrite <- E by exact I1. destruct (Z.eqb_spec (len ps) 1) as [Q|Q].
      - rewrite (I3 Q). apply reads_ret.
      - destruct (I4 Q) as (t0 & -> & It). cbn [pr_opt nc_opt]. apply (reads_bind_ret _ Some). eapply reads_cod; eauto with cod. }
    eapply reads_bind; [exact Ht|].
    cbv beta. eapply reads_k; [eapply reads_bind_r; [eapply reads_cod; [eauto with cod|exact G|exact R2|split; [exact I2|now apply E]]|]|].
    + cbv beta. eapply reads_require_bind; [rewrite isize_len; lia|]. apply reads_ret.
    + lia.
  - intros [t ps] G ((R1 & R2) & ->) (I1 & I2 & I3 & I4). unfold pr_multiplicities, nc_multiplicities. cbn [mu_total mu_partials] in *.
    apply layout_app; [|eapply layout_cod; [eauto with cod|exact G|exact R2|split; [exact I2|now apply E]]].
    destruct t as [t|]; [|apply layout_nil]. cbn [pr_opt nc_opt]. destruct (Z.eqb_spec (len ps) 1) as [Q|Q]; [discriminate (I3 Q)|].
    destruct (I4 Q) as (t0 & Q' & It). injection Q' as <-. eapply layout_cod; eauto with cod.
  - unfold rd_multiplicities, rd_total. apply consumes_bind; [destruct (i32 nk =? 1); consumes_tac|intros]. consumes_tac.
  - unfold rd_multiplicities. eapply post_bind with (Q := fun t => (i32 nk = 1 -> t = None) /\ (i32 nk <> 1 -> exists t0, t = Some t0 /\ inv_tab1 t0)).
    { unfold rd_total. destruct (Z.eqb_spec (i32 nk) 1); [apply post_ret; tauto|].
      eapply post_bind; [eapply post_cod; eauto with cod|]. intros t It. apply post_ret. split; [lia|eauto]. }
    cbv beta. intros t [T1 T2]. eapply post_bind; [eapply post_cod; eauto with cod|]. cbv beta. intros ps [F L].
    eapply post_bind; [apply post_require|cbv beta; intros _ C]. apply post_ret. unfold inv_multiplicities. cbn [mu_total mu_partials].
    assert (K := i32_pos_bound nk). assert (isize ps = len ps) by (apply isize_len; lia).
    split; [lia|]. split; [exact F|]. rewrite L. auto.
Qed.
Lemma std_multiplicities nk : std3 (rd_multiplicities nk).
Proof.
  intros mat mf mt. unfold rd_multiplicities, rd_total. apply only_std_bind; [destruct (i32 nk =? 1); std_tac|intros].
  apply only_std_bind; [eapply std_cod; eauto with cod|intros; std_tac].
Qed.
Global Hint Resolve cod_multiplicities std_multiplicities : cod.

Lemma LG_spec l : (LG l =? 1) || (LG l =? 2) = true <->
  (as_int (Z.quot (len (lB l)) (lN2 l)) 2 \/ as_int (Z.quot (len (lB l)) (lN2 l)) 3).
Proof.
  unfold LG. change (npl l) with (len (lB l)). set (q := Z.quot (len (lB l)) (lN2 l)). clearbody q.
  assert (K : forall n, -2147483647 <= n < 2147483646 -> i32 (q - 1) = n <-> as_int q (n + 1)).
  { intros n Hn. rewrite <- as_int_eq. unfold as_int, int32. replace (q - 1 - n) with (q - (n + 1)) by lia. split; intros [A B]; (split; [lia|exact B]). }
  rewrite <- (K 1), <- (K 2) by lia. lia.
Qed.
Lemma cod_transitions : cod endf_list inv_transitions rd_transitions pr_list nc_list.
Proof.
  split; intros mat mf mt.
  - intros l G R [I1 I2]. unfold rd_transitions, check_LG. eapply reads_k; [eapply reads_bind_r; [eapply reads_cod; eauto with cod|]|].
    + cbv beta. destruct (Z.eqb_spec (lN2 l) 0); [lia|]. eapply reads_require_bind; [now apply LG_spec|apply reads_ret].
    + lia.
  - intros l G R I. eapply layout_cod; eauto with cod.
  - unfold rd_transitions, check_LG. apply consumes_bind; [eapply consumes_cod; eauto with cod|intros l].
    apply consumes_bind; [destruct (lN2 l =? 0); [apply consumes_undef|apply consumes_require]|intros; apply consumes_ret].
  - unfold rd_transitions, check_LG. eapply post_bind; [apply post_true|intros l _].
    eapply post_bind with (Q := fun _ => inv_transitions l).
    + destruct (Z.eqb_spec (lN2 l) 0); [apply post_undef|]. eapply post_weaken; [apply post_require|cbv beta; intros _ E].
      split; [exact n|now apply LG_spec].
    + intros _ E. now apply post_ret.
Qed.
Global Hint Resolve cod_transitions : cod.
Lemma body_12 : body_cod sec_12 rep_production inv_production.
Proof.
  split; [cbn; lia|exact I| |].
  - intros p R I. cbn. split; [destruct p; cbn; cols|]. split; [destruct p; cbn; [cols|apply cols32, i32_range]|].
    split; [destruct p; cbn; apply cols32, i32_range|cols].
  - intros h awr _. split; intros mat mf mt.
    + intros p G [R E] I. heads E. cbn [sec_12 k_read k_print k_nc]. rewrite H, H1. unfold rd_production.
      destruct p as [m|l]; cbn [LO12 N1_12 rep_production inv_production pr_production nc_production] in *; flags.
      * apply (reads_bind_ret _ Multiplicities). eapply reads_cod; [eauto with cod|exact G| |exact I].
        split; [exact R|]. apply isize_len, I.
      * apply (reads_bind_ret _ TransitionProbabilities). eapply reads_cod; eauto with cod.
    + intros p G [R E] I. heads E. cbn [sec_12 k_print k_nc].
      destruct p as [m|l]; cbn [LO12 N1_12 rep_production inv_production pr_production nc_production] in *.
      * exact (co_layout _ _ _ _ _ (cod_multiplicities _) mat mf mt m G (conj R eq_refl) I).
      * eapply layout_cod; eauto with cod.
    + cbn. unfold rd_production. consumes_tac.
    + cbn. unfold rd_production. post_tac; apply post_ret; cbn; assumption.
Qed.
Lemma rt_12 : section_rt sec_12 rep_production inv_production.
Proof. apply body_section, body_12. Qed.
Lemma codec_13 : section_codec sec_13 rep_multiplicities inv_multiplicities.
Proof.
  apply body_codec.
  - split; [cbn; lia|exact I| |].
    + intros m R I. cbn. ints4. apply cols32, i32_range.
    + intros h awr _. apply (cod_imp _ _ _ _ _ (cod_multiplicities (n1 (sbase h)))); [|tauto]. intros m [R E] I. heads E. split; [split; [exact R|]|exact I].
      rewrite <- isize_len by apply I. assumption.
  - intros h. apply std_multiplicities.
Qed.

(** ** 15 *)
Lemma cod_p15 : cod rep_p15 inv_p15 rd_p15 pr_p15 nc_p15.
Proof.
  split; intros mat mf mt.
  - intros [p d] G [R1 R2] (I1 & I2 & I3). unfold rd_p15, pr_p15, nc_p15, rd_spectrum. cbn [p15_prob p15_spec] in *. apply as_int_eq in I2.
    eapply reads_bind; [eapply reads_cod; eauto with cod|]. cbv beta. eapply reads_require_bind; [lia|].
    apply (reads_bind_ret _ (mkp15 p)). eapply reads_cod; eauto with cod.
  - intros [p d] G [R1 R2] (I1 & I2 & I3). unfold pr_p15, nc_p15. cbn [p15_prob p15_spec] in *. lay.
  - unfold rd_p15, rd_spectrum. consumes_tac.
  - unfold rd_p15, rd_spectrum. eapply post_bind; [eapply post_cod; eauto with cod|intros p Ip].
    eapply post_bind; [apply post_require|cbv beta; intros _ E]. eapply post_bind; [eapply post_cod; eauto with cod|cbv beta; intros d Id].
    apply post_ret. split; [exact Ip|]. split; [apply as_int_eq; cbn; lia|exact Id].
Qed.
Lemma std_p15 : std3 rd_p15.
Proof. intros mat mf mt. unfold rd_p15, rd_spectrum. std_tac. Qed.
Global Hint Resolve cod_p15 std_p15 : cod.
(** a non-empty sequence counted in the HEAD *)
Lemma cod_nonempty {A} rep inv (rd : Z -> Z -> Z -> M A) pr nc n : cod rep inv rd pr nc ->
  cod (fun l => Forall rep l /\ n = isize l) (some_of inv) (rd_nonempty rd n) (pr_all pr) (nc_all nc).
Proof.
  intros H. assert (Ha := cod_all rep inv rd pr nc n H). split; intros mat mf mt.
  - intros l G [R E] [I1 I2]. rewrite isize_len in E by lia. unfold rd_nonempty.
    eapply reads_k; [eapply reads_bind_r; [apply (co_reads _ _ _ _ _ Ha); [exact G|exact R|split; [exact I1|subst n; symmetry; apply i32_id, int32_len; lia]]|]|].
    + cbv beta. eapply reads_require_bind; [rewrite isize_len; lia|apply reads_ret].
    + lia.
  - intros l G [R E] [I1 I2]. rewrite isize_len in E by lia.
    apply (co_layout _ _ _ _ _ Ha); [exact G|exact R|split; [exact I1|subst n; symmetry; apply i32_id, int32_len; lia]].
  - unfold rd_nonempty. apply consumes_bind; [apply Ha|intros; consumes_tac].
  - unfold rd_nonempty. eapply post_bind; [apply Ha|cbv beta; intros l [F L]]. eapply post_bind; [apply post_require|cbv beta; intros _ C].
    apply post_ret. assert (K := i32_pos_bound n). assert (K' := len_nonneg l). rewrite isize_len in C by lia. split; [exact F|lia].
Qed.
Lemma std_nonempty {A} (rd : Z -> Z -> Z -> M A) n : std3 rd -> std3 (rd_nonempty rd n).
Proof. intros H mat mf mt. unfold rd_nonempty. apply only_std_bind; [now apply std_all|intros; std_tac]. Qed.
Global Hint Resolve std_nonempty : cod.
Lemma codec_15 : section_codec sec_15 (Forall rep_p15) (some_of inv_p15).
Proof.
  apply body_codec.
  - split; [cbn; lia|exact I| |].
    + intros m R I. cbn. ints4. apply cols32, i32_range.
    + intros h awr _. apply (cod_imp _ _ _ _ _ (cod_nonempty _ _ _ _ _ (n1 (sbase h)) cod_p15)); [|tauto]. intros m [R E] I. heads E. auto.
  - intros h. apply std_nonempty, std_p15.
Qed.

(** a sequence counted in the HEAD *)
Lemma codec_many {A} rep inv (rd : Z -> Z -> Z -> M A) pr nc h : cod rep inv rd pr nc ->
  cod (fun l => Forall rep l /\ n1 h = Z.of_nat (length l)) (many_of inv) (rd_all rd (n1 h)) (pr_all pr) (nc_all nc).
Proof.
  intros H. apply (cod_imp _ _ _ _ _ (cod_all rep inv rd pr nc (n1 h) H)).
  - intros l [R E] [I1 I2]. split; [exact R|]. split; [exact I1|]. rewrite E. symmetry. apply i32_id, int32_len, I2.
  - intros l [F L]. split; [exact F|]. rewrite L. apply i32_pos_bound.
Qed.
Lemma cols_len {A} (l : list A) : len l < 2 ^ 31 -> in_cols 11 (Z.of_nat (length l)).
Proof. intros H. apply cols_small. fold (len l). assert (K := len_nonneg l). lia. Qed.
(** ** 14 *)
Lemma cod_while {A} rep inv (rd : Z -> Z -> Z -> M A) pr nc n : cod rep inv rd pr nc ->
  cod (Forall rep) (fun l => Forall inv l /\ len l = n) (rd_while rd n) (pr_all pr) (nc_all nc).
Proof.
  intros [H1 H2 H3 H4]. split; intros mat mf mt.
  - intros l G R [I <-]. unfold rd_while. assert (K := len_nonneg l). replace (len l <? 0) with false by lia. unfold len. rewrite Nat2Z.id.
    apply reads_rd_n. rewrite Forall_forall in *. intros x Hx. apply H1; auto.
  - intros l G R [I L]. apply (layout_flat_map (fun c => pr c mat mf mt)). rewrite Forall_forall in *. intros x Hx. apply H2; auto.
  - unfold rd_while. destruct (n <? 0); [apply consumes_throw|]. now apply consumes_rd_n.
  - unfold rd_while. destruct (Z.ltb_spec n 0); [apply post_throw|]. eapply post_weaken; [apply post_rd_n, H4|]. cbv beta. intros l [F L].
    split; [exact F|unfold len; lia].
Qed.
Lemma std_while {A} (rd : Z -> Z -> Z -> M A) n : std3 rd -> std3 (rd_while rd n).
Proof. intros H mat mf mt. unfold rd_while. destruct (n <? 0); [apply only_std_throw; reflexivity|]. apply only_std_rd_n, H. Qed.
Lemma cod_iso : cod (fun p => rep_photon14 p /\ LTT_photon p = 0) (fun p => inv_photon14 p /\ LTT_photon p = 0) rd_iso pr_photon14 nc_photon14.
Proof.
  split; intros mat mf mt.
  - intros p G [R K] [I _]. destruct p as [eg es|q|q]; try discriminate K. cbn [pr_photon14 nc_photon14 rep_photon14 inv_photon14] in *. unfold rd_iso.
    apply (reads_bind_ret _ (fun c => Isotropic14 (c1 c) (c2 c)) _ (mkcont eg es 0 0 0 0)). destruct R.
    exact (co_reads _ _ _ _ _ cod_cont mat mf mt (mkcont eg es 0 0 0 0) G ltac:(unfold endf_cont, ints_fit; cbn; split; [assumption|]; split; [assumption|]; ints4) Logic.I).
  - intros p G [R K] [I _]. destruct p as [eg es|q|q]; try discriminate K. cbn [pr_photon14 nc_photon14 rep_photon14 inv_photon14] in *. destruct R.
    exact (co_layout _ _ _ _ _ cod_cont mat mf mt (mkcont eg es 0 0 0 0) G ltac:(unfold endf_cont, ints_fit; cbn; split; [assumption|]; split; [assumption|]; ints4) Logic.I).
  - unfold rd_iso. consumes_tac.
  - unfold rd_iso. po. apply post_ret. cbn. auto.
Qed.
Lemma cod_leg : cod (fun p => rep_photon14 p /\ LTT_photon p = 1) (fun p => inv_photon14 p /\ LTT_photon p = 1) rd_leg pr_photon14 nc_photon14.
Proof.
  split; intros mat mf mt.
  - intros p G [R K] [I _]. destruct p as [eg es|q|q]; try discriminate K. cbn [pr_photon14 nc_photon14 rep_photon14 inv_photon14] in *. unfold rd_leg.
    apply (reads_bind_ret _ Legendre14). exact (co_reads _ _ _ _ _ (cod_iseq0 _ _ _ _ _ cod_list) mat mf mt q G R I).
  - intros p G [R K] [I _]. destruct p as [eg es|q|q]; try discriminate K. cbn [pr_photon14 nc_photon14 rep_photon14 inv_photon14] in *.
    exact (co_layout _ _ _ _ _ (cod_iseq0 _ _ _ _ _ cod_list) mat mf mt q G R I).
  - unfold rd_leg. consumes_tac.
  - unfold rd_leg. eapply post_bind; [exact (co_post _ _ _ _ _ (cod_iseq0 _ _ _ _ _ cod_list) mat mf mt)|]. cbv beta. intros q Iq. apply post_ret. cbn. auto.
Qed.
Lemma cod_tabd : cod (fun p => rep_photon14 p /\ LTT_photon p = 2) (fun p => inv_photon14 p /\ LTT_photon p = 2) rd_tabd pr_photon14 nc_photon14.
Proof.
  split; intros mat mf mt.
  - intros p G [R K] [I _]. destruct p as [eg es|q|q]; try discriminate K. cbn [pr_photon14 nc_photon14 rep_photon14 inv_photon14] in *. unfold rd_tabd.
    apply (reads_bind_ret _ Tabulated14). exact (co_reads _ _ _ _ _ (cod_iseq0 _ _ _ _ _ cod_tab1) mat mf mt q G R I).
  - intros p G [R K] [I _]. destruct p as [eg es|q|q]; try discriminate K. cbn [pr_photon14 nc_photon14 rep_photon14 inv_photon14] in *.
    exact (co_layout _ _ _ _ _ (cod_iseq0 _ _ _ _ _ cod_tab1) mat mf mt q G R I).
  - unfold rd_tabd. consumes_tac.
  - unfold rd_tabd. eapply post_bind; [exact (co_post _ _ _ _ _ (cod_iseq0 _ _ _ _ _ cod_tab1) mat mf mt)|]. cbv beta. intros q Iq. apply post_ret. cbn. auto.
Qed.
Lemma std_iso : std3 rd_iso. Proof. intros mat mf mt. unfold rd_iso. std_tac. Qed.
Lemma std_leg : std3 rd_leg. Proof. intros mat mf mt. unfold rd_leg. std_tac. Qed.
Lemma std_tabd : std3 rd_tabd. Proof. intros mat mf mt. unfold rd_tabd. std_tac. Qed.
Lemma Forall_and_iff {A} (P Q : A -> Prop) l : Forall (fun x => P x /\ Q x) l <-> Forall P l /\ Forall Q l.
Proof. split; [intros H; split; eapply Forall_impl; try exact H; cbv beta; tauto|intros [H K]; rewrite Forall_forall in *; auto]. Qed.
(** the list of photons, for a given split *)
Lemma reads_ani mat mf mt k ani : good_tail mat mf mt -> k = 1 \/ k = 2 -> Forall rep_photon14 ani -> Forall inv_photon14 ani ->
  Forall (fun p => LTT_photon p = k) ani ->
  reads ((if len ani =? 0 then ret [] else if k =? 1 then rd_while rd_leg (len ani) mat mf mt
          else if k =? 2 then rd_while rd_tabd (len ani) mat mf mt else throw EStd))
        (pr_all pr_photon14 ani mat mf mt) ani (nc_all nc_photon14 ani).
Proof.
  intros G Hk R I K. destruct ani as [|p ani]; [apply reads_ret|].
  replace (len (p :: ani) =? 0) with false by (unfold len; cbn [length]; lia).
  destruct Hk as [->| ->]; flags.
  - exact (co_reads _ _ _ _ _ (cod_while _ _ _ _ _ (len (p :: ani)) cod_leg) mat mf mt (p :: ani) G
      (proj2 (Forall_and_iff _ _ _) (conj R K)) (conj (proj2 (Forall_and_iff _ _ _) (conj I K)) eq_refl)).
  - exact (co_reads _ _ _ _ _ (cod_while _ _ _ _ _ (len (p :: ani)) cod_tabd) mat mf mt (p :: ani) G
      (proj2 (Forall_and_iff _ _ _) (conj R K)) (conj (proj2 (Forall_and_iff _ _ _) (conj I K)) eq_refl)).
Qed.
Lemma filter_iso iso ani k : Forall (fun p => LTT_photon p = 0) iso -> Forall (fun p => LTT_photon p = k) ani -> k <> 0 ->
  filter is_iso (iso ++ ani) = iso.
Proof.
  intros A B Hk. rewrite filter_app.
  replace (filter is_iso iso) with iso.
  2:{ induction A as [|p l Hp F IH]; [reflexivity|]. cbn. destruct p; try discriminate Hp. cbn. now rewrite <- IH. }
  replace (filter is_iso ani) with (@nil photon14); [apply app_nil_r|].
  induction B as [|p l Hp F IH]; [reflexivity|]. cbn. destruct p; cbn in *; auto; lia.
Qed.
Lemma LTT_last iso ani k p ps : p :: ps = iso ++ ani -> Forall (fun p => LTT_photon p = 0) iso -> Forall (fun p => LTT_photon p = k) ani ->
  ani <> [] -> LTT_photon (last ps p) = k.
Proof.
  intros E _ B Ha. rewrite <- (last_last [] (last ps p) p). cbn [app last].
  assert (K : last (p :: ps) p = last ps p) by (destruct ps; [reflexivity|cbn [last]; destruct ps; reflexivity]).
  assert (In (last ps p) ani); [|rewrite Forall_forall in B; auto].
  rewrite <- K, E. destruct (exists_last Ha) as (a & z & ->). rewrite app_assoc, last_last. apply in_or_app. right. now left.
Qed.
Lemma pr_all_app {A} (pr : A -> Z -> Z -> Z -> text) a b mat mf mt : pr_all pr (a ++ b) mat mf mt = pr_all pr a mat mf mt ++ pr_all pr b mat mf mt.
Proof. unfold pr_all. apply flat_map_app. Qed.
Lemma zsum_app a b : zsum (a ++ b) = zsum a + zsum b.
Proof. unfold zsum. induction a; cbn [app fold_right]; lia. Qed.
Lemma nc_all_app {A} (nc : A -> Z) a b : nc_all nc (a ++ b) = nc_all nc a + nc_all nc b.
Proof. unfold nc_all. now rewrite map_app, zsum_app. Qed.
Lemma cod_photon14 : forall p mat mf mt, good_tail mat mf mt -> rep_photon14 p -> inv_photon14 p -> layout mat mf mt (nc_photon14 p) (pr_photon14 p mat mf mt).
Proof.
  intros p mat mf mt G R I. destruct p.
  - exact (co_layout _ _ _ _ _ cod_iso mat mf mt _ G (conj R eq_refl) (conj I eq_refl)).
  - exact (co_layout _ _ _ _ _ cod_leg mat mf mt _ G (conj R eq_refl) (conj I eq_refl)).
  - exact (co_layout _ _ _ _ _ cod_tabd mat mf mt _ G (conj R eq_refl) (conj I eq_refl)).
Qed.
Lemma codec_14 : section_codec sec_14 rep_body14 inv_body14.
Proof.
  apply body_codec.
  - split; [cbn; lia|exact I| |].
    + intros b R I. cbn. unfold NI14. ints4.
      * destruct b; cbn; cols.
      * destruct b as [nk|p ps]; cbn; [cols|]. destruct (last ps p); cbn; cols.
      * destruct b as [nk|p ps]; cbn [NK14]; [apply cols32, I|apply cols32, i32_range].
      * apply cols32, i32_range.
    + intros h awr _. cbn [sec_14 k_read k_print k_nc k_ints]. split; intros mat mf mt.
      * intros b G [[R1 R2] E] (I1 & (iso & ani & k & Hs & F1 & F2 & Hk) & I3). unfold head_ints in E. injection E as E1 E2 E3 E4.
        unfold rd_body14. rewrite E1, E2, E3, E4. unfold rd_photons14.
        destruct b as [nk|p ps]; cbn [LI14 NK14 photons_of] in *.
        -- flags. rewrite (i32_id nk I3). apply (reads_bind_ret _ (body14_of nk) _ [] 0). apply reads_ret.
        -- flags. unfold NI14. cbn [photons_of]. rewrite Hs in R1, R2, I1 |- *. assert (Hk0 : k <> 0) by (destruct Hk as [->| ->]; lia). rewrite (filter_iso iso ani k F1 F2 Hk0).
           assert (L : len (iso ++ ani) = len iso + len ani) by (unfold len; rewrite app_length; lia).
           assert (N1 := len_nonneg iso). assert (N2 := len_nonneg ani). 
           rewrite isize_len by lia. rewrite isize_len by lia. rewrite L. replace (len iso + len ani - len iso) with (len ani) by lia.
           rewrite i32_id by (unfold int32; lia). apply Forall_app in R1, I1. destruct R1 as [R1 R1'], I1 as [I1 I1'].
           assert (Hl : reads (if len ani =? 0 then ret [] else if LTT14 (Photons p ps) =? 1 then rd_while rd_leg (len ani) mat mf mt
               else if LTT14 (Photons p ps) =? 2 then rd_while rd_tabd (len ani) mat mf mt else throw EStd)
               (pr_all pr_photon14 ani mat mf mt) ani (nc_all nc_photon14 ani)).
           { destruct ani as [|a ani']; [apply reads_ret|]. set (ani := a :: ani') in *.
             replace (LTT14 (Photons p ps)) with k; [now apply reads_ani|]. symmetry. cbn [LTT14]. now apply (LTT_last iso ani). }
           set (ltt := LTT14 (Photons p ps)) in *. clearbody ltt.
           assert (Eb : forall x, body14_of x (iso ++ ani) = Photons p ps) by (intros; rewrite <- Hs; reflexivity).
           rewrite <- (Eb (len iso + len ani)). rewrite pr_all_app, nc_all_app.
           apply (reads_bind_ret _ (body14_of (len iso + len ani))). eapply reads_require_bind; [lia|].
           eapply reads_bind.
           { apply (co_reads _ _ _ _ _ (cod_while _ _ _ _ _ (len iso) cod_iso) mat mf mt iso G); [now apply Forall_and_iff|]. split; [now apply Forall_and_iff|reflexivity]. }
           cbv beta. apply (reads_bind_ret _ (app iso)). exact Hl.
      * intros b G [[R1 R2] E] (I1 & _). apply (layout_flat_map (fun c => pr_photon14 c mat mf mt)).
        rewrite Forall_forall in *. intros p Hp. apply cod_photon14; auto.
      * unfold rd_body14, rd_photons14. apply consumes_bind; [|intros; apply consumes_ret]. destruct (_ =? 1); [apply consumes_ret|].
        apply consumes_bind; [apply consumes_require|intros]. apply consumes_bind; [exact (co_consumes _ _ _ _ _ (cod_while _ _ _ _ _ _ cod_iso) mat mf mt)|intros].
        apply consumes_bind; [|intros; apply consumes_ret]. destruct (_ =? 0); [apply consumes_ret|]. destruct (_ =? 1); [exact (co_consumes _ _ _ _ _ (cod_while _ _ _ _ _ _ cod_leg) mat mf mt)|].
        destruct (_ =? 2); [exact (co_consumes _ _ _ _ _ (cod_while _ _ _ _ _ _ cod_tabd) mat mf mt)|apply consumes_throw].
      * unfold rd_body14. eapply post_bind with (Q := fun l => Forall inv_photon14 l /\ exists iso ani k, l = iso ++ ani
           /\ Forall (fun p => LTT_photon p = 0) iso /\ Forall (fun p => LTT_photon p = k) ani /\ (k = 1 \/ k = 2)).
        -- unfold rd_photons14. destruct (_ =? 1). { apply post_ret. split; [constructor|]. exists [], [], 1. repeat split; auto. }
           eapply post_bind; [apply post_require|intros _ _].
           eapply post_bind; [exact (co_post _ _ _ _ _ (cod_while _ _ _ _ _ _ cod_iso) mat mf mt)|]. cbv beta. intros iso [Fi _].
           apply Forall_and_iff in Fi. destruct Fi as [Fi Fi'].
           eapply post_bind with (Q := fun ani => Forall inv_photon14 ani /\ exists k, Forall (fun p => LTT_photon p = k) ani /\ (k = 1 \/ k = 2)).
           ++ destruct (_ =? 0). { apply post_ret. split; [constructor|]. exists 1. auto. }
              destruct (_ =? 1). { eapply post_weaken; [exact (co_post _ _ _ _ _ (cod_while _ _ _ _ _ _ cod_leg) mat mf mt)|]. cbv beta. intros l [F _]. apply Forall_and_iff in F. destruct F. eauto. }
              destruct (_ =? 2); [|apply post_throw]. eapply post_weaken; [exact (co_post _ _ _ _ _ (cod_while _ _ _ _ _ _ cod_tabd) mat mf mt)|]. cbv beta. intros l [F _]. apply Forall_and_iff in F. destruct F. eauto.
           ++ cbv beta. intros ani (Fa & k & Fk & Hk). apply post_ret. split; [now apply Forall_app|]. exists iso, ani, k. auto.
        -- cbv beta. intros l [Fl (iso & ani & k & -> & A & B & C)]. apply post_ret. unfold inv_body14.
           assert (Ep : photons_of (body14_of (i32 (n1 (sbase h))) (iso ++ ani)) = iso ++ ani) by (destruct (iso ++ ani); reflexivity).
           rewrite Ep. split; [exact Fl|]. split; [exists iso, ani, k; auto|]. destruct (iso ++ ani); cbn; [apply i32_range|exact Logic.I].
  - intros h mat mf mt. cbn. unfold rd_body14, rd_photons14. apply only_std_bind; [|intros; apply only_std_ret]. destruct (_ =? 1); [apply only_std_ret|].
    apply only_std_bind; [apply only_std_require|intros]. apply only_std_bind; [apply std_while, std_iso|intros].
    apply only_std_bind; [|intros; apply only_std_ret]. destruct (_ =? 0); [apply only_std_ret|]. destruct (_ =? 1); [apply std_while, std_leg|].
    destruct (_ =? 2); [apply std_while, std_tabd|apply only_std_throw; reflexivity].
Qed.
