(** RoundSecs.v -- [rounds] for every section class. *)
From Coq Require Import QArith Lqa ZifyBool ZifyNat.
From Verif Require Import Base Disco DiscoProofs Records RecordProofs RecordRT RealRound RealProofs Spec Normal Sections SecSpec Typed Classes Sec1 Sec1Spec Sec451 Sec451Spec SecKit Sec9 Sec9Spec Sec4 Sec4Spec Sec6 Sec6Spec Sec33 Sec33Spec Sec8 Sec8Spec Sec2 Sec2Spec Sec32 Sec32Spec Sec28 Sec28Proofs Sec7 Sec7Spec Rounded PropClasses RoundProofs.
Open Scope Z_scope.

Definition T1 := rounds_tab1.
Ltac by_list l := apply (rounds_list (fun _ => True) (fun _ _ _ => Logic.I)).

(** ** File 1 *)
Lemma rounds_mult : rounds mod_mult rep_mult inv_mult rn_mult pr_mult nc_mult.
Proof.
  split; intros [l|t]; cbn [mod_mult rep_mult inv_mult rn_mult pr_mult nc_mult]; intros; auto.
  - now apply rn_list_rep.
  - now apply (rs_rep T1).
  - now apply (rs_inv T1).
  - now apply rn_list_pr.
  - now apply (rs_pr T1).
  - apply rn_list_nc.
  - apply (rs_nc T1).
Qed.
Lemma rn_families l : families (renorm_list l) = families l.
Proof. unfold families. counts. Qed.
Lemma rounds_decay_list : rounds mod_list endf_list inv_decay renorm_list pr_list nc_list.
Proof. apply rounds_list. intros l _. unfold inv_decay. counts. Qed.
Lemma rounds_decay_seq : rounds (mod_seq mod_list) (rep_seq endf_list)
  (inv_seq inv_decay (fun ls => forall l l', In l ls -> In l' ls -> families l = families l')) (rn_seq renorm_list) (pr_iseq pr_list) (nc_iseq nc_list).
Proof.
  apply (rounds_seq rounds_decay_list). intros ls _ _ H l l' H1 H2. apply in_map_iff in H1, H2.
  destruct H1 as (a & <- & Ha), H2 as (b & <- & Hb). rewrite !rn_families. now apply H.
Qed.
Lemma rounds_decay : rounds mod_decay_data rep_decay_data inv_decay_data rn_decay_data pr_decay nc_decay.
Proof.
  split; intros [l|q]; cbn [mod_decay_data rep_decay_data inv_decay_data rn_decay_data pr_decay nc_decay]; intros; auto.
  - now apply rn_list_rep.
  - now apply (rs_rep rounds_decay_seq).
  - now apply (rs_inv rounds_decay_seq).
  - now apply rn_list_pr.
  - now apply (rs_pr rounds_decay_seq).
  - apply rn_list_nc.
  - apply (rs_nc rounds_decay_seq).
Qed.
Lemma rounds_455 : rounds (fun b => mod_decay_data (fst b) /\ mod_mult (snd b)) (fun b => rep_decay_data (fst b) /\ rep_mult (snd b))
  (fun b => inv_decay_data (fst b) /\ inv_mult (snd b)) (fun b => (rn_decay_data (fst b), rn_mult (snd b)))
  (fun b mat mf mt => pr_decay (fst b) mat mf mt ++ pr_mult (snd b) mat mf mt) (fun b => nc_decay (fst b) + nc_mult (snd b)).
Proof.
  split; intros [d m]; cbn [fst snd]; intros.
  - destruct H. split; [now apply (rs_rep rounds_decay)|now apply (rs_rep rounds_mult)].
  - destruct H, H0. split; [now apply (rs_inv rounds_decay)|now apply (rs_inv rounds_mult)].
  - destruct H. f_equal; [now apply (rs_pr rounds_decay)|now apply (rs_pr rounds_mult)].
  - f_equal; [apply (rs_nc rounds_decay)|apply (rs_nc rounds_mult)].
Qed.
Lemma somes_map {A B} (f : A -> B) r : somes (map (option_map f) r) = map f (somes r).
Proof. unfold somes. induction r as [|[x|] r IH]; cbn; congruence. Qed.
Lemma rounds_fission : rounds mod_fission_q rep_fission_q inv_fission_q rn_fission_q pr_fission_q nc_fission_q.
Proof.
  split; intros [l|l|n l r]; cbn [mod_fission_q rep_fission_q inv_fission_q rn_fission_q pr_fission_q nc_fission_q]; intros.
  - destruct H. split; [now apply rn_list_rep|counts].
  - destruct H. split; [now apply rn_list_rep|counts].
  - destruct H. split; [now apply rn_list_rep|]. rewrite somes_map. now apply (all_rep T1).
  - counts.
  - counts.
  - destruct H as [_ F]. destruct H0 as (H1 & [H2 H3] & H4). split; [counts|]. split.
    + split; [now rewrite map_length|]. intros i t Ht. rewrite nth_error_map in Ht.
      destruct (nth_error r i) as [[t'|]|] eqn:E; try discriminate. cbn [option_map] in Ht.
      assert (t = renorm_tab1 t') by congruence. subst t. destruct (H3 i t' E) as (K1 & K2 & K3). split.
      * apply rn_tab1_inv; auto. rewrite Forall_forall in F. apply F. unfold somes. apply in_flat_map. exists (Some t'). split; [|now left]. eapply nth_error_In; eauto.
      * split; [exact K2|exact K3].
    + unfold count. rewrite somes_map, len_map. exact H4.
  - destruct H. now apply rn_list_pr.
  - destruct H. now apply rn_list_pr.
  - destruct H. rewrite rn_list_pr by auto. f_equal. rewrite somes_map. now apply (all_pr T1).
  - apply rn_list_nc.
  - apply rn_list_nc.
  - rewrite rn_list_nc. f_equal. rewrite somes_map. apply (all_nc T1).
Qed.
Lemma rounds_photons : rounds mod_photons rep_photons inv_photons rn_photons pr_photons nc_photons.
Proof.
  split; intros [l|l]; cbn [mod_photons rep_photons inv_photons rn_photons pr_photons nc_photons]; intros.
  - now apply (all_rep T1).
  - now apply rn_list_rep.
  - destruct H0. split; [now apply (all_inv T1)|now rewrite len_map].
  - counts.
  - now apply (all_pr T1).
  - now apply rn_list_pr.
  - apply (all_nc T1).
  - apply rn_list_nc.
Qed.
Lemma rounds_descr : rounds mod_descr rep_descr inv_descr rn_descr pr_descr nc_descr.
Proof.
  split; intros b; intros.
  - destruct H as (H0 & H1 & H2 & H3). unfold rep_descr, rn_descr. cbn [d_c0 d_c1 d_c2 d_text d_index].
    repeat (split; [now apply rn_cont_rep|]). exact H3.
  - exact H0.
  - destruct H as ((H0 & H1 & _) & (H2 & H3 & _) & (H4 & H5 & _) & _). unfold pr_descr, rn_descr. cbn [d_c0 d_c1 d_c2 d_text d_index].
    now rewrite !rn_cont_pr.
  - reflexivity.
Qed.

(** ** Files 9 to 15 *)
Lemma rounds_levels : rounds mod_levels rep_levels inv_levels rn_levels (fun b => pr_all pr_tab1 (lv_products b)) (fun b => nc_all nc_tab1 (lv_products b)).
Proof.
  split; intros [n l]; unfold mod_levels, rep_levels, inv_levels, rn_levels; cbn [lv_lis lv_products]; intros.
  - now apply (all_rep T1).
  - rewrite len_map. destruct H0 as (H1 & H2 & H3). split; [exact H1|]. split; [now apply (all_inv T1)|exact H3].
  - now apply (all_pr T1).
  - apply (all_nc T1).
Qed.
Lemma rounds_multiplicities : rounds mod_multiplicities rep_multiplicities inv_multiplicities rn_multiplicities pr_multiplicities nc_multiplicities.
Proof.
  split; intros [o l]; unfold mod_multiplicities, rep_multiplicities, inv_multiplicities, rn_multiplicities, pr_multiplicities, nc_multiplicities; cbn [mu_total mu_partials]; intros.
  - destruct H. split; [now apply (opt_rep T1)|now apply (all_rep T1)].
  - destruct H as [M1 M2]. destruct H0 as (H1 & H2 & H3 & H4). rewrite !len_map. split; [exact H1|]. split; [now apply (all_inv T1)|]. split.
    + intros K. now rewrite (H3 K).
    + intros K. destruct (H4 K) as (t & -> & Ht). exists (renorm_tab1 t). split; [reflexivity|]. apply rn_tab1_inv; auto.
  - destruct H. f_equal; [now apply (opt_pr T1)|now apply (all_pr T1)].
  - f_equal; [apply (opt_nc T1)|apply (all_nc T1)].
Qed.
Lemma rounds_production : rounds mod_production rep_production inv_production rn_production pr_production nc_production.
Proof.
  split; intros [m|l]; cbn [mod_production rep_production inv_production rn_production pr_production nc_production]; intros.
  - now apply (rs_rep rounds_multiplicities).
  - now apply rn_list_rep.
  - now apply (rs_inv rounds_multiplicities).
  - revert H0. unfold inv_transitions. counts.
  - now apply (rs_pr rounds_multiplicities).
  - now apply rn_list_pr.
  - apply (rs_nc rounds_multiplicities).
  - apply rn_list_nc.
Qed.
Lemma rounds_p15 : rounds mod_p15 rep_p15 inv_p15 rn_p15 pr_p15 nc_p15.
Proof.
  assert (Q := rounds_seq_any T1).
  split; intros [p q]; unfold mod_p15, rep_p15, inv_p15, rn_p15, pr_p15, nc_p15; cbn [p15_prob p15_spec]; intros.
  - destruct H. split; [now apply (rs_rep T1)|now apply (rs_rep Q)].
  - destruct H. destruct H0 as (H0 & H2 & H3). split; [now apply (rs_inv T1)|]. split; [exact H2|]. now apply (rs_inv Q).
  - destruct H. f_equal; [now apply (rs_pr T1)|now apply (rs_pr Q)].
  - f_equal; [apply (rs_nc T1)|apply (rs_nc Q)].
Qed.
Lemma rounds_photon14 : rounds mod_photon14 rep_photon14 inv_photon14 rn_photon14 pr_photon14 nc_photon14.
Proof.
  assert (Q := rounds_seq_any T1). assert (L := rounds_seq_any list_any).
  split; intros [a b|q|q]; cbn [mod_photon14 rep_photon14 inv_photon14 rn_photon14 pr_photon14 nc_photon14]; intros; auto.
  - destruct H. split; now apply ordinary_endf.
  - now apply (rs_rep L).
  - now apply (rs_rep Q).
  - now apply (rs_inv L).
  - now apply (rs_inv Q).
  - destruct H. now apply (rn_cont_pr (mkcont a b 0 0 0 0)).
  - now apply (rs_pr L).
  - now apply (rs_pr Q).
  - apply (rs_nc L).
  - apply (rs_nc Q).
Qed.
Lemma photons_rn b : photons_of (rn_body14 b) = map rn_photon14 (photons_of b).
Proof. now destruct b. Qed.
Lemma LTT_rn p : LTT_photon (rn_photon14 p) = LTT_photon p. Proof. now destruct p. Qed.
Lemma LTT_all k l : Forall (fun p => LTT_photon p = k) l -> Forall (fun p => LTT_photon p = k) (map rn_photon14 l).
Proof. intros H. apply Forall_map. eapply Forall_impl; [|exact H]. intros p Hp. now rewrite LTT_rn. Qed.
Lemma rounds_body14 : rounds mod_body14 rep_body14 inv_body14 rn_body14
  (fun b => pr_all pr_photon14 (photons_of b)) (fun b => nc_all nc_photon14 (photons_of b)).
Proof.
  split; intros b; unfold mod_body14, rep_body14, inv_body14; rewrite photons_rn; intros.
  - destruct H. rewrite len_map. split; [now apply (all_rep rounds_photon14)|exact H0].
  - destruct H as [M _]. destruct H0 as (H1 & (iso & ani & k & H2 & H3 & H4 & H5) & H6). split; [now apply (all_inv rounds_photon14)|]. split.
    + exists (map rn_photon14 iso), (map rn_photon14 ani), k. rewrite H2, map_app. split; [reflexivity|].
      split; [now apply LTT_all|]. split; [now apply LTT_all|exact H5].
    + now destruct b.
  - destruct H. now apply (all_pr rounds_photon14).
  - apply (all_nc rounds_photon14).
Qed.

(** ** Files 4 and 5 *)
Lemma rounds_dist4 : rounds mod_dist4 rep_dist4 inv_dist4 rn_dist4 pr_dist4 nc_dist4.
Proof.
  assert (Q := rounds_seq_any T1). assert (L := rounds_seq_any list_any).
  split; intros [|q|q|q r]; cbn [mod_dist4 rep_dist4 inv_dist4 rn_dist4 pr_dist4 nc_dist4]; intros; auto.
  - now apply (rs_rep L).
  - now apply (rs_rep Q).
  - destruct H. split; [now apply (rs_rep L)|now apply (rs_rep Q)].
  - now apply (rs_inv L).
  - now apply (rs_inv Q).
  - destruct H. destruct H0 as [[H2 H3] (ls & l & t & ts & E1 & E2 & E3)]. split; [split; [now apply (rs_inv L)|now apply (rs_inv Q)]|].
    exists (map renorm_list ls), (renorm_list l), (renorm_tab1 t), (map renorm_tab1 ts). cbn [rn_seq isrec].
    rewrite E1, E2, map_app. split; [reflexivity|]. split; [reflexivity|].
    destruct H as (_ & _ & F). destruct H1 as (_ & _ & G). rewrite E1 in F. rewrite E2 in G.
    apply Forall_app in F. destruct F as [_ F]. inversion F as [|? ? Ml _]; subst. inversion G as [|? ? Mt _]; subst.
    apply renorm_same; [apply Ml|apply Mt|exact E3].
  - now apply (rs_pr L).
  - now apply (rs_pr Q).
  - destruct H. f_equal; [now apply (rs_pr L)|now apply (rs_pr Q)].
  - apply (rs_nc L).
  - apply (rs_nc Q).
  - f_equal; [apply (rs_nc L)|apply (rs_nc Q)].
Qed.
Lemma rounds_dist5 : rounds mod_dist5 rep_dist5 inv_dist5 rn_dist5 pr_dist5 nc_dist5.
Proof.
  assert (Q := rounds_seq_any T1).
  split; intros []; cbn [mod_dist5 rep_dist5 inv_dist5 rn_dist5 pr_dist5 nc_dist5]; intros;
    repeat match goal with H : _ /\ _ |- _ => destruct H end;
    first [now apply (rs_rep Q) | now apply (rs_inv Q) | now apply (rs_pr Q) | apply (rs_nc Q)
          | split; first [now apply (rs_rep T1) | now apply (rs_inv T1)]
          | now apply (rs_rep T1) | now apply (rs_inv T1) | now apply (rs_pr T1) | apply (rs_nc T1)
          | f_equal; first [now apply (rs_pr T1) | apply (rs_nc T1)] ].
Qed.
Lemma LF5_rn d : LF5 (rn_dist5 d) = LF5 d. Proof. now destruct d. Qed.
Lemma rounds_p5 : rounds mod_p5 rep_p5 inv_p5 rn_p5 pr_p5 nc_p5.
Proof.
  split; intros [p q]; unfold mod_p5, rep_p5, inv_p5, rn_p5, pr_p5, nc_p5; cbn [p5_prob p5_dist]; intros.
  - destruct H. split; [now apply (rs_rep T1)|now apply (rs_rep rounds_dist5)].
  - destruct H. destruct H0 as (H0 & H2 & H3). split; [now apply (rs_inv T1)|]. rewrite LF5_rn. split; [exact H2|]. now apply (rs_inv rounds_dist5).
  - destruct H. f_equal; [now apply (rs_pr T1)|now apply (rs_pr rounds_dist5)].
  - f_equal; [apply (rs_nc T1)|apply (rs_nc rounds_dist5)].
Qed.

(** ** Files 6 and 26 *)
Lemma nth_rn l i : nth i (map renorm l) rzero = renorm (nth i l rzero).
Proof. rewrite <- renorm_rzero at 1. apply map_nth. Qed.
Lemma nth_ordinary l i : Forall ordinary l -> ordinary (nth i l rzero).
Proof.
  intros H. destruct (nth_in_or_default i l rzero) as [K|K]; [|rewrite K; exact ordinary_zero].
  rewrite Forall_forall in H. now apply H.
Qed.
Lemma base1_rn l : mod_list l -> inv_base1 l -> inv_base1 (renorm_list l).
Proof.
  intros (_ & _ & _ & _ & _ & _ & F) (H1 & H2 & H3). split; [revert H1; unfold drop_ok; counts|]. split; [|revert H3; unfold size1_ok; counts].
  intros i. specialize (H2 i). unfold renorm_list in *. cbn [lL1 lL2 lN2 lB] in *. rewrite len_map. intros K1 K2.
  unfold value. rewrite !nth_rn. apply renorm_le; try (now apply nth_ordinary). now apply H2.
Qed.
Lemma law1_rn t l : mod_list l -> inv_law1 t l -> inv_law1 (renorm_tab2 t) (renorm_list l).
Proof.
  intros M. unfold inv_law1. change (tL1 (renorm_tab2 t)) with (tL1 t).
  change (lL2 (renorm_list l)) with (lL2 l). assert (B := base1_rn l M).
  repeat (match goal with |- context [match ?z with _ => _ end] => is_var z; destruct z | |- context [match tL1 t with _ => _ end] => destruct (tL1 t) end; auto).
  all: intros [H1 H2]; auto.
Qed.
Lemma law2_rn l : mod_list l -> inv_law2 l -> inv_law2 (renorm_list l).
Proof. intros _. unfold inv_law2, values_are. counts. Qed.
Lemma law5_rn l : mod_list l -> inv_law5 l -> inv_law5 (renorm_list l).
Proof. intros _. unfold inv_law5, values_are. counts. Qed.
Lemma rounds_law6 : rounds mod_law6 rep_law6 inv_law6 rn_law6 pr_law6 nc_law6.
Proof.
  assert (Q := rounds_seq_any (rounds_seq_any T1)).
  assert (S1 := rounds_seqw inv_law1 law1_rn). assert (S2 := rounds_seqw (fun _ => inv_law2) (fun _ => law2_rn)).
  assert (S5 := rounds_seqw (fun _ => inv_law5) (fun _ => law5_rn)).
  split; intros []; cbn [mod_law6 rep_law6 inv_law6 rn_law6 pr_law6 nc_law6]; intros; auto;
    first [now apply (rs_rep Q) | now apply (rs_inv Q) | now apply (rs_pr Q) | apply (rs_nc Q)
          | now apply (rs_rep S1) | now apply (rs_inv S1) | now apply (rs_inv S2) | now apply (rs_inv S5)
          | now apply (rs_pr S1) | apply (rs_nc S1) | now apply rn_cont_rep | idtac].
  destruct H as (H1 & H2 & _). now apply rn_cont_pr.
Qed.
Section Product.
  Context {L : Type} {md rep inv : L -> Prop} {rn : L -> L} {pr : L -> Z -> Z -> Z -> text} {nc : L -> Z}.
  Hypothesis R : rounds md rep inv rn pr nc.
  Variable law : L -> Z.
  Hypothesis HL : forall d, law (rn d) = law d.
  Lemma rounds_product : rounds (mod_product md) (rep_product rep) (inv_product law inv) (rn_product rn) (pr_product pr) (nc_product nc).
  Proof.
    split; intros [m d]; unfold mod_product, rep_product, inv_product, rn_product, pr_product, nc_product; cbn [p_mult p_law]; intros.
    - destruct H. split; [now apply (rs_rep T1)|now apply (rs_rep R)].
    - destruct H. destruct H0 as (H0 & H2 & H3). split; [now apply (rs_inv T1)|]. rewrite HL. split; [exact H2|]. now apply (rs_inv R).
    - destruct H. f_equal; [now apply (rs_pr T1)|now apply (rs_pr R)].
    - f_equal; [apply (rs_nc T1)|apply (rs_nc R)].
  Qed.
End Product.
Lemma LAW6_rn d : LAW6 (rn_law6 d) = LAW6 d. Proof. now destruct d. Qed.
Lemma LAW26_rn d : LAW26 (rn_law26 d) = LAW26 d. Proof. now destruct d. Qed.
Lemma rounds_body6 : rounds mod_body6 rep_body6 inv_body6 rn_body6
  (fun b => pr_all (pr_product pr_law6) (products6 b)) (fun b => nc_all (nc_product nc_law6) (products6 b)).
Proof.
  assert (P := rounds_product rounds_law6 LAW6 LAW6_rn).
  split; intros [a b l]; unfold mod_body6, rep_body6, inv_body6, rn_body6; cbn [jp6 lct6 products6]; intros.
  - now apply (all_rep P).
  - rewrite len_map. destruct H0 as (H0 & H1 & H2 & H3). split; [exact H0|]. split; [exact H1|]. split; [now apply (all_inv P)|exact H3].
  - now apply (all_pr P).
  - apply (all_nc P).
Qed.
Lemma rounds_law26 : rounds mod_law26 rep_law26 inv_law26 rn_law26 pr_law26 nc_law26.
Proof.
  assert (S1 := rounds_seqw (fun _ => inv_base1) (fun _ => base1_rn)).
  assert (L : rounds mod_list endf_list (fun l => (as_int (lL1 l) 12 \/ as_int (lL1 l) 14) /\ values_are l twice) renorm_list pr_list nc_list).
  { apply rounds_list. intros l _. unfold values_are. counts. }
  assert (S2 := rounds_seq_any L).
  split; intros []; cbn [mod_law26 rep_law26 inv_law26 rn_law26 pr_law26 nc_law26]; intros;
    first [now apply (rs_rep S1) | now apply (rs_rep S2) | now apply (rs_rep T1) | now apply (rs_inv S2) | now apply (rs_inv T1)
          | now apply (rs_pr S1) | now apply (rs_pr S2) | now apply (rs_pr T1) | apply (rs_nc S1) | apply (rs_nc S2) | apply (rs_nc T1) | idtac].
  destruct H0 as [H1 H2]. split; [exact H1|]. now apply (rs_inv S1).
Qed.
Definition rounds_26 := rounds_many (rounds_product rounds_law26 LAW26 LAW26_rn).

(** ** File 7 *)
Lemma rounds_series : rounds mod_series rep_series inv_series rn_series pr_series nc_series.
Proof.
  split; intros [t l]; unfold mod_series, rep_series, inv_series, rn_series, pr_series, nc_series; cbn [se_first se_more]; intros.
  - destruct H. split; [now apply (rs_rep T1)|now apply (all_rep list_any)].
  - destruct H, H0. rewrite len_map. split; [now apply (rs_inv T1)|assumption].
  - destruct H. f_equal; [now apply (rs_pr T1)|now apply (all_pr list_any)].
  - f_equal; [apply (rs_nc T1)|apply (all_nc list_any)].
Qed.
Lemma coherent_rn x : mod_series x -> inv_coherent x -> inv_coherent (rn_series x).
Proof.
  intros M [H1 H2]. split; [now apply (rs_inv rounds_series)|]. unfold rn_series. cbn [se_first se_more].
  apply Forall_map. eapply Forall_impl; [|exact H2]. intros l. unfold renorm_tab1, renorm_list. cbn [tx lB]. now rewrite !len_map.
Qed.
Lemma rounds_function : rounds mod_series rep_series inv_function rn_series pr_series nc_series.
Proof.
  split; [apply (rs_rep rounds_series)| |apply (rs_pr rounds_series)|apply (rs_nc rounds_series)].
  intros x M [H1 H2]. split; [now apply (rs_inv rounds_series)|]. unfold rn_series. cbn [se_first se_more].
  destruct M as [Mt Ml]. apply Forall_map. rewrite Forall_forall in *. intros l Hl. specialize (Ml l Hl). specialize (H2 l Hl).
  apply renorm_same; [apply Ml|apply Mt|exact H2].
Qed.
Lemma rounds_elastic : rounds mod_elastic rep_elastic inv_elastic rn_elastic pr_elastic nc_elastic.
Proof.
  assert (Q := rounds_series).
  split; intros []; cbn [mod_elastic rep_elastic inv_elastic rn_elastic pr_elastic nc_elastic]; intros;
    repeat match goal with H : _ /\ _ |- _ => destruct H end;
    first [now apply (rs_rep Q) | now apply coherent_rn | now apply (rs_pr Q) | apply (rs_nc Q)
          | now apply (rs_rep T1) | now apply (rs_inv T1) | now apply (rs_pr T1) | apply (rs_nc T1)
          | split; first [now apply (rs_rep Q) | now apply coherent_rn | now apply (rs_rep T1) | now apply (rs_inv T1)]
          | f_equal; first [now apply (rs_pr Q) | apply (rs_nc Q) | now apply (rs_pr T1) | apply (rs_nc T1)] ].
Qed.
Lemma rounds_inelastic : rounds mod_inelastic rep_inelastic inv_inelastic rn_inelastic pr_inelastic nc_inelastic.
Proof.
  assert (Q := rounds_seq_any rounds_function).
  split; intros []; cbn [mod_inelastic rep_inelastic inv_inelastic rn_inelastic pr_inelastic nc_inelastic]; intros; auto;
    first [now apply (rs_rep Q) | now apply (rs_inv Q) | now apply (rs_pr Q) | apply (rs_nc Q)].
Qed.
Definition opt_is {A} (P : A -> Prop) (o : option A) : Prop := forall t, o = Some t -> P t.
Lemma rounds_opt {A} {md rep inv : A -> Prop} {rn pr nc} : rounds md rep inv rn pr nc ->
  rounds (opt_is md) (opt_is rep) (opt_is inv) (option_map rn) (pr_opt pr) (nc_opt nc).
Proof.
  intros R. split.
  - intros o H. exact (opt_rep R o H).
  - intros o H K. exact (opt_inv R o H K).
  - intros. now apply (opt_pr R).
  - apply (opt_nc R).
Qed.
Lemma rounds_thermal : rounds mod_thermal rep_thermal inv_thermal rn_thermal pr_thermal nc_thermal.
Proof.
  assert (O := rounds_opt T1). assert (W := rounds_inelastic).
  split; intros [a b c w p s]; unfold mod_thermal, rep_thermal, inv_thermal, rn_thermal, pr_thermal, nc_thermal;
    cbn [th_lat th_lasym th_constants th_law th_principal th_secondary]; intros.
  - destruct H as (H1 & H2 & H3 & H4). split; [now apply rn_list_rep|]. split; [now apply (rs_rep W)|]. split; [now apply (rs_rep T1)|].
    now apply (all_rep O).
  - destruct H as (M1 & M2 & M3 & M4). destruct H0 as (H1 & H2 & H3 & H4 & H5 & H6 & H7 & H8 & H9 & H10).
    assert (F : Forall ordinary (lB c)) by apply M1.
    split; [exact H1|]. split; [exact H2|]. split; [revert H3; unfold inv_constants; counts|].
    split; [|split; [now apply (rs_inv W)|]].
    { unfold renorm_list. cbn [lB]. rewrite nth_rn, renorm_zero_iff by (now apply nth_ordinary). rewrite H4. now destruct w. }
    split; [now apply (rs_inv T1)|]. split; [now apply (all_inv O)|]. split; [now rewrite len_map|]. split.
    { intros n. rewrite map_length, H9. unfold kinds, renorm_list. cbn [lB]. now rewrite map_length. }
    intros i o Ho. rewrite nth_error_map in Ho. destruct (nth_error s i) as [o'|] eqn:E; [|discriminate].
    cbn [option_map] in Ho. assert (o = option_map renorm_tab1 o') by congruence. subst o.
    specialize (H10 i o' E). unfold kind in *. unfold renorm_list. cbn [lB].
    rewrite nth_rn, renorm_zero_iff by (now apply nth_ordinary). rewrite <- H10. destruct o'; cbn; split; congruence.
  - destruct H as (H1 & H2 & H3 & H4). rewrite rn_list_pr by auto. rewrite (rs_pr W) by auto. rewrite (rs_pr T1) by auto. now rewrite (all_pr O).
  - now rewrite rn_list_nc, (rs_nc W), (rs_nc T1), (all_nc O).
Qed.
Ltac shape := apply rounds_list; intros ? _; counts.
Lemma rounds_7451 : rounds (Forall mod_list) (Forall endf_list) (some_of inv_element) (map renorm_list) (pr_all pr_list) (nc_all nc_list).
Proof. apply rounds_some. apply rounds_list. intros l _. unfold inv_element, values_are. counts. Qed.

(** ** File 8 *)
Lemma rounds_yields : rounds (Forall mod_list) (Forall endf_list) (many_of inv_yield) (map renorm_list) (pr_all pr_list) (nc_all nc_list).
Proof. apply rounds_many. apply rounds_list. intros l _. unfold inv_yield, values_are. counts. Qed.
Lemma rounds_discrete : rounds mod_list endf_list inv_discrete renorm_list pr_list nc_list.
Proof. apply rounds_list. intros l _. unfold inv_discrete. counts. Qed.
Lemma rounds_spectrum8 : rounds mod_spectrum8 rep_spectrum8 inv_spectrum8 rn_spectrum8 pr_spectrum8 nc_spectrum8.
Proof.
  assert (D := rounds_discrete).
  split; intros [a l o]; unfold mod_spectrum8, rep_spectrum8, inv_spectrum8, rn_spectrum8, pr_spectrum8, nc_spectrum8; cbn [sp_data sp_discrete sp_cont]; intros.
  - destruct H as (H1 & H2 & H3). split; [now apply rn_list_rep|]. split; [now apply (all_rep D)|]. now apply (opt_rep T1).
  - destruct H as (M1 & M2 & M3). destruct H0 as (H1 & H2 & H3 & H4 & H5 & H6). rewrite len_map. split; [exact H1|]. split; [now apply (all_inv D)|].
    split; [change (lL1 (renorm_list a)) with (lL1 a); rewrite H3; destruct o; cbn; split; congruence|].
    split; [now apply (opt_inv T1)|]. split; [|exact H6]. intros K E. apply (H5 K). now apply map_eq_nil in E.
  - destruct H as (H1 & H2 & H3). rewrite rn_list_pr by auto. rewrite (all_pr D) by auto. now rewrite (opt_pr T1).
  - now rewrite rn_list_nc, (all_nc D), (opt_nc T1).
Qed.
Lemma rounds_decay8 : rounds mod_decay8 rep_decay8 inv_decay8 rn_decay8 pr_decay8 nc_decay8.
Proof.
  assert (S8 := rounds_spectrum8).
  split; intros [a b e m l]; unfold mod_decay8, rep_decay8, inv_decay8, rn_decay8, pr_decay8, nc_decay8; cbn [d_lis d_liso d_energies d_modes d_spectra]; intros.
  - destruct H as (H1 & H2 & H3). split; [now apply rn_list_rep|]. split; [now apply rn_list_rep|]. now apply (all_rep S8).
  - destruct H as (M1 & M2 & M3). destruct H0 as (H1 & H2 & H3 & H4 & H5). split; [exact H1|]. split; [exact H2|].
    split; [revert H3; unfold inv_energies; counts|]. split; [revert H4; unfold inv_modes, values_are; counts|]. now apply (many_inv S8).
  - destruct H as (H1 & H2 & H3). rewrite !rn_list_pr by auto. now rewrite (all_pr S8).
  - now rewrite !rn_list_nc, (all_nc S8).
Qed.

(** ** File 28 and the covariances *)
Lemma rounds_28 : rounds (Forall mod_list) (Forall endf_list) (many_of inv_subshell) (map renorm_list) (pr_all pr_list) (nc_all nc_list).
Proof. apply rounds_many. apply rounds_list. intros l _. unfold inv_subshell, values_are. counts. Qed.
Lemma pairs_rn l : inv_pairs l -> inv_pairs (renorm_list l).
Proof. unfold inv_pairs, values_are. counts. Qed.
Lemma square_rn l : inv_square l -> inv_square (renorm_list l).
Proof. unfold inv_square. counts. Qed.
Lemma rect_rn l : inv_rect l -> inv_rect (renorm_list l).
Proof. unfold inv_rect. counts. Qed.
Lemma list_of_rn e : list_of (rn_explicit e) = renorm_list (list_of e). Proof. now destruct e. Qed.
Lemma rounds_explicit (inv : explicit -> Prop) : (forall e, inv e -> inv (rn_explicit e)) ->
  rounds mod_explicit rep_explicit inv rn_explicit pr_explicit nc_explicit.
Proof.
  intros HI. split; unfold mod_explicit, rep_explicit, pr_explicit, nc_explicit; intros.
  - rewrite list_of_rn. now apply rn_list_rep.
  - now apply HI.
  - rewrite list_of_rn. now apply rn_list_pr.
  - rewrite list_of_rn. apply rn_list_nc.
Qed.
Lemma explicit_rn e : inv_explicit e -> inv_explicit (rn_explicit e).
Proof. destruct e; cbn [inv_explicit rn_explicit]; intros [H1 H2]; split; auto using pairs_rn, square_rn, rect_rn. Qed.
Lemma long_rn e : inv_long e -> inv_long (rn_explicit e).
Proof. destruct e; cbn [inv_long rn_explicit]; [intros [H1 H2]; split; auto using pairs_rn|intros [H1 H2]; split; auto using square_rn|auto]. Qed.
Definition E1 := rounds_explicit inv_explicit explicit_rn.
Definition E2 := rounds_explicit inv_long long_rn.
Lemma list_ofd_rn e : list_ofd (rn_derived e) = renorm_list (list_ofd e). Proof. now destruct e. Qed.
Lemma LTY_rn e : LTY (rn_derived e) = LTY e. Proof. now destruct e. Qed.
Lemma rounds_derived : rounds mod_derived rep_derived inv_derived rn_derived pr_derived nc_derived.
Proof.
  split; unfold mod_derived, rep_derived, pr_derived, nc_derived; intros; rewrite ?list_ofd_rn, ?LTY_rn.
  - now apply rn_list_rep.
  - now destruct x.
  - f_equal. now apply rn_list_pr.
  - f_equal. apply rn_list_nc.
Qed.
Lemma rounds_block : rounds mod_block rep_block inv_block rn_block pr_block nc_block.
Proof.
  assert (D := rounds_derived). assert (E := E1).
  split; intros [a b c d nc ni]; unfold mod_block, rep_block, inv_block, rn_block, pr_block, nc_block, block_head;
    cbn [xmf1 xlfs1 mat1 mt1 b_nc b_ni]; intros; rewrite ?isize_map.
  - destruct H as (H1 & H2 & H3 & H4). split; [exact H1|]. split; [exact H2|]. split; [now apply (all_rep D)|now apply (all_rep E)].
  - destruct H as (M1 & M2 & M3 & M4). destruct H0 as (H1 & H2 & H3 & H4). split; [exact H1|]. split; [exact H2|].
    split; [now apply (many_inv D)|now apply (many_inv E)].
  - destruct H as (H1 & H2 & H3 & H4). now rewrite (all_pr D), (all_pr E) by auto.
  - now rewrite (all_nc D), (all_nc E).
Qed.
Lemma rounds_legblock : rounds mod_legblock rep_legblock inv_legblock rn_legblock pr_legblock nc_legblock.
Proof.
  assert (E := E1).
  split; intros [a b c l]; unfold mod_legblock, rep_legblock, inv_legblock, rn_legblock, pr_legblock, nc_legblock, leg_head;
    cbn [lg_l lg_l1 lg_lct lg_data]; intros; rewrite ?isize_map.
  - now apply (all_rep E).
  - destruct H0 as (H1 & H2 & H3 & H4). repeat (split; [assumption|]). now apply (many_inv E).
  - now rewrite (all_pr E) by auto.
  - now rewrite (all_nc E).
Qed.
Lemma rounds_block34 : rounds mod_block34 rep_block34 inv_block34 rn_block34 pr_block34 nc_block34.
Proof.
  assert (E := rounds_legblock).
  split; intros [a b c l]; unfold mod_block34, rep_block34, inv_block34, rn_block34, pr_block34, nc_block34, head34;
    cbn [b34_mt1 b34_nl b34_nl1 b34_blocks]; intros; rewrite ?isize_map.
  - now apply (all_rep E).
  - destruct H0 as (H1 & H2 & H3 & H4). repeat (split; [assumption|]). now apply (many_inv E).
  - now rewrite (all_pr E) by auto.
  - now rewrite (all_nc E).
Qed.
Lemma rounds_level : rounds mod_level rep_level inv_level rn_level pr_level nc_level.
Proof.
  assert (E := rounds_block).
  split; intros [a b c d l]; unfold mod_level, rep_level, inv_level, rn_level, pr_level, nc_level, level_head;
    cbn [lv_qm lv_qi lv_izap lv_lfs lv_reactions]; intros; rewrite ?isize_map.
  - destruct H as (H1 & H2 & H3). split; [now apply ordinary_endf|]. split; [now apply ordinary_endf|]. now apply (all_rep E).
  - destruct H as (M1 & M2 & M3). destruct H0 as (H1 & H2 & H3). repeat (split; [assumption|]). now apply (many_inv E).
  - destruct H as (H1 & H2 & H3). rewrite (all_pr E) by auto. f_equal. now apply (rn_cont_pr (mkcont a b c d 0 (isize l))).
  - now rewrite (all_nc E).
Qed.
Lemma rounds_35 : rounds (Forall mod_list) (Forall endf_list) (many_of inv_square35) (map renorm_list) (pr_all pr_list) (nc_all nc_list).
Proof. apply rounds_many. apply rounds_list. intros l _. unfold inv_square35. counts. Qed.
Lemma rounds_flagged {A} {md rep inv : A -> Prop} {rn pr nc} : rounds md rep inv rn pr nc ->
  rounds (mod_flagged md) (rep_flagged rep) (inv_flagged inv) (rn_flagged rn) (fun b => pr_all pr (snd b)) (fun b => nc_all nc (snd b)).
Proof.
  intros R. split; intros [n l]; unfold mod_flagged, rep_flagged, inv_flagged, rn_flagged; cbn [fst snd]; intros.
  - now apply (all_rep R).
  - destruct H0. split; [assumption|]. now apply (many_inv R).
  - now apply (all_pr R).
  - apply (all_nc R).
Qed.

(** ** File 2 *)
Lemma rounds_152 : rounds mod_152 rep_152 inv_152 rn_152 (fun x => pr_list (sh_data x)) (fun x => nc_list (sh_data x)).
Proof.
  split; intros [a b l]; unfold mod_152, rep_152, inv_152, rn_152; cbn [sh_lssf sh_interpolation sh_data]; intros.
  - now apply rn_list_rep.
  - destruct H0 as [H0 H1]. split; [exact H0|]. revert H1. unfold inv_152_list. counts.
  - now apply rn_list_pr.
  - apply rn_list_nc.
Qed.
Lemma rounds_lvalue : rounds mod_list endf_list inv_lvalue renorm_list pr_list nc_list.
Proof. apply rounds_list. intros l _. unfold inv_lvalue. counts. Qed.
Lemma rounds_resolved : rounds mod_resolved rep_resolved inv_resolved rn_resolved pr_resolved nc_resolved.
Proof.
  assert (E := rounds_lvalue).
  split; intros [a b c d l]; unfold mod_resolved, rep_resolved, inv_resolved, rn_resolved, pr_resolved, nc_resolved, resolved_head;
    cbn [rs_spi rs_ap rs_lad rs_nlsc rs_lvalues]; intros; rewrite ?isize_map.
  - destruct H as (H1 & H2 & H3). split; [now apply ordinary_endf|]. split; [now apply ordinary_endf|]. now apply (all_rep E).
  - destruct H as (M1 & M2 & M3). destruct H0 as (H1 & H2). split; [assumption|]. now apply (some_inv E).
  - destruct H as (H1 & H2 & H3). rewrite (all_pr E) by auto. f_equal. now apply (rn_cont_pr (mkcont a b (b2z c) 0 (isize l) d)).
  - now rewrite (all_nc E).
Qed.
Lemma reich_moore_rn x : mod_resolved x -> inv_reich_moore x -> inv_reich_moore (rn_resolved x).
Proof. intros M [H1 H2]. split; [now apply (rs_inv rounds_resolved)|]. unfold rn_resolved. cbn [rs_lvalues rs_nlsc]. now rewrite len_map. Qed.
Lemma rounds_unresolved {A} {md rep inv : A -> Prop} {rn pr nc} : rounds md rep inv rn pr nc ->
  rounds (mod_unresolved md) (rep_unresolved rep) (inv_unresolved inv) (rn_unresolved rn) (pr_unresolved pr) (nc_unresolved nc).
Proof.
  intros E.
  split; intros [a b c l]; unfold mod_unresolved, rep_unresolved, inv_unresolved, rn_unresolved, pr_unresolved, nc_unresolved, unresolved_head;
    cbn [un_spi un_ap un_lssf un_lvalues]; intros; rewrite ?isize_map.
  - destruct H as (H1 & H2 & H3). split; [now apply ordinary_endf|]. split; [now apply ordinary_endf|]. now apply (all_rep E).
  - destruct H as (M1 & M2 & M3). now apply (some_inv E).
  - destruct H as (H1 & H2 & H3). rewrite (all_pr E) by auto. f_equal. now apply (rn_cont_pr (mkcont a b (b2z c) 0 (isize l) 0)).
  - now rewrite (all_nc E).
Qed.
Lemma rounds_jgroup (inv : listr -> Prop) : (forall l, inv l -> inv (renorm_list l)) ->
  rounds mod_jgroup rep_jgroup (inv_jgroup inv) rn_jgroup pr_jgroup nc_jgroup.
Proof.
  intros HI. assert (E := rounds_list inv (fun l _ => HI l)).
  split; intros [a b l]; unfold mod_jgroup, rep_jgroup, inv_jgroup, rn_jgroup, pr_jgroup, nc_jgroup, jgroup_head;
    cbn [jg_awri jg_l jg_j]; intros; rewrite ?isize_map.
  - destruct H as (H1 & H2). split; [now apply ordinary_endf|]. now apply (all_rep E).
  - destruct H as (M1 & M2). destruct H0. split; [assumption|]. now apply (some_inv E).
  - destruct H as (H1 & H2). rewrite (all_pr E) by auto. f_equal. apply (rn_cont_pr (mkcont a rzero b 0 (isize l) 0)); [exact H1|exact ordinary_zero].
  - now rewrite (all_nc E).
Qed.
Lemma rounds_widths : rounds mod_widths rep_widths inv_widths rn_widths pr_widths nc_widths.
Proof.
  assert (G : forall ne, rounds mod_jgroup rep_jgroup (inv_width_group ne) rn_jgroup pr_jgroup nc_jgroup).
  { intros ne. apply rounds_jgroup. intros l. unfold widths_for. counts. }
  assert (E := G 0).
  split; intros [e l]; unfold mod_widths, rep_widths, inv_widths, rn_widths, pr_widths, nc_widths; cbn [wd_energies wd_lvalues]; intros.
  - destruct H as (H1 & H2). split; [now apply rn_list_rep|]. now apply (all_rep E).
  - destruct H as (M1 & M2). destruct H0 as (H0 & H1 & H2). unfold renorm_list. cbn [lB lN2]. rewrite !len_map. split; [exact H0|].
    split; [exact H1|]. now apply (some_inv (G _)).
  - destruct H as (H1 & H2). now rewrite (all_pr E), rn_list_pr by auto.
  - now rewrite (all_nc E), rn_list_nc.
Qed.
Lemma rounds_background : rounds mod_background rep_background inv_background rn_background pr_background nc_background.
Proof.
  split; intros []; cbn [mod_background rep_background inv_background rn_background]; intros; auto.
  - destruct H. split; now apply (rs_rep T1).
  - exact (Forall_ordinary _ H).
  - exact (Forall_ordinary _ H).
  - destruct H. destruct H0 as (H2 & H3 & H4 & H5). split; [now apply rn_tab1_inv|]. split; [now apply rn_tab1_inv|].
    split; [|exact H5]. unfold renorm_tab1. cbn [tx]. now rewrite !map_length.
  - destruct H. cbn [pr_background]. now rewrite !rn_tab1_pr.
  - inversion H; subst. inversion H3; subst. cbn [pr_background].
    change (pr_list (renorm_list (mklist ed eu 0 0 0 [r0; r1; r2; s0; s1])) mat mf mt = pr_list (mklist ed eu 0 0 0 [r0; r1; r2; s0; s1]) mat mf mt).
    apply rn_list_pr. unfold mod_list. cbn [lC1 lC2 lL1 lL2 lN2 lB]. split; [assumption|]. split; [assumption|].
    repeat (split; [unfold in_cols; cbn; lia|]). assumption.
  - inversion H; subst. inversion H3; subst. cbn [pr_background].
    change (pr_list (renorm_list (mklist ed eu 0 0 0 [r0; s0; ga])) mat mf mt = pr_list (mklist ed eu 0 0 0 [r0; s0; ga]) mat mf mt).
    apply rn_list_pr. unfold mod_list. cbn [lC1 lC2 lL1 lL2 lN2 lB]. split; [assumption|]. split; [assumption|].
    repeat (split; [unfold in_cols; cbn; lia|]). assumption.
  - cbn [nc_background]. now rewrite !(rs_nc T1).
Qed.
Lemma LBK_rn b : LBK (rn_background b) = LBK b. Proof. now destruct b. Qed.
Lemma there_rn bg : there (map (option_map rn_entry) bg) = map rn_entry (there bg).
Proof. unfold there. induction bg as [|[x|] bg IH]; cbn; congruence. Qed.
Lemma there_in bg e : In e (there bg) <-> In (Some e) bg.
Proof.
  unfold there. rewrite in_flat_map. split.
  - intros ([x|] & H1 & H2); [|destruct H2]. destruct H2 as [<-|[]]. exact H1.
  - intros H. exists (Some e). split; [exact H|now left].
Qed.
Definition mod_entry (e : entry) : Prop := mod_background (en_kind e).
Lemma rounds_entry : rounds mod_entry (fun e => rep_background (en_kind e)) (fun e => inv_background (en_kind e)) rn_entry pr_entry nc_entry.
Proof.
  assert (B := rounds_background).
  split; intros [n b]; unfold mod_entry, rn_entry, pr_entry, nc_entry, entry_head; cbn [en_lch en_kind]; intros; rewrite ?LBK_rn.
  - now apply (rs_rep B).
  - now apply (rs_inv B).
  - f_equal. now apply (rs_pr B).
  - f_equal. apply (rs_nc B).
Qed.
Lemma rounds_group : rounds mod_group rep_group inv_group rn_group pr_group nc_group.
Proof.
  assert (E := rounds_entry).
  split; intros [c p bg]; unfold mod_group, rep_group, inv_group, rn_group, pr_group, nc_group; cbn [gp_channels gp_parameters gp_background]; intros.
  - destruct H as (H1 & H2 & H3). split; [now apply rn_list_rep|]. split; [now apply rn_list_rep|].
    intros e He. apply there_in in He. rewrite there_rn in He. apply in_map_iff in He. destruct He as (e' & <- & He'). apply there_in in He'.
    apply (rs_rep E). now apply H3.
  - destruct H as (M1 & M2 & M3). destruct H0 as (H1 & H2 & H3 & H4 & H5).
    split; [revert H1; unfold inv_channels; counts|]. split; [revert H2; unfold inv_parameters; counts|]. split; [|rewrite there_rn, !len_map; counts].
    intros i e He. rewrite nth_error_map in He. destruct (nth_error bg i) as [[e'|]|] eqn:Ee; try discriminate. cbn [option_map] in He.
    assert (e = rn_entry e') by congruence. subst e. destruct (H3 i e' Ee) as [K1 K2]. split; [exact K1|].
    apply (rs_inv E); [|exact K2]. apply M3. eapply nth_error_In; eauto.
  - destruct H as (H1 & H2 & H3). rewrite !rn_list_pr by auto. f_equal. f_equal. rewrite there_rn. apply (all_pr E).
    apply Forall_forall. intros e He. apply H3. now apply there_in.
  - now rewrite !rn_list_nc, there_rn, (all_nc E).
Qed.
Lemma rounds_rml : rounds mod_rml rep_rml inv_rml rn_rml pr_rml nc_rml.
Proof.
  assert (E := rounds_group).
  split; intros [a b c p l]; unfold mod_rml, rep_rml, inv_rml, rn_rml, pr_rml, nc_rml, rml_head; cbn [rm_ifg rm_krl rm_krm rm_pairs rm_groups]; intros; rewrite ?isize_map.
  - destruct H. split; [now apply rn_list_rep|now apply (all_rep E)].
  - destruct H. destruct H0 as (H2 & H3 & H4). split; [exact H2|]. split; [revert H3; unfold inv_pairs_rml; counts|now apply (some_inv E)].
  - destruct H. now rewrite (all_pr E), rn_list_pr.
  - now rewrite rn_list_nc, (all_nc E).
Qed.
Lemma rounds_params : rounds mod_params rep_params inv_params rn_params pr_params nc_params.
Proof.
  assert (R := rounds_resolved). assert (M := rounds_rml). assert (B := rounds_widths).
  assert (A : rounds mod_list endf_list inv_independent renorm_list pr_list nc_list).
  { apply rounds_list. intros l _. unfold inv_independent, values_are. counts. }
  assert (UA := rounds_unresolved A).
  assert (C : rounds mod_jgroup rep_jgroup (inv_jgroup inv_dependent) rn_jgroup pr_jgroup nc_jgroup).
  { apply rounds_jgroup. intros l. unfold inv_dependent. counts. }
  assert (UC := rounds_unresolved C).
  split; intros []; cbn [mod_params rep_params inv_params rn_params pr_params nc_params]; intros; auto;
    first [now apply (rs_rep R) | now apply (rs_inv R) | now apply reich_moore_rn | now apply (rs_pr R) | apply (rs_nc R)
          |now apply (rs_rep M) | now apply (rs_inv M) | now apply (rs_pr M) | apply (rs_nc M)
          |now apply (rs_rep B) | now apply (rs_inv B) | now apply (rs_pr B) | apply (rs_nc B)
          |now apply (rs_rep UA) | now apply (rs_inv UA) | now apply (rs_pr UA) | apply (rs_nc UA)
          |now apply (rs_rep UC) | now apply (rs_inv UC) | now apply (rs_pr UC) | apply (rs_nc UC) | idtac].
  - destruct H. split; now apply ordinary_endf.
  - destruct H. now apply (rn_cont_pr (mkcont spi ap 0 0 0 0)).
Qed.
Lemma LRU_rn p : LRU (rn_params p) = LRU p. Proof. now destruct p. Qed.
Lemma LRF_rn p : LRF (rn_params p) = LRF p. Proof. now destruct p. Qed.
Lemma NRO_rn o : NRO (option_map renorm_tab1 o) = NRO o. Proof. now destruct o. Qed.
Lemma rounds_range : rounds mod_range rep_range inv_range rn_range pr_range nc_range.
Proof.
  assert (P := rounds_params).
  split; intros [a b n p o]; unfold mod_range, rep_range, inv_range, rn_range, pr_range, nc_range, range_head;
    cbn [rg_el rg_eh rg_naps rg_params rg_radius]; intros; rewrite ?LRU_rn, ?LRF_rn, ?NRO_rn.
  - destruct H as (H1 & H2 & H3 & H4). split; [now apply ordinary_endf|]. split; [now apply ordinary_endf|]. split; [now apply (rs_rep P)|now apply (opt_rep T1)].
  - destruct H as (M1 & M2 & M3 & M4). destruct H0 as (H1 & H2). split; [now apply (rs_inv P)|].
    destruct o as [t|]; cbn [option_map]; [|exact H2]. destruct H2 as (K1 & K2 & K3). split; [apply rn_tab1_inv; auto|]. split; [exact K2|]. now destruct p.
  - destruct H as (H1 & H2 & H3 & H4). rewrite (opt_pr T1), (rs_pr P) by auto. f_equal.
    now apply (rn_cont_pr (mkcont a b (LRU p) (LRF p) (NRO o) n)).
  - now rewrite (opt_nc T1), (rs_nc P).
Qed.
Lemma is_A_rn r : is_A (rn_range r) <-> is_A r.
Proof.
  destruct r as [a b n p o]. unfold is_A, rn_range. cbn [rg_params]. split; intros [x Hx]; destruct p; cbn in *; try discriminate; eauto.
Qed.
Lemma is_B_rn r : is_B (rn_range r) <-> is_B r.
Proof.
  destruct r as [a b n p o]. unfold is_B, rn_range. cbn [rg_params]. split; intros [x Hx]; destruct p; cbn in *; try discriminate; eauto.
Qed.
Lemma no_A_rn l : Forall (fun r => ~ is_A r) l -> Forall (fun r => ~ is_A r) (map rn_range l).
Proof. intros H. apply Forall_map. eapply Forall_impl; [|exact H]. intros r K. now rewrite is_A_rn. Qed.
Lemma no_B_rn l : Forall (fun r => ~ is_B r) l -> Forall (fun r => ~ is_B r) (map rn_range l).
Proof. intros H. apply Forall_map. eapply Forall_impl; [|exact H]. intros r K. now rewrite is_B_rn. Qed.
Lemma rounds_resisotope : rounds mod_resisotope rep_resisotope inv_resisotope rn_resisotope pr_resisotope nc_resisotope.
Proof.
  assert (E := rounds_range).
  split; intros [a b c l]; unfold mod_resisotope, rep_resisotope, inv_resisotope, rn_resisotope, pr_resisotope, nc_resisotope, resisotope_head;
    cbn [ri_zai ri_abn ri_lfw ri_ranges]; intros; rewrite ?isize_map.
  - destruct H as (H1 & H2 & H3 & H4). split; [exact H1|]. split; [now apply ordinary_endf|]. split; [now apply (all_rep E)|]. intros K. now apply no_A_rn, H4.
  - destruct H as (M1 & M2 & M3 & M4). destruct H0 as (H1 & H2 & H3). split; [now apply (many_inv E)|]. split; [intros K; now apply no_B_rn, H2|].
    destruct H3; [left; now apply no_A_rn|right; now apply no_B_rn].
  - destruct H as (H1 & H2 & H3 & H4). rewrite (all_pr E) by auto. f_equal. unfold pr_cont, pr_base. cbn [c1 c2 l1 l2 n1 n2]. now rewrite write_rn.
  - now rewrite (all_nc E).
Qed.

(** ** File 32 *)
Lemma rounds_dap : rounds ordinary endf_real any renorm pr_dap nc_dap.
Proof.
  split; intros x; unfold pr_dap; intros; auto.
  - now apply ordinary_endf.
  - unfold pr_cont, pr_base. cbn [c1 c2 l1 l2 n1 n2]. now rewrite write_rn.
Qed.
Lemma isr_rn {A} (f : A -> A) o : isr (option_map f o) = isr o. Proof. now destruct o. Qed.
Lemma rounds_rows m : rounds mod_list endf_list (inv_rows m) renorm_list pr_list nc_list.
Proof. apply rounds_list. intros l _. unfold inv_rows. counts. Qed.
Lemma rounds_limited : rounds mod_limited rep_limited inv_limited rn_limited pr_limited nc_limited.
Proof.
  assert (E := rounds_rows 18). assert (D := rounds_dap).
  split; intros [a b o l]; unfold mod_limited, rep_limited, inv_limited, rn_limited, pr_limited, nc_limited, limited_head;
    cbn [lm_spi lm_ap lm_dap lm_lvalues]; intros; rewrite ?isize_map, ?isr_rn.
  - destruct H as (H1 & H2 & H3 & H4). split; [now apply ordinary_endf|]. split; [now apply ordinary_endf|]. split; [now apply (opt_rep D)|now apply (all_rep E)].
  - destruct H as (M1 & M2 & M3 & M4). now apply (some_inv E).
  - destruct H as (H1 & H2 & H3 & H4). rewrite (opt_pr D), (all_pr E) by auto. f_equal. now apply (rn_cont_pr (mkcont a b 0 0 (isize l) (isr o))).
  - now rewrite (opt_nc D), (all_nc E).
Qed.
Lemma triangle_rn l : inv_triangle l -> inv_triangle (renorm_list l).
Proof. unfold inv_triangle. counts. Qed.
Lemma rounds_short_rml : rounds mod_short_rml rep_short_rml inv_short_rml rn_short_rml pr_short_rml nc_short_rml.
Proof.
  assert (E : rounds mod_list endf_list inv_parameters renorm_list pr_list nc_list).
  { apply rounds_list. intros l _. unfold inv_parameters. counts. }
  split; intros [l m]; unfold mod_short_rml, rep_short_rml, inv_short_rml, rn_short_rml, pr_short_rml, nc_short_rml, short_rml_head;
    cbn [sr_groups sr_matrix]; intros; rewrite ?isize_map.
  - destruct H. split; [now apply (all_rep E)|now apply rn_list_rep].
  - destruct H, H0. split; [now apply (many_inv E)|now apply triangle_rn].
  - destruct H. now rewrite (all_pr E), rn_list_pr.
  - now rewrite (all_nc E), rn_list_nc.
Qed.
Section General.
  Context {D S : Type} {mdD repD : D -> Prop} {rnD : D -> D} {prD : D -> Z -> Z -> Z -> text} {ncD : D -> Z}.
  Context {md rep inv : S -> Prop} {rn : S -> S} {pr : S -> Z -> Z -> Z -> text} {nc : S -> Z}.
  Hypothesis RD : rounds mdD repD any rnD prD ncD.
  Hypothesis R : rounds md rep inv rn pr nc.
  Lemma rounds_general : rounds (mod_general mdD md) (rep_general repD rep) (inv_general inv) (rn_general rnD rn) (pr_general prD pr) (nc_general ncD nc).
  Proof.
    assert (E := E2).
    split; intros [a b c o n s l]; unfold mod_general, rep_general, inv_general, rn_general, pr_general, nc_general, general_head, general_counts;
      cbn [ge_awri ge_spi ge_ap ge_dap ge_nls ge_short ge_long]; intros; rewrite ?isize_map, ?isr_rn.
    - destruct H as (H1 & H2 & H3 & H4 & H5 & H6). split; [now apply ordinary_endf|]. split; [now apply ordinary_endf|]. split; [now apply ordinary_endf|].
      split; [now apply (opt_rep RD)|]. split; [now apply (all_rep R)|now apply (all_rep E)].
    - destruct H as (M1 & M2 & M3 & M4 & M5 & M6). destruct H0 as (H1 & H2 & H3). split; [exact H1|]. split; [now apply (many_inv R)|now apply (many_inv E)].
    - destruct H as (H1 & H2 & H3 & H4 & H5 & H6). rewrite (opt_pr RD), (all_pr R), (all_pr E) by auto.
      unfold pr_cont, pr_base. cbn [c1 c2 l1 l2 n1 n2]. now rewrite !write_rn.
    - now rewrite (opt_nc RD), (all_nc R), (all_nc E).
  Qed.
  Lemma rounds_compact : rounds (mod_compact mdD md) (rep_compact repD rep) (inv_compact inv) (rn_compact rnD rn) (pr_compact prD pr) (nc_compact ncD nc).
  Proof.
    split; intros [a b c d o u k]; unfold mod_compact, rep_compact, inv_compact, rn_compact, pr_compact, nc_compact, compact_head;
      cbn [co_spi co_ap co_l1 co_n1 co_dap co_unc co_corr]; intros; rewrite ?isr_rn.
    - destruct H as (H1 & H2 & H3 & H4 & H5 & H6 & H7). split; [now apply ordinary_endf|]. split; [now apply ordinary_endf|].
      split; [exact H3|]. split; [exact H4|]. split; [now apply (opt_rep RD)|]. split; [now apply (rs_rep R)|exact H7].
    - destruct H as (M1 & M2 & M3 & M4 & M5 & M6 & M7). destruct H0 as (H1 & H2). split; [now apply (rs_inv R)|exact H2].
    - destruct H as (H1 & H2 & H3 & H4 & H5 & H6 & H7). rewrite (opt_pr RD), (rs_pr R) by auto.
      unfold pr_cont, pr_base. cbn [c1 c2 l1 l2 n1 n2]. now rewrite !write_rn.
    - now rewrite (opt_nc RD), (rs_nc R).
  Qed.
End General.
Lemma rounds_spin32 : rounds mod_spin32 rep_spin32 inv_spin32 rn_spin32 pr_spin32 nc_spin32.
Proof.
  split; intros [c p]; unfold mod_spin32, rep_spin32, inv_spin32, rn_spin32, pr_spin32, nc_spin32; cbn [sg_channels sg_parameters]; intros.
  - destruct H. split; now apply rn_list_rep.
  - destruct H0 as [H0 H1]. split; [revert H0; unfold inv_channels; counts|revert H1; unfold inv_parameters12; counts].
  - destruct H. now rewrite !rn_list_pr.
  - now rewrite !rn_list_nc.
Qed.
Lemma rounds_rml32 : rounds mod_rml32 rep_rml32 inv_rml32 rn_rml32 pr_rml32 nc_rml32.
Proof.
  assert (E := rounds_spin32).
  split; intros [p l]; unfold mod_rml32, rep_rml32, inv_rml32, rn_rml32, pr_rml32, nc_rml32; cbn [r32_pairs r32_groups]; intros.
  - destruct H. split; [now apply rn_list_rep|now apply (all_rep E)].
  - destruct H. destruct H0 as (H2 & H3 & H4). rewrite len_map. split; [revert H2; unfold inv_pairs_rml; counts|]. split; [exact H3|now apply (some_inv E)].
  - destruct H. now rewrite (all_pr E), rn_list_pr.
  - now rewrite (all_nc E), rn_list_nc.
Qed.
Lemma rounds_unres32 : rounds mod_unres32 rep_unres32 inv_unres32 rn_unres32 pr_unres32 nc_unres32.
Proof.
  assert (E : rounds mod_list endf_list inv_independent renorm_list pr_list nc_list).
  { apply rounds_list. intros l _. unfold inv_independent, values_are. counts. }
  split; intros [a b l m]; unfold mod_unres32, rep_unres32, inv_unres32, rn_unres32, pr_unres32, nc_unres32, unres32_head;
    cbn [u32_spi u32_ap u32_lvalues u32_matrix]; intros; rewrite ?isize_map.
  - destruct H as (H1 & H2 & H3 & H4). split; [now apply ordinary_endf|]. split; [now apply ordinary_endf|]. split; [now apply (all_rep E)|now apply rn_list_rep].
  - destruct H as (M1 & M2 & M3 & M4). destruct H0. split; [now apply (many_inv E)|now apply triangle_rn].
  - destruct H as (H1 & H2 & H3 & H4). rewrite (all_pr E), rn_list_pr by auto. f_equal. now apply (rn_cont_pr (mkcont a b 0 0 (isize l) 0)).
  - now rewrite (all_nc E), rn_list_nc.
Qed.
Lemma rounds_none : rounds (none (A := listr)) none any renorm_list pr_list nc_list.
Proof. split; [intros x []|intros x []|intros x mat mf mt []|exact rn_list_nc]. Qed.
Lemma rounds_cparams : rounds mod_cparams rep_cparams inv_cparams rn_cparams pr_cparams nc_cparams.
Proof.
  assert (L := rounds_limited). assert (R12 := rounds_rows 12).
  assert (Sh : rounds mod_list endf_list inv_short renorm_list pr_list nc_list).
  { apply rounds_list. intros l _. unfold inv_short. counts. }
  assert (GB := rounds_general rounds_dap Sh). assert (GR := rounds_general list_any Sh). assert (GL := rounds_general rounds_none rounds_short_rml).
  assert (CB := rounds_compact rounds_dap R12). assert (CR := rounds_compact list_any R12). assert (CL := rounds_compact rounds_none rounds_rml32).
  assert (U := rounds_unres32).
  split; intros []; cbn [mod_cparams rep_cparams inv_cparams rn_cparams pr_cparams nc_cparams]; intros;
    first [now apply (rs_rep L) | now apply (rs_inv L) | now apply (rs_pr L) | apply (rs_nc L)
          |now apply (rs_rep GB) | now apply (rs_inv GB) | now apply (rs_pr GB) | apply (rs_nc GB)
          |now apply (rs_rep GR) | now apply (rs_inv GR) | now apply (rs_pr GR) | apply (rs_nc GR)
          |now apply (rs_rep GL) | now apply (rs_inv GL) | now apply (rs_pr GL) | apply (rs_nc GL)
          |now apply (rs_rep CB) | now apply (rs_inv CB) | now apply (rs_pr CB) | apply (rs_nc CB)
          |now apply (rs_rep CR) | now apply (rs_inv CR) | now apply (rs_pr CR) | apply (rs_nc CR)
          |now apply (rs_rep CL) | now apply (rs_inv CL) | now apply (rs_pr CL) | apply (rs_nc CL)
          |now apply (rs_rep U) | now apply (rs_inv U) | now apply (rs_pr U) | apply (rs_nc U) ].
Qed.
Lemma cLRU_rn p : c_LRU (rn_cparams p) = c_LRU p. Proof. now destruct p. Qed.
Lemma cLRF_rn p : c_LRF (rn_cparams p) = c_LRF p. Proof. now destruct p. Qed.
Lemma rounds_radcov : rounds (Forall mod_explicit) (Forall rep_explicit) (many_of inv_explicit) (map rn_explicit) pr_radcov nc_radcov.
Proof.
  assert (E := E1). split; unfold pr_radcov, nc_radcov, radcov_head; intros; rewrite ?isize_map.
  - now apply (all_rep E).
  - now apply (many_inv E).
  - f_equal. now apply (all_pr E).
  - f_equal. apply (all_nc E).
Qed.
Lemma rounds_crange : rounds mod_crange rep_crange inv_crange rn_crange pr_crange nc_crange.
Proof.
  assert (P := rounds_cparams). assert (O := rounds_radcov).
  split; intros [a b n p o]; unfold mod_crange, rep_crange, inv_crange, rn_crange, pr_crange, nc_crange, crange_head;
    cbn [cr_el cr_eh cr_naps cr_params cr_radius]; intros; rewrite ?cLRU_rn, ?cLRF_rn, ?isr_rn.
  - destruct H as (H1 & H2 & H3 & H4). split; [now apply ordinary_endf|]. split; [now apply ordinary_endf|]. split; [now apply (rs_rep P)|now apply (opt_rep O)].
  - destruct H as (M1 & M2 & M3 & M4). destruct H0 as (H1 & H2). split; [now apply (rs_inv P)|].
    destruct o as [t|]; cbn [option_map]; [|exact H2]. destruct H2 as (K1 & K2 & K3). split; [apply (rs_inv O); auto|]. split; [exact K2|]. now destruct p.
  - destruct H as (H1 & H2 & H3 & H4). rewrite (opt_pr O), (rs_pr P) by auto. f_equal.
    now apply (rn_cont_pr (mkcont a b (c_LRU p) (c_LRF p) (isr o) n)).
  - now rewrite (opt_nc O), (rs_nc P).
Qed.
Lemma rounds_cisotope : rounds mod_cisotope rep_cisotope inv_cisotope rn_cisotope pr_cisotope nc_cisotope.
Proof.
  assert (E := rounds_crange).
  split; intros [a b c l]; unfold mod_cisotope, rep_cisotope, inv_cisotope, rn_cisotope, pr_cisotope, nc_cisotope, cisotope_head;
    cbn [ci_zai ci_abn ci_lfw ci_ranges]; intros; rewrite ?isize_map.
  - destruct H as (H1 & H2 & H3). split; [now apply ordinary_endf|]. split; [now apply ordinary_endf|]. now apply (all_rep E).
  - destruct H as (M1 & M2 & M3). now apply (many_inv E).
  - destruct H as (H1 & H2 & H3). rewrite (all_pr E) by auto. f_equal. now apply (rn_cont_pr (mkcont a b 0 (b2z c) (isize l) 0)).
  - now rewrite (all_nc E).
Qed.
