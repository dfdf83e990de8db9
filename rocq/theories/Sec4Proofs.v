(** Sec4Proofs.v -- Files 4 and 5 satisfy [section_codec]. *)
From Coq Require Import ZifyBool ZifyNat.
From Verif Require Import Base Disco DiscoProofs Records RecordProofs RecordRT RecordSound Layout
  RealRound RealProofs Spec Normal LineFacts Sections SecSpec Codec SectionProofs SecKit CodecKit
  Sec9 Sec9Spec Sec9Proofs Sec4 Sec4Spec.
Open Scope Z_scope.

Lemma req_spec a b : req a b = true <-> same_real a b.
Proof. unfold req, same_real, real_le. rewrite <- !rle_spec. destruct (rle a b), (rle b a); cbn; intuition congruence. Qed.
Lemma mixed_ok_spec q r : mixed_ok q r = true <-> joined q r.
Proof.
  unfold mixed_ok, joined. split.
  - destruct (rev (isrec q)) as [|l ls] eqn:E; [discriminate|]. destruct (isrec r) as [|t ts] eqn:E'; [discriminate|]. intros K.
    exists (rev ls), l, t, ts. split; [|split; [reflexivity|now apply req_spec]].
    rewrite <- (rev_involutive (isrec q)), E. reflexivity.
  - intros (ls & l & t & ts & -> & -> & K). rewrite rev_app_distr. cbn [rev app]. now apply req_spec.
Qed.
(** a pair of parts *)
Lemma cod_pair {A B} RA IA (rdA : Z -> Z -> Z -> M A) prA ncA RB IB (rdB : Z -> Z -> Z -> M B) prB ncB :
  cod RA IA rdA prA ncA -> cod RB IB rdB prB ncB ->
  cod (fun c => RA (fst c) /\ RB (snd c)) (fun c => IA (fst c) /\ IB (snd c))
    (fun mat mf mt => a <- rdA mat mf mt ;; b <- rdB mat mf mt ;; ret (a, b))
    (fun c mat mf mt => prA (fst c) mat mf mt ++ prB (snd c) mat mf mt) (fun c => ncA (fst c) + ncB (snd c)).
Proof.
  intros HA HB. apply (cod_dep (@pair A B) fst snd RA IA rdA prA ncA (fun _ => RB) (fun _ => IB) (fun _ => rdB) (fun _ => prB) (fun _ => ncB)); auto.
  now intros [].
Qed.
Lemma std_pair {A B} (rdA : Z -> Z -> Z -> M A) (rdB : Z -> Z -> Z -> M B) : std3 rdA -> std3 rdB ->
  std3 (fun mat mf mt => a <- rdA mat mf mt ;; b <- rdB mat mf mt ;; ret (a, b)).
Proof. intros HA HB. apply (std_dep (@pair A B) rdA (fun _ => rdB)); auto. Qed.
(** a branch of a sum: the value has the constructor of the branch *)
Ltac branch := 
  match goal with
  | |- forall _ _ _ _, _ => intros; reflexivity
  | |- forall c, _ -> _ -> exists _, _ => let c := fresh "c" in intros c ? ?; conj; destruct c; try (exfalso; cbn in *; lia); eexists; split; [reflexivity|split; assumption]
  | |- forall a, _ -> _ => solve [intros; conj; cbn; auto]
  | |- forall _, _ => intros; reflexivity
  end.

Lemma cod_mixed4 : cod (fun p => rep_seq endf_list (fst p) /\ rep_seq rep_tab1 (snd p))
  (fun p => (inv_seq any any (fst p) /\ inv_seq inv_tab1 any (snd p)) /\ joined (fst p) (snd p)) rd_mixed4
  (fun p mat mf mt => pr_iseq pr_list (fst p) mat mf mt ++ pr_iseq pr_tab1 (snd p) mat mf mt)
  (fun p => nc_iseq nc_list (fst p) + nc_iseq nc_tab1 (snd p)).
Proof.
  apply (cod_require _ _ _ _ _ (fun p => mixed_ok (fst p) (snd p)) _ (cod_pair _ _ _ _ _ _ _ _ _ _ (cod_iseq0 _ _ _ _ _ cod_list) (cod_iseq0 _ _ _ _ _ cod_tab1))).
  intros p. apply mixed_ok_spec.
Qed.
Lemma std_mixed4 : std3 rd_mixed4.
Proof. apply (std_check _ (fun p => mixed_ok (fst p) (snd p))), std_pair; eauto with cod. Qed.
Lemma cod_dist4 ltt : cod (fun d => rep_dist4 d /\ ltt = LTT4 d) inv_dist4 (rd_dist4 ltt) pr_dist4 nc_dist4.
Proof.
  unfold rd_dist4. apply cod_if; [|apply cod_if; [|apply cod_if; [|apply cod_if]]].
  - apply cod_ret; [|exact I|reflexivity|reflexivity]. intros x ? ?; conj; destruct x; cbn in *; try lia. reflexivity.
  - eapply (cod_inj Legendre4); [apply (cod_iseq0 _ _ _ _ _ cod_list)|branch..].
  - eapply (cod_inj Tabulated4); [apply (cod_iseq0 _ _ _ _ _ cod_tab1)|branch..].
  - eapply (cod_inj (fun p => Mixed4 (fst p) (snd p))); [apply cod_mixed4|try branch..].
    intros c ? ?; conj; destruct c; cbn in *; try lia. exists (q, r). cbn. tauto.
  - apply cod_throw. intros x ? ?; conj; destruct x; cbn in *; lia.
Qed.
Lemma std_dist4 ltt : std3 (rd_dist4 ltt).
Proof. unfold rd_dist4. repeat apply std_if; try apply std_ret; try apply std_throw; apply std_inj; eauto using std_mixed4 with cod. Qed.
Lemma codec_4 : section_codec sec_4 rep_body4 inv_body4.
Proof.
  apply body_codec.
  - split; [cbn; lia|exact I| |].
    + intros m R I. cbn. ints4. destruct (dist_of4 m); cbn; cols.
    + intros h awr Ha.
      assert (Hc : forall lct d, int32 lct -> endf_cont (mkcont (of_int 0) awr (LI4 d) lct 0 0)).
      { intros lct d Hl. unfold endf_cont, ints_fit; cbn [c1 c2 l1 l2 n1 n2].
        split; [left; split; reflexivity|]. split; [exact Ha|]. split; [unfold LI4; destruct (LTT4 d =? 0); cols|]. split; [now apply cols32|]. split; cols. }
      split; intros mat mf mt.
      * intros [lct d] G [R E] [I1 I2]. heads E. cbn [lct4 dist_of4 rep_body4] in *. cbn [sec_4 k_read k_print k_nc]. unfold rd_body4, pr_body4. cbn [lct4 dist_of4].
        eapply reads_bind; [exact (co_reads _ _ _ _ _ cod_cont mat mf mt _ G (Hc lct d I1) Logic.I)|].
        cbn [l2]. rewrite (i32_id lct I1). apply (reads_bind_ret _ (mkbody4 lct)). apply (co_reads _ _ _ _ _ (cod_dist4 _)); auto.
      * intros [lct d] G [R E] [I1 I2]. heads E. cbn [lct4 dist_of4 rep_body4] in *. cbn [sec_4 k_read k_print k_nc]. unfold pr_body4. cbn [lct4 dist_of4].
        apply layout_app; [exact (co_layout _ _ _ _ _ cod_cont mat mf mt _ G (Hc lct d I1) Logic.I)|].
        apply (co_layout _ _ _ _ _ (cod_dist4 (LTT4 d))); auto.
      * cbn. unfold rd_body4. apply consumes_bind; [eapply consumes_cod, cod_cont|intros]. apply consumes_bind; [eapply consumes_cod, cod_dist4|intros; apply consumes_ret].
      * cbn. unfold rd_body4. eapply post_bind; [apply post_true|intros c _]. eapply post_bind; [eapply post_cod, cod_dist4|intros d Id]. apply post_ret.
        split; [apply i32_range|exact Id].
  - intros h mat mf mt. cbn. unfold rd_body4. apply only_std_bind; [apply std_cont|intros]. apply only_std_bind; [apply std_dist4|intros; apply only_std_ret].
Qed.

Lemma cod_dist5 lf : cod (fun d => rep_dist5 d /\ lf = LF5 d) (fun d => inv_dist5 d /\ lf = LF5 d) (rd_dist5 lf) pr_dist5 nc_dist5.
Proof.
  unfold rd_dist5. destruct (Z.eqb_spec lf 1) as [->|]; [|destruct (Z.eqb_spec lf 5) as [->|]; [|destruct (Z.eqb_spec lf 7) as [->|];
    [|destruct (Z.eqb_spec lf 9) as [->|]; [|destruct (Z.eqb_spec lf 11) as [->|]; [|destruct (Z.eqb_spec lf 12) as [->|]]]]]].
  - eapply (cod_inj TabulatedSpectrum); [apply (cod_iseq0 _ _ _ _ _ cod_tab1)|branch..].
  - eapply (cod_inj (fun p => GeneralEvaporation (fst p) (snd p))); [apply (cod_pair _ _ _ _ _ _ _ _ _ _ cod_tab1 cod_tab1)|try branch..].
    intros c ? ?; conj; destruct c; cbn in *; try lia. exists (theta, g). cbn. tauto.
  - eapply (cod_inj MaxwellianFission); [apply cod_tab1|branch..].
  - eapply (cod_inj Evaporation); [apply cod_tab1|branch..].
  - eapply (cod_inj (fun p => Watt (fst p) (snd p))); [apply (cod_pair _ _ _ _ _ _ _ _ _ _ cod_tab1 cod_tab1)|try branch..].
    intros c ? ?; conj; destruct c; cbn in *; try lia. exists (a, b). cbn. tauto.
  - eapply (cod_inj MadlandNix); [apply cod_tab1|branch..].
  - apply cod_throw. intros x ? ?; conj; destruct x; cbn in *; lia.
Qed.
Lemma std_dist5 lf : std3 (rd_dist5 lf).
Proof. unfold rd_dist5, rd_two, rd_spectrum. repeat apply std_if; try apply std_throw; apply std_inj; try apply std_pair; eauto with cod. Qed.
Lemma cod_p5 : cod rep_p5 inv_p5 rd_p5 pr_p5 nc_p5.
Proof.
  refine (cod_imp _ _ _ _ _ (cod_dep mkp5 p5_prob p5_dist rep_tab1 inv_tab1 rd_tab1 pr_tab1 nc_tab1 _ _ (fun a => rd_dist5 (LF_prob a)) (fun _ => pr_dist5) (fun _ => nc_dist5) _ _ _ cod_tab1 (fun a => cod_dist5 (LF_prob a))) _ _ _ _).
  - now intros [].
  - reflexivity.
  - reflexivity.
  - intros [p d] [R1 R2] (I1 & I2 & I3). cbn in *. apply as_int_eq in I2. unfold LF_prob. auto.
  - intros [p d] (I1 & I2 & I3). cbn in *. split; [exact I1|]. split; [apply as_int_eq, I3|exact I2].
Qed.
Lemma std_p5 : std3 rd_p5.
Proof. apply (std_dep mkp5 rd_tab1 (fun a => rd_dist5 (LF_prob a))); [apply std_tab1|intros; apply std_dist5]. Qed.
Lemma codec_5 : section_codec sec_5 (Forall rep_p5) (some_of inv_p5).
Proof.
  apply body_codec.
  - split; [cbn; lia|exact I| |].
    + intros m R I. cbn. ints4. apply cols32, i32_range.
    + intros h awr _. apply (cod_imp _ _ _ _ _ (cod_nonempty _ _ _ _ _ (n1 (sbase h)) cod_p5)); [|tauto]. intros m [R E] I. heads E. auto.
  - intros h. apply std_nonempty, std_p5.
Qed.
