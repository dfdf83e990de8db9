(** Sec1Proofs.v -- the sections of Sec1.v satisfy [section_codec]. *)
From Coq Require Import ZifyBool ZifyNat.
From Verif Require Import Base Disco DiscoProofs Records RecordProofs RecordRT RecordSound Layout
  RealRound RealProofs Spec Normal LineFacts Sections SecSpec Codec SectionProofs Sec1 Sec1Spec.
Open Scope Z_scope.

(** ** Files 3, 23, 27 *)
Lemma body_tab mf : 0 < mf < 100 -> body_cod (sec_tab mf) rep_tab1 inv_tab1.
Proof.
  intros Hm. split; [exact Hm|exact I|cbn; intros; repeat split; cols|].
  intros h awr _. apply (cod_imp _ _ _ _ _ cod_tab1); tauto.
Qed.
Lemma codec_tab mf : 0 < mf < 100 -> section_codec (sec_tab mf) rep_tab1 inv_tab1.
Proof. intros Hm. apply body_codec; [now apply body_tab|]. intros h. exact std_tab1. Qed.

(** ** multiplicities *)
Lemma cod_mult lnu : cod (fun m => rep_mult m /\ lnu = LNU m) inv_mult (rd_mult lnu) pr_mult nc_mult.
Proof.
  split; intros mat mf mt.
  - intros m G [R ->] I. unfold rd_mult. destruct m as [l|t]; cbn [LNU pr_mult nc_mult rep_mult inv_mult] in *.
    + change (i32 1 =? 1) with true. cbv iota. apply reads_bind_ret. eapply reads_cod; eauto with cod.
    + change (i32 2 =? 1) with false. change (i32 2 =? 2) with true. cbv iota. apply reads_bind_ret. eapply reads_cod; eauto with cod.
  - intros m G [R ->] I. destruct m as [l|t]; cbn in *; eapply layout_cod; eauto with cod.
  - unfold rd_mult. consumes_tac.
  - unfold rd_mult. post_tac; apply post_ret; cbn; auto.
Qed.
Lemma std_mult lnu : std3 (rd_mult lnu).
Proof. intros mat mf mt. unfold rd_mult. std_tac. Qed.
Global Hint Resolve cod_mult std_mult : cod.
Lemma body_nubar n : 0 < n < 1000 -> body_cod (sec_nubar n) rep_mult inv_mult.
Proof.
  intros Hn. split; [cbn; lia|exact Hn| |].
  - intros b R I. cbn. destruct b; cbn; repeat split; cols.
  - intros h awr _. apply (cod_imp _ _ _ _ _ (cod_mult (l2 (sbase h)))); [|tauto]. intros b [R E] I. heads E. tauto.
Qed.
Lemma codec_nubar n : 0 < n < 1000 -> section_codec (sec_nubar n) rep_mult inv_mult.
Proof. intros Hm. apply body_codec; [now apply body_nubar|]. intros h. apply std_mult. Qed.

(** ** 455 *)
Lemma decay_ok_spec l : decay_ok l = true <-> inv_decay l.
Proof.
  unfold decay_ok, inv_decay, npl, len. rewrite andb_true_iff, Z.even_spec. split.
  - intros [A (p & B)]. exists (i32 (Z.of_nat (length (lB l)))). split; [apply as_int_i32|]. split; [lia|]. now exists p.
  - intros (n & A & B & p & C). apply as_int_eq in A. rewrite A. split; [lia|]. now exists p.
Qed.
Lemma cod_decay : cod endf_list inv_decay rd_decay pr_list nc_list.
Proof.
  apply (cod_imp (endf_list) (fun x => any x /\ decay_ok x = true)).
  - exact (cod_check _ _ _ _ _ cod_list decay_ok).
  - intros x R I. apply decay_ok_spec in I. exact (conj R (conj Logic.I I)).
  - intros x [_ I]. now apply decay_ok_spec.
Qed.
Lemma std_decay : std3 rd_decay. Proof. apply std_check, std_list. Qed.
Lemma nnf_families l : nnf l = families l. Proof. reflexivity. Qed.
Lemma same_nnf_spec ls : same_nnf ls = true <-> (forall l l', In l ls -> In l' ls -> families l = families l').
Proof.
  unfold same_nnf. destruct ls as [|l0 ls]; [split; [intros _ l l' []|auto]|]. rewrite forallb_forall. split.
  - intros F l l' A B. apply F in A. apply F in B. rewrite !nnf_families in A, B. lia.
  - intros F x A. apply Z.eqb_eq. rewrite !nnf_families. apply F; [exact A|now left].
Qed.
Lemma cod_decay_seq : cod (rep_seq endf_list) (inv_seq inv_decay (fun ls => forall l l', In l ls -> In l' ls -> families l = families l'))
  (fun mat mf mt => q <- rd_iseq no_check rd_decay mat mf mt ;; require (same_nnf (isrec q)) ;;; ret q)
  (pr_iseq pr_list) (nc_iseq nc_list).
Proof.
  eapply (cod_imp (rep_seq endf_list) (fun q => inv_seq inv_decay any q /\ same_nnf (isrec q) = true)).
  - exact (cod_check _ _ _ _ _ (cod_iseq _ _ no_check any _ _ _ cod_decay (fun l _ => conj (fun _ => Logic.I) (fun _ => eq_refl))) (fun q => same_nnf (isrec q))).
  - intros q R (I1 & I2 & I3 & I4 & I5). split; [exact R|]. split; [exact (conj I1 (conj I2 (conj I3 (conj I4 Logic.I))))|]. now apply same_nnf_spec.
  - intros q [(I1 & I2 & I3 & I4 & I5) K]. exact (conj I1 (conj I2 (conj I3 (conj I4 (proj1 (same_nnf_spec _) K))))).
Qed.
Lemma std_decay_seq : std3 (fun mat mf mt => q <- rd_iseq no_check rd_decay mat mf mt ;; require (same_nnf (isrec q)) ;;; ret q).
Proof. apply std_check, std_iseq, std_decay. Qed.

Definition rd_decay_data' (ldg mat mf mt : Z) : M decay :=
  if i32 ldg =? 0 then l <- rd_list mat mf mt ;; ret (EnergyIndependent l)
  else if i32 ldg =? 1 then
    q <- (fun mat mf mt => q <- rd_iseq no_check rd_decay mat mf mt ;; require (same_nnf (isrec q)) ;;; ret q) mat mf mt ;; ret (EnergyDependent q)
  else throw EStd.
Lemma rd_decay_data_eq ldg mat mf mt s : rd_decay_data ldg mat mf mt s = rd_decay_data' ldg mat mf mt s.
Proof. unfold rd_decay_data, rd_decay_data'. destruct (i32 ldg =? 0); [reflexivity|]. destruct (i32 ldg =? 1); [apply bind_pull|reflexivity]. Qed.
Lemma cod_decay_data ldg : cod (fun m => rep_decay_data m /\ ldg = LDG m) inv_decay_data (rd_decay_data ldg) pr_decay nc_decay.
Proof.
  apply (cod_ext _ _ (rd_decay_data' ldg) _ _ _ (rd_decay_data_eq ldg)). split; intros mat mf mt.
  - intros m G [R ->] I. unfold rd_decay_data'. destruct m as [l|t]; cbn [LDG pr_decay nc_decay rep_decay_data inv_decay_data] in *.
    + change (i32 0 =? 0) with true. cbv iota. apply reads_bind_ret. eapply reads_cod; eauto with cod.
    + change (i32 1 =? 0) with false. change (i32 1 =? 1) with true. cbv iota. apply reads_bind_ret.
      exact (co_reads _ _ _ _ _ cod_decay_seq mat mf mt t G R I).
  - intros m G [R ->] I. destruct m as [l|t]; cbn in *; [eapply layout_cod; eauto with cod|].
    exact (co_layout _ _ _ _ _ cod_decay_seq mat mf mt t G R I).
  - unfold rd_decay_data'. destruct (i32 ldg =? 0); [consumes_tac|]. destruct (i32 ldg =? 1); [|consumes_tac].
    apply consumes_bind; [apply (co_consumes _ _ _ _ _ cod_decay_seq)|intros; apply consumes_ret].
  - unfold rd_decay_data'. destruct (i32 ldg =? 0); [post_tac; apply post_ret; exact Logic.I|]. destruct (i32 ldg =? 1); [|post_tac].
    eapply post_bind; [apply (co_post _ _ _ _ _ cod_decay_seq)|intros]. now apply post_ret.
Qed.
Lemma std_decay_data ldg : std3 (rd_decay_data ldg).
Proof.
  apply (std_ext (rd_decay_data' ldg) _ (rd_decay_data_eq ldg)). intros mat mf mt. unfold rd_decay_data'.
  destruct (i32 ldg =? 0); [std_tac|]. destruct (i32 ldg =? 1); [|std_tac].
  apply only_std_bind; [apply std_decay_seq|intros; apply only_std_ret].
Qed.
Global Hint Resolve cod_decay_data std_decay_data : cod.

Lemma codec_455 : section_codec sec_455 (fun b => rep_decay_data (fst b) /\ rep_mult (snd b))
  (fun b => inv_decay_data (fst b) /\ inv_mult (snd b)).
Proof.
  apply body_codec.
  - split; [cbn; lia|cbn; lia| |].
    + intros [d m] [R1 R2] [I1 I2]. cbn. destruct d, m; cbn; repeat split; cols.
    + intros h awr _. split; intros mat mf mt.
      * intros [d m] G [[R1 R2] E] [I1 I2]. heads E. cbn [fst snd k_read k_print k_nc sec_455] in *.
        eapply reads_k; [reads_tac|lia].
      * intros [d m] G [[R1 R2] E] [I1 I2]. cbn [fst snd k_read k_print k_nc sec_455] in *. heads E. layout_tac.
      * cbn. consumes_tac.
      * cbn. post_tac. apply post_ret. auto.
  - intros h mat mf mt. cbn. std_tac.
Qed.

(** ** 458 *)
Lemma thermal_ok_spec l : thermal_ok l = true <-> as_int (len (lB l)) 18.
Proof. unfold thermal_ok, npl, len. rewrite as_int_eq. lia. Qed.
Lemma cod_thermal : cod endf_list (fun l => as_int (len (lB l)) 18) rd_thermal pr_list nc_list.
Proof.
  apply (cod_imp _ _ _ _ _ (cod_check _ _ _ _ _ cod_list thermal_ok)).
  - intros x R I. exact (conj R (conj Logic.I (proj2 (thermal_ok_spec x) I))).
  - intros x [_ I]. now apply thermal_ok_spec.
Qed.
Definition inv_component (t : tab1) : Prop := inv_tab1 t
  /\ (exists i, as_int (tL2 (tbase t)) i /\ 1 <= i <= 9)
  /\ (as_int (tL1 (tbase t)) 1 \/ as_int (tL1 (tbase t)) 2).
Lemma component_ok_spec t : component_ok t = true <->
  (exists i, as_int (tL2 (tbase t)) i /\ 1 <= i <= 9) /\ (as_int (tL1 (tbase t)) 1 \/ as_int (tL1 (tbase t)) 2).
Proof.
  unfold component_ok. cbv zeta. rewrite !as_int_eq. split.
  - intros H. split; [|lia]. exists (i32 (tL2 (tbase t))). split; [apply as_int_i32|lia].
  - intros [(i & A & B) C]. apply as_int_eq in A. lia.
Qed.
Lemma cod_component : cod rep_tab1 inv_component rd_component pr_tab1 nc_tab1.
Proof.
  apply (cod_imp _ _ _ _ _ (cod_check _ _ _ _ _ cod_tab1 component_ok)).
  - intros x R [I1 I2]. exact (conj R (conj I1 (proj2 (component_ok_spec x) I2))).
  - intros x [I1 I2]. exact (conj I1 (proj1 (component_ok_spec x) I2)).
Qed.
Lemma std_thermal : std3 rd_thermal. Proof. apply std_check, std_list. Qed.
Lemma std_component : std3 rd_component. Proof. apply std_check, std_tab1. Qed.
Global Hint Resolve cod_thermal cod_component std_thermal std_component : cod.

Lemma place_here c pre post : place (length pre) c (pre ++ None :: post) = Some (pre ++ Some c :: post).
Proof. induction pre as [|x pre IH]; cbn; [reflexivity|]. rewrite IH. reflexivity. Qed.
Lemma place_inv n c recs recs' : place n c recs = Some recs' ->
  nth_error recs n = Some None /\ nth_error recs' n = Some (Some c)
  /\ (forall i, i <> n -> nth_error recs' i = nth_error recs i) /\ length recs' = length recs
  /\ length (somes recs') = Datatypes.S (length (somes recs)).
Proof.
  revert recs recs'. induction n as [|n IH]; intros [|x recs] recs' E; cbn in E; try discriminate.
  - destruct x; [discriminate|]. injection E as <-. repeat split; auto. intros [|i] Hi; [lia|reflexivity].
  - destruct (place n c recs) as [r|] eqn:Ep; [|discriminate]. injection E as <-.
    destruct (IH _ _ Ep) as (A & B & C & D & F). repeat split; auto.
    + intros [|i] Hi; [reflexivity|]. apply C. lia.
    + cbn. now rewrite D.
    + unfold somes in *. cbn. rewrite !app_length. lia.
Qed.
(** [tables_from i l]: the tables of [l] sit in slots i+1, i+2, ... *)
Lemma somes_app {A} (a b : list (option A)) : somes (a ++ b) = somes a ++ somes b.
Proof. unfold somes. apply flat_map_app. Qed.
Definition slotted (n : nat) (o : option tab1) : Prop :=
  match o with Some t => rep_tab1 t /\ inv_component t /\ as_int (tL2 (tbase t)) (Z.of_nat n + 1) | None => True end.
Lemma reads_tables mat mf mt : good_tail mat mf mt -> forall post pre,
  (forall i o, nth_error post i = Some o -> slotted (length pre + i) o) ->
  reads (rd_tables (length (somes post)) (pre ++ repeat None (length post)) mat mf mt)
    (flat_map (fun c => pr_tab1 c mat mf mt) (somes post)) (pre ++ post) (zsum (map nc_tab1 (somes post))).
Proof.
  intros G. induction post as [|o post IH]; intros pre H.
  - cbn. apply reads_ret.
  - assert (Hn : forall i o', nth_error post i = Some o' -> slotted (length (pre ++ [o]) + i) o').
    { intros i o' E. rewrite app_length. cbn. replace (length pre + 1 + i)%nat with (length pre + Datatypes.S i)%nat by lia. now apply H. }
    specialize (IH (pre ++ [o]) Hn). rewrite <- !app_assoc in IH. cbn [app] in IH.
    destruct o as [c|]; [|exact IH].
    destruct (H 0%nat (Some c) eq_refl) as (Rc & Ic & Sc). rewrite Nat.add_0_r in Sc.
    change (somes (Some c :: post)) with (c :: somes post). cbn [length rd_tables flat_map map zsum fold_right repeat].
    eapply reads_bind; [exact (co_reads _ _ _ _ _ cod_component mat mf mt c G Rc Ic)|].
    cbv beta. replace (slot c) with (length pre).
    2:{ apply as_int_eq in Sc. unfold slot. rewrite Sc. lia. }
    rewrite place_here. exact IH.
Qed.
Lemma consumes_tables mat mf mt n : forall recs, consumes (tail_is mat mf mt) (rd_tables n recs mat mf mt).
Proof.
  induction n as [|n IH]; intros recs; cbn [rd_tables]; [apply consumes_ret|].
  apply consumes_bind; [eapply consumes_cod; eauto with cod|intros c]. destruct (place _ _ _); [apply IH|apply consumes_throw].
Qed.
Lemma std_tables mat mf mt n : forall recs, only_std (rd_tables n recs mat mf mt).
Proof.
  induction n as [|n IH]; intros recs; cbn [rd_tables]; [apply only_std_ret|].
  apply only_std_bind; [apply std_component|intros c]. destruct (place _ _ _); [apply IH|apply only_std_throw; reflexivity].
Qed.
Lemma place_tables c recs recs' : inv_component c -> place (slot c) c recs = Some recs' -> inv_tables recs ->
  inv_tables recs' /\ count recs' = count recs + 1.
Proof.
  intros Ic E [L T]. destruct (place_inv _ _ _ _ E) as (A & B & C & D & F). split.
  - split; [lia|]. intros i t Hi. destruct (Nat.eq_dec i (slot c)) as [->|Ne].
    + rewrite B in Hi. injection Hi as <-. destruct Ic as (I1 & (j & I2 & I3) & I4). split; [exact I1|]. split; [|exact I4].
      unfold slot. replace (Z.of_nat _ + 1) with j; [exact I2|]. apply as_int_eq in I2. rewrite I2. lia.
    + rewrite C in Hi by auto. auto.
  - unfold count, len. lia.
Qed.
Lemma post_tables mat mf mt n : forall recs, inv_tables recs ->
  post (rd_tables n recs mat mf mt) (fun r => inv_tables r /\ count r = count recs + Z.of_nat n).
Proof.
  induction n as [|n IH]; intros recs I; cbn [rd_tables]; [apply post_ret; split; auto; lia|].
  eapply post_bind; [eapply post_cod; eauto with cod|]. cbv beta. intros c Ic.
  destruct (place _ _ _) as [r|] eqn:E; [|apply post_throw]. destruct (place_tables _ _ _ Ic E I) as [I' K].
  eapply post_weaken; [now apply IH|]. cbv beta. intros r' [A B]. split; [exact A|lia].
Qed.
Lemma inv_tables_none : inv_tables (repeat None 9).
Proof. split; [reflexivity|]. intros i t E. apply nth_error_In, repeat_spec in E. discriminate. Qed.
Lemma somes_nth {A} (l : list (option A)) i a : nth_error l i = Some (Some a) -> In a (somes l).
Proof. intros E. apply nth_error_In in E. unfold somes. apply in_flat_map. exists (Some a). split; [exact E|now left]. Qed.
Lemma count_le r : inv_tables r -> 0 <= count r <= 9.
Proof.
  intros [L _]. unfold count, len. split; [lia|]. assert (K : (length (somes r) <= length r)%nat); [|lia].
  clear L. induction r as [|[t|] r IH]; unfold somes in *; cbn in *; lia.
Qed.

Lemma codec_458 : section_codec sec_458 rep_fission_q inv_fission_q.
Proof.
  apply body_codec.
  - split; [cbn; lia|cbn; lia| |].
    + intros q R I. cbn. assert (0 <= NFC q <= 9) by (destruct q; cbn; try lia; destruct I as (_ & I & ->); now apply count_le).
      assert (0 <= LFC q <= 1) by (destruct q; cbn; lia). repeat split; cols.
    + intros h awr _. split; intros mat mf mt.
      * intros q G [R E] I. heads E. cbn [k_read k_print k_nc sec_458] in *. rewrite H0, H2. unfold rd_fission_q.
        destruct q as [l|l|n l r]; cbn [LFC NFC rep_fission_q inv_fission_q pr_fission_q nc_fission_q] in *.
        -- change (i32 0 =? 0) with true. cbv iota. destruct R as [R1 R2], I as [I1 I2].
           eapply reads_k; [eapply reads_bind_r; [exact (co_reads _ _ _ _ _ cod_list mat mf mt l G R1 Logic.I)|]|].
           ++ cbv beta. rewrite I1. change (npl l) with (len (lB l)). eapply reads_require_bind; [lia|]. change (0 =? 0) with true. cbv iota.
              eapply reads_require_bind; [unfold thermal_ok; change (npl l) with (len (lB l)); now rewrite I2|]. apply reads_ret.
           ++ lia.
        -- change (i32 0 =? 0) with true. cbv iota. destruct R as [R1 R2], I as [I1 I2].
           eapply reads_k; [eapply reads_bind_r; [exact (co_reads _ _ _ _ _ cod_list mat mf mt l G R1 Logic.I)|]|].
           ++ cbv beta. change (npl l) with (len (lB l)). eapply reads_require_bind; [lia|]. replace (lL2 l =? 0) with false by lia. cbv iota.
              assert (0 <= len (lB l)) by (unfold len; lia).
              eapply reads_require_bind; [rewrite !i32_id by (unfold int32; lia); lia|]. apply reads_ret.
           ++ lia.
        -- change (i32 1 =? 0) with false. change (i32 1 =? 1) with true. cbv iota. destruct R as [R1 R2], I as (I1 & I2 & ->).
           assert (Hc := count_le r I2). rewrite i32_id by (unfold int32; lia).
           eapply reads_k; [eapply reads_bind; [exact (co_reads _ _ _ _ _ cod_thermal mat mf mt l G R1 I1)|]|].
           ++ cbv beta. eapply reads_require_bind; [lia|]. replace (Z.to_nat (count r)) with (length (somes r)) by (unfold count, len; lia).
              apply (reads_bind_ret (rd_tables (length (somes r)) (repeat None 9) mat mf mt) (fun r' => Tabulated (count r) l r')).
              assert (K := reads_tables mat mf mt G r []). cbn [app] in K. destruct I2 as [L T]. rewrite L in K. apply K.
              intros i [t|] Ei; [|exact Logic.I]. cbn [length Nat.add]. destruct (T i t Ei) as (A1 & A2 & A3).
              split; [|split; [split; [exact A1|split; [|exact A3]]|exact A2]].
              ** rewrite Forall_forall in R2. apply R2. eapply somes_nth; eauto.
              ** exists (Z.of_nat i + 1). split; [exact A2|]. assert (i < length r)%nat by (apply nth_error_Some; congruence). lia.
           ++ lia.
      * intros q G [R E] I. cbn [k_read k_print k_nc sec_458] in *.
        destruct q as [l|l|n l r]; cbn [LFC NFC rep_fission_q inv_fission_q pr_fission_q nc_fission_q] in *; destruct R as [R1 R2].
        -- exact (co_layout _ _ _ _ _ cod_list mat mf mt l G R1 Logic.I).
        -- exact (co_layout _ _ _ _ _ cod_list mat mf mt l G R1 Logic.I).
        -- destruct I as (I1 & [I2 I3] & ->). apply layout_app; [exact (co_layout _ _ _ _ _ cod_list mat mf mt l G R1 Logic.I)|].
           apply (layout_flat_map (fun c => pr_tab1 c mat mf mt)). rewrite Forall_forall in *. intros t Ht. 
           apply (co_layout _ _ _ _ _ cod_tab1); auto. unfold somes in Ht. apply in_flat_map in Ht. destruct Ht as ([t'|] & A & B); [|destruct B].
           destruct B as [->|[]]. apply In_nth_error in A. destruct A as (i & A). exact (proj1 (I3 _ _ A)).
      * cbn. unfold rd_fission_q. destruct (i32 _ =? 0); [consumes_tac|]. destruct (i32 _ =? 1); [|consumes_tac].
        apply consumes_bind; [eapply consumes_cod; eauto with cod|intros]. apply consumes_bind; [apply consumes_require|intros].
        apply consumes_bind; [apply consumes_tables|intros; apply consumes_ret].
      * cbn. unfold rd_fission_q. destruct (i32 (l2 _) =? 0); [|destruct (i32 (l2 _) =? 1); [|apply post_throw]].
        -- post_tac; apply post_ret; cbn; change (npl a) with (len (lB a)) in *; lia.
        -- eapply post_bind; [eapply post_cod; eauto with cod|cbv beta; intros l Il]. eapply post_bind; [apply post_require|cbv beta; intros _ Hn].
           eapply post_bind; [apply post_tables, inv_tables_none|cbv beta; intros r [Ir Kr]]. apply post_ret. cbn. split; [exact Il|]. split; [exact Ir|].
           rewrite Kr. change (count (repeat None 9)) with 0. lia.
  - intros h mat mf mt. cbn. unfold rd_fission_q. destruct (i32 _ =? 0); [std_tac|]. destruct (i32 _ =? 1); [|std_tac].
    apply only_std_bind; [apply std_thermal|intros]. apply only_std_bind; [apply only_std_require|intros].
    apply only_std_bind; [apply std_tables|intros; apply only_std_ret].
Qed.

(** ** 460 *)
Lemma codec_460 : section_codec sec_460 rep_photons inv_photons.
Proof.
  apply body_codec.
  - split; [cbn; lia|cbn; lia| |].
    + intros p R I. cbn. assert (0 <= NG p < 2 ^ 31).
      { destruct p; cbn; [|lia]. destruct I as [_ I]. fold (len l). unfold len in *. rewrite i32_id by (unfold int32; lia). lia. }
      assert (0 <= LO p <= 2) by (destruct p; cbn; lia). repeat split; cols.
    + intros h awr _. split; intros mat mf mt.
      * intros p G [R E] I. heads E. cbn [k_read k_print k_nc sec_460] in *. rewrite H, H1. unfold rd_photons.
        destruct p as [l|l]; cbn [LO NG rep_photons inv_photons pr_photons nc_photons] in *.
        -- change (i32 1 =? 1) with true. cbv iota. destruct I as [I1 I2]. unfold len in I2. rewrite !i32_i32. rewrite i32_id by (unfold int32; lia).
           eapply reads_k; [eapply reads_bind_r|].
           ++ apply (co_reads _ _ _ _ _ (cod_sequence _ _ _ _ _ (Z.of_nat (length l)) cod_tab1) mat mf mt l G R).
              split; [exact I1|]. now rewrite i32_id by (unfold int32; lia).
           ++ cbv beta. eapply reads_require_bind; [|apply reads_ret]. rewrite i32_id by (unfold int32; lia). lia.
           ++ lia.
        -- change (i32 2 =? 1) with false. change (i32 2 =? 2) with true. cbv iota.
           eapply reads_k; [eapply reads_bind_r; [exact (co_reads _ _ _ _ _ cod_list mat mf mt l G R Logic.I)|]|].
           ++ cbv beta. eapply reads_require_bind; [|apply reads_ret]. destruct I as (n & A & B). change (npl l) with (len (lB l)).
              apply as_int_eq in A. rewrite A. lia.
           ++ lia.
      * intros p G [R E] I. cbn [k_read k_print k_nc sec_460] in *.
        destruct p as [l|l]; cbn [LO NG rep_photons inv_photons pr_photons nc_photons] in *.
        -- apply (layout_flat_map (fun c => pr_tab1 c mat mf mt)). destruct I as [I _]. rewrite Forall_forall in *. intros t Ht.
           apply (co_layout _ _ _ _ _ cod_tab1); auto.
        -- exact (co_layout _ _ _ _ _ cod_list mat mf mt l G R Logic.I).
      * cbn. unfold rd_photons. destruct (i32 _ =? 1); [|consumes_tac]. apply consumes_bind; [|intros; consumes_tac].
        apply (co_consumes _ _ _ _ _ (cod_sequence _ _ _ _ _ _ cod_tab1)).
      * cbn. unfold rd_photons. destruct (i32 (l1 _) =? 1).
        -- eapply post_bind; [apply (co_post _ _ _ _ _ (cod_sequence _ _ _ _ _ _ cod_tab1))|cbv beta; intros l [A B]].
           eapply post_bind; [apply post_require|cbv beta; intros _ C]. apply post_ret. cbn. split; [exact A|].
           assert (K := i32_range (i32 (n1 (sbase h)))). unfold int32, len in *. rewrite B in *. rewrite !i32_i32 in *. lia.
        -- post_tac. apply post_ret. cbn. exists (i32 (npl a)). split; [apply as_int_i32|lia].
  - intros h mat mf mt. cbn. unfold rd_photons. destruct (i32 _ =? 1); [|std_tac].
    apply only_std_bind; [apply (std_sequence _ _ std_tab1)|intros; std_tac].
Qed.
