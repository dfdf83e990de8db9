(** PropEdit.v -- edits of a tree: C20, C21, C22, C23.
    Vocabulary: EditSpec.v. *)
From Coq Require Import QArith ZifyBool Permutation String.
From Verif Require Import Base Disco DiscoProofs Records RecordProofs RecordSound Spec LineFacts
  Normal Tree TreeSpec TreeProofs TreeGrammar TreeMaps PropRecords PropRecords3 PropTree PropTree2 Nested EditSpec.
Open Scope Z_scope.
Open Scope list_scope.
Notation length := List.length.

(** ** Invariants *)
Definition wff (f : tfile) : Prop :=
  ascending Z.lt (map fst (tf_secs f))
  /\ Forall (fun p => ts_mt (snd p) = fst p /\ ts_mf (snd p) = tf_mf f) (tf_secs f).
Definition wfm (m : tmat) : Prop :=
  ascending Z.lt (map fst (tm_files m))
  /\ Forall (fun p => tf_mf (snd p) = fst p /\ tf_mat (snd p) = tm_mat m /\ wff (snd p)) (tm_files m).
Definition wft (T : ttape) : Prop :=
  ascending Z.le (map fst (tt_mats T))
  /\ Forall (fun p => tm_mat (snd p) = fst p /\ wfm (snd p)) (tt_mats T).

Section MapForall.
  Context {A : Type}.
  Variable P : Z * A -> Prop.
  Lemma Forall_place k v l : Forall P l -> P (k, v) -> Forall P (memplace k v l).
  Proof.
    intros H Hp. induction H as [|[a w] l H1 H2 IH]; cbn; [auto|]. destruct (k <? a); [auto|]. destruct (k =? a); auto.
  Qed.
  Lemma Forall_rem k l : Forall P l -> Forall P (mrem k l).
  Proof. intros H. unfold mrem. rewrite Forall_forall in *. intros x Hx. apply filter_In in Hx. apply H. tauto. Qed.
  Lemma Forall_mput k v l : Forall P l -> P (k, v) -> Forall P (mmput k v l).
  Proof. intros H Hp. induction H as [|[a w] l H1 H2 IH]; cbn; [auto|]. destruct (k <? a); auto. Qed.
  Lemma Forall_upd k f l : Forall P l -> (forall v, In (k, v) l -> P (k, v) -> P (k, f v)) -> Forall P (mupd k f l).
  Proof.
    intros H Hp. induction H as [|[a w] l H1 H2 IH]; cbn; [auto|]. destruct (Z.eqb_spec k a).
    - subst. constructor; [|exact H2]. apply Hp; [now left|exact H1].
    - constructor; [exact H1|]. apply IH. intros v Hv. apply Hp. now right.
  Qed.
  Lemma Forall_fold_place l : forall acc, Forall P l -> Forall P acc -> Forall P (fold_place l acc).
  Proof. induction l as [|[k v] l IH]; intros acc H Ha; [exact Ha|]. inversion H; subst. cbn. apply IH; auto using Forall_place. Qed.
  Lemma Forall_fold_mmput l : forall acc, Forall P l -> Forall P acc -> Forall P (fold_mmput l acc).
  Proof. induction l as [|[k v] l IH]; intros acc H Ha; [exact Ha|]. inversion H; subst. cbn. apply IH; auto using Forall_mput. Qed.
End MapForall.

Lemma wff_remove f mt : wff f -> wff (file_remove mt f).
Proof. intros [H1 H2]. split; cbn [tf_secs tf_mf file_remove]; [now apply strict_rem|now apply Forall_rem]. Qed.
Lemma wff_put s f : wff f -> wff (fst (file_put s f)).
Proof.
  intros [H1 H2]. unfold file_put. destruct (_ || _) eqn:E; [split; auto|]. split; cbn [fst tf_secs tf_mf].
  - now apply strict_place, strict_rem.
  - apply Forall_place; [now apply Forall_rem|]. cbn. lia.
Qed.
Lemma wff_insert s f : wff f -> wff (fst (file_insert s f)).
Proof. intros H. unfold file_insert. destruct (file_has f (ts_mt s)); [exact H|now apply wff_put]. Qed.
Lemma file_put_nums s f : tf_mat (fst (file_put s f)) = tf_mat f /\ tf_mf (fst (file_put s f)) = tf_mf f.
Proof. unfold file_put. destruct (_ || _); auto. Qed.
Lemma file_insert_nums s f : tf_mat (fst (file_insert s f)) = tf_mat f /\ tf_mf (fst (file_insert s f)) = tf_mf f.
Proof. unfold file_insert. destruct (file_has f (ts_mt s)); auto using file_put_nums. Qed.

Lemma sec_clean_nums s : ts_mat (fst (sec_clean s)) = ts_mat s /\ ts_mf (fst (sec_clean s)) = ts_mf s /\ ts_mt (fst (sec_clean s)) = ts_mt s.
Proof.
  unfold sec_clean. destruct (clean_lines _ _ _ _ _ _) as [acc [e|]]; [auto|]. destruct (pr_SEND _ _); auto.
Qed.
Lemma clean_all_keys {A} (c : edit A) l : map fst (fst (clean_all c l)) = map fst l.
Proof.
  induction l as [|[k a] l IH]; [reflexivity|]. cbn. destruct (c a) as [a' [e|]]; [reflexivity|].
  destruct (clean_all c l) as [l'' y]. cbn in *. congruence.
Qed.
Lemma clean_all_Forall {A} (c : edit A) (P : Z * A -> Prop) l : (forall k a, P (k, a) -> P (k, fst (c a))) ->
  Forall P l -> Forall P (fst (clean_all c l)).
Proof.
  intros Hc. induction 1 as [|[k a] l H1 H2 IH]; [constructor|]. cbn. specialize (Hc k a H1).
  destruct (c a) as [a' [e|]]; cbn in Hc; [constructor; auto|].
  destruct (clean_all c l) as [l'' y]. cbn in *. constructor; auto.
Qed.
Lemma wff_clean f : wff f -> wff (fst (file_clean f)) /\ tf_mat (fst (file_clean f)) = tf_mat f /\ tf_mf (fst (file_clean f)) = tf_mf f.
Proof.
  intros [H1 H2]. unfold file_clean. pose proof (clean_all_keys sec_clean (tf_secs f)) as K.
  pose proof (clean_all_Forall sec_clean (fun p => ts_mt (snd p) = fst p /\ ts_mf (snd p) = tf_mf f) (tf_secs f)) as F.
  destruct (clean_all sec_clean (tf_secs f)) as [l x]. cbn [fst] in *. split; [|auto]. split; cbn [tf_secs tf_mf].
  - now rewrite K.
  - apply F; [|exact H2]. cbn. intros k a. destruct (sec_clean_nums a) as (_ & -> & ->). auto.
Qed.
Lemma wfm_clean m : wfm m -> wfm (fst (mat_clean m)) /\ tm_mat (fst (mat_clean m)) = tm_mat m.
Proof.
  intros [H1 H2]. unfold mat_clean. pose proof (clean_all_keys file_clean (tm_files m)) as K.
  pose proof (clean_all_Forall file_clean (fun p => tf_mf (snd p) = fst p /\ tf_mat (snd p) = tm_mat m /\ wff (snd p)) (tm_files m)) as F.
  destruct (clean_all file_clean (tm_files m)) as [l x]. cbn [fst] in *. split; [|auto]. split; cbn [tm_files tm_mat].
  - now rewrite K.
  - apply F; [|exact H2]. cbn. intros k a (E1 & E2 & W). destruct (wff_clean a W) as (W' & -> & ->). auto.
Qed.
Lemma wft_clean T : wft T -> wft (fst (tape_clean T)).
Proof.
  intros [H1 H2]. unfold tape_clean. pose proof (clean_all_keys mat_clean (tt_mats T)) as K.
  pose proof (clean_all_Forall mat_clean (fun p => tm_mat (snd p) = fst p /\ wfm (snd p)) (tt_mats T)) as F.
  destruct (clean_all mat_clean (tt_mats T)) as [l x]. cbn [fst] in *. split; cbn [tt_mats].
  - now rewrite K.
  - apply F; [|exact H2]. cbn. intros k a (E1 & W). destruct (wfm_clean a W) as (W' & ->). auto.
Qed.

Lemma wff_clean_section mt f : wff f ->
  wff (fst (in_section mt sec_clean f)) /\ tf_mat (fst (in_section mt sec_clean f)) = tf_mat f /\ tf_mf (fst (in_section mt sec_clean f)) = tf_mf f.
Proof.
  intros [H1 H2]. unfold in_section. destruct (mfind mt (tf_secs f)) as [s|] eqn:E; [|cbn [fst]; unfold wff; auto].
  pose proof (sec_clean_nums s) as (_ & N2 & N3). destruct (sec_clean s) as [s' x]. cbn [fst] in *. split; [|auto]. split; cbn [tf_secs tf_mf].
  - now rewrite mupd_keys.
  - assert (K : ts_mt s = mt /\ ts_mf s = tf_mf f) by (rewrite Forall_forall in H2; exact (H2 (mt, s) (mfind_In _ _ _ E))).
    apply Forall_upd; [exact H2|]. cbn. intros v _ _. rewrite N2, N3. exact K.
Qed.

(** *** indexing *)
Lemma items_forall {X} (R : sdiv -> text -> X -> text -> Prop) key same isend closing (P : Z * X -> Prop) :
  (forall d t x p, same d = true -> R d t x p -> P (key d, x)) ->
  forall t l p, items R key same isend closing t l p -> Forall P l.
Proof. intros HP t l p. induction 1; constructor; eauto. Qed.
Lemma index_file_wf t f s : index_file t = Ok f s -> wff f.
Proof.
  unfold index_file. intros E. apply bind_ok in E. destruct E as (h & s1 & E1 & E). unfold rd_file in E. apply on_err_ok in E.
  apply bind_ok in E. destruct E as (l & s2 & E2 & E). inversion E; subst. clear E.
  change (fun d => is_head d && (smf d =? smf h)) with (in_mf (smf h)) in E2.
  apply (rd_level_inv _ _ _ _ _ _ section_inner (in_mf_head _)) in E2. destruct E2 as (l' & Hi & Hf & ->).
  split; cbn [tf_secs tf_mf].
  - now apply fold_place_strict.
  - apply Forall_fold_place; [|constructor]. eapply items_forall; [|exact Hi]. intros d t0 x p Hs (r & _ & _ & ->). cbn.
    unfold in_mf in Hs. lia.
Qed.
Lemma file_at_wf d t f p : file_at d t f p -> wff f /\ tf_mat f = smat d /\ tf_mf f = smf d.
Proof.
  intros (_ & l & Hi & Hf & ->). split; [|auto]. split; cbn [tf_secs tf_mf].
  - now apply fold_place_strict.
  - apply Forall_fold_place; [|constructor]. eapply items_forall; [|exact Hi]. intros d' t0 x p' Hs (r & _ & _ & ->). cbn.
    unfold in_mf in Hs. lia.
Qed.
Lemma mat_items_wf mat t l p : items file_at smf (in_mat mat) is_fend is_mend t l p -> wfm (mktmat mat (fold_place l [])).
Proof.
  intros Hi. split; cbn [tm_files tm_mat].
  - now apply fold_place_strict.
  - apply Forall_fold_place; [|constructor]. eapply items_forall; [|exact Hi]. intros d' t0 x p' Hs H.
    apply file_at_wf in H. cbn. unfold in_mat in Hs. intuition lia.
Qed.
Lemma index_mat_wf t m s : index_mat t = Ok m s -> wfm m.
Proof.
  unfold index_mat. intros E. apply bind_ok in E. destruct E as (h & s1 & E1 & E). unfold rd_mat in E. apply on_err_ok in E.
  apply bind_ok in E. destruct E as (l & s2 & E2 & E). inversion E; subst. clear E.
  change (fun d => is_head d && (smat d =? smat h)) with (in_mat (smat h)) in E2.
  apply (rd_level_inv _ _ _ _ _ _ file_inner (in_mat_head _)) in E2. destruct E2 as (l' & Hi & Hf & ->).
  eapply mat_items_wf; eauto.
Qed.
Lemma mats_forall {X} (R : sdiv -> text -> X -> text -> Prop) (P : Z * X -> Prop) :
  (forall d t x p, R d t x p -> P (smat d, x)) -> forall t l p, mats_gen R t l p -> Forall P l.
Proof. intros HP t l p. induction 1; constructor; eauto. Qed.
Lemma index_tape_wf t T s : index_tape t = Ok T s -> wft T.
Proof.
  intros E. destruct (proj1 (index_tape_iff t T)) as (p & l & b & i & ms & N & Ti & Hm & ->); [eauto|].
  split; cbn [tt_mats].
  - now apply fold_mmput_weak.
  - apply Forall_fold_mmput; [|constructor]. eapply mats_forall; [|exact Hm]. intros d t0 x p0 (_ & l' & Hi & _ & ->). cbn.
    split; [reflexivity|]. eapply mat_items_wf; eauto.
Qed.

(** *** edits *)
Lemma made_file_wf f : made_file f -> wff f.
Proof.
  induction 1; [split; [exact I|constructor]|eapply index_file_wf; eauto|now apply wff_insert|now apply wff_put|now apply wff_remove|now apply wff_clean|now apply wff_clean_section].
Qed.
Lemma mfind_Forall {A} (P : Z * A -> Prop) k v l : Forall P l -> mfind k l = Some v -> P (k, v).
Proof. intros F E. rewrite Forall_forall in F. apply F. now apply mfind_In. Qed.
Lemma wfm_in_file mf e m : wfm m -> (forall f, wff f -> wff (fst (e f)) /\ tf_mat (fst (e f)) = tf_mat f /\ tf_mf (fst (e f)) = tf_mf f) ->
  wfm (fst (in_file mf e m)) /\ tm_mat (fst (in_file mf e m)) = tm_mat m.
Proof.
  intros [H1 H2] He. unfold in_file. destruct (mfind mf (tm_files m)) as [f|] eqn:E; [|split; [split|]; auto].
  pose proof (mfind_Forall _ _ _ _ H2 E) as (K1 & K2 & K3). cbn in K1, K2, K3.
  destruct (He f K3) as (W & N1 & N2). destruct (e f) as [f' x]. cbn [fst] in *. split; [|reflexivity]. split; cbn [tm_files tm_mat].
  - now rewrite mupd_keys.
  - apply Forall_upd; [exact H2|]. cbn. intros v _ _. intuition congruence.
Qed.
Lemma wfm_ensure mf m : wfm m -> wfm (ensure_file mf m) /\ tm_mat (ensure_file mf m) = tm_mat m.
Proof.
  intros [H1 H2]. unfold ensure_file. destruct (mat_hasMF m mf); [split; [split|]; auto|]. split; [|reflexivity]. split; cbn [tm_files tm_mat].
  - now apply strict_place.
  - apply Forall_place; [exact H2|]. cbn. split; [reflexivity|]. split; [reflexivity|]. split; [exact I|constructor].
Qed.
Lemma wfm_put_file f m : wfm m -> wff f -> wfm (fst (mat_put_file f m)) /\ tm_mat (fst (mat_put_file f m)) = tm_mat m.
Proof.
  intros [H1 H2] W. unfold mat_put_file. destruct (Z.eqb_spec (tm_mat m) (tf_mat f)); cbn [negb]; [|split; [split|]; auto].
  split; [|reflexivity]. split; cbn [fst tm_files tm_mat].
  - now apply strict_place, strict_rem.
  - apply Forall_place; [now apply Forall_rem|]. cbn. auto.
Qed.
Lemma wfm_op o m : op_ok o -> wfm m -> wfm (fst (mop_run o m)) /\ tm_mat (fst (mop_run o m)) = tm_mat m.
Proof.
  intros Ho W. destruct o as [s|s|f|f|mf|mf mt|mf s|mf s|mf mt]; cbn [mop_run op_ok] in *.
  - unfold mat_insert_sec. destruct (wfm_ensure (ts_mf s) m W) as [W' <-]. apply wfm_in_file; [exact W'|].
    intros f Hf. split; [now apply wff_insert|apply file_insert_nums].
  - unfold mat_put_sec. destruct (wfm_ensure (ts_mf s) m W) as [W' <-]. apply wfm_in_file; [exact W'|].
    intros f Hf. split; [now apply wff_put|apply file_put_nums].
  - unfold mat_insert_file. destruct (mat_hasMF m (tf_mf f)); [auto|]. apply wfm_put_file; auto using made_file_wf.
  - apply wfm_put_file; auto using made_file_wf.
  - destruct W as [H1 H2]. cbn. split; [|reflexivity]. split; cbn [tm_files tm_mat mat_remove]; [now apply strict_rem|now apply Forall_rem].
  - destruct W as [H1 H2]. cbn. split; [|reflexivity]. split; cbn [tm_files tm_mat mat_remove_sec]; [now rewrite mupd_keys|].
    apply Forall_upd; [exact H2|]. cbn. intros v _ (K1 & K2 & K3). auto using wff_remove.
  - apply wfm_in_file; [exact W|]. intros f Hf. split; [now apply wff_insert|apply file_insert_nums].
  - apply wfm_in_file; [exact W|]. intros f Hf. split; [now apply wff_put|apply file_put_nums].
  - apply wfm_in_file; [exact W|]. intros f Hf. cbn. auto using wff_remove.
Qed.
Lemma tape_material_wf T k l m : wft T -> tape_material T k = Val l -> In m l -> wfm m.
Proof.
  intros [H1 H2] E Hm. unfold tape_material in E. destruct (tape_has T k); [|discriminate]. injection E as <-.
  unfold mmrange in Hm. apply in_map_iff in Hm. destruct Hm as ([k' m'] & <- & Hm). apply filter_In in Hm.
  rewrite Forall_forall in H2. apply (H2 (k', m')). tauto.
Qed.
Lemma wfm_edit m m' : medit m m' -> wfm m -> wfm m' /\ tm_mat m' = tm_mat m.
Proof.
  intros [o x Ho|x|mf x|mf mt x] W; [now apply wfm_op|now apply wfm_clean|..]; apply wfm_in_file; auto using wff_clean, wff_clean_section.
Qed.
Lemma made_mat_wf m : made_mat m -> wfm m.
Proof.
  induction 1 as [mat|t m s E|o m Ho H IH|m m' H IH He|t T s k l m E El Hm].
  - split; [exact I|constructor].
  - eapply index_mat_wf; eauto.
  - now apply wfm_op.
  - now apply (wfm_edit _ _ He).
  - eapply tape_material_wf; eauto using index_tape_wf.
Qed.
Lemma made_tape_wf T : made_tape T -> wft T.
Proof.
  induction 1 as [i|t T s E|m T Hm H IH|m T Hm H IH|mat T H IH|T H IH|T a k m m2 b H IH E Ho].
  - split; [exact I|constructor].
  - eapply index_tape_wf; eauto.
  - destruct IH. apply made_mat_wf in Hm. split; cbn [tt_mats tape_insert]; [now apply weak_put|apply Forall_mput; auto].
  - destruct IH. apply made_mat_wf in Hm. split; cbn [tt_mats tape_insert tape_replace tape_remove].
    + now apply weak_put, weak_rem.
    + apply Forall_mput; auto. now apply Forall_rem.
  - destruct IH. split; cbn [tt_mats tape_remove]; [now apply weak_rem|now apply Forall_rem].
  - now apply wft_clean.
  - destruct IH as [I1 I2]. rewrite E in I1, I2. split; cbn [tt_mats].
    + rewrite !map_app in *. exact I1.
    + rewrite Forall_app in *. destruct I2 as [I2 I3]. split; [exact I2|]. inversion I3 as [|? ? [K1 K2] I4]; subst.
      constructor; [|exact I4]. destruct (wfm_edit m m2 Ho K2) as [K3 K4]. cbn in *. rewrite K4. auto.
Qed.

(** ** C21 *)
Theorem C21_ordered : forall T, made_tape T ->
  ascending Z.le (map fst (tt_mats T))
  /\ (forall mat l m, tape_material T mat = Val l -> In m l ->
        tm_mat m = mat /\ ascending Z.lt (file_numbers m)
        /\ forall mf f, mat_file m mf = Val f ->
             tf_mat f = mat /\ tf_mf f = mf /\ ascending Z.lt (section_numbers f)
             /\ forall mt s, file_section f mt = Val s -> ts_mf s = mf /\ ts_mt s = mt).
Proof.
  intros T H. apply made_tape_wf in H. split; [apply H|]. intros mat l m El Hm.
  pose proof (tape_material_wf _ _ _ _ H El Hm) as W. destruct H as [H1 H2].
  assert (tm_mat m = mat).
  { unfold tape_material in El. destruct (tape_has T mat); [|discriminate]. injection El as <-.
    unfold mmrange in Hm. apply in_map_iff in Hm. destruct Hm as ([k m'] & <- & Hm). apply filter_In in Hm.
    rewrite Forall_forall in H2. destruct Hm as [Hm Hk]. destruct (H2 _ Hm) as [E _]. cbn in *. lia. }
  split; [assumption|]. split; [apply W|]. intros mf f Ef. unfold mat_file, at_ in Ef.
  destruct (mfind mf (tm_files m)) as [f'|] eqn:E; [|discriminate]. injection Ef as ->.
  destruct (mfind_Forall _ _ _ _ (proj2 W) E) as (K1 & K2 & K3). cbn in *. split; [congruence|]. split; [assumption|]. split; [apply K3|].
  intros mt s Es. unfold file_section, at_ in Es. destruct (mfind mt (tf_secs f)) as [s'|] eqn:Em; [|discriminate]. injection Es as ->.
  destruct (mfind_Forall _ _ _ _ (proj2 K3) Em) as (K4 & K5). cbn in *. split; congruence.
Qed.
(** content(), from the lookups: the contents of the sections in the order of
    their numbers, closed by a FEND line if there is anything; the files in the
    order of their numbers, closed by a MEND line if there is anything; the
    materials in the order of their numbers *)
Definition closed (c : text) (mat : Z) : text :=
  match c with [] => [] | _ => c ++ canonical_end mat ++ [LF] end.
Definition file_text (f : tfile) : text :=
  closed (flat_map (fun mt => match file_section f mt with Val s => ts_text s | _ => [] end)
                   (section_numbers f)) (tf_mat f).
Definition mat_text (m : tmat) : text :=
  closed (flat_map (fun mf => match mat_file m mf with Val f => file_text f | _ => [] end)
                   (file_numbers m)) 0.
(** MAT = MF = MT = 0 in columns 67-75 and blanks *)
Definition canonical_tail : text :=
  right_justified 4 0 ++ right_justified 2 0 ++ right_justified 3 0 ++ blanks 5.
Definition tape_mats_text (T : ttape) : text :=
  flat_map (fun k => match tape_material T k with Val l => flat_map mat_text l | _ => [] end)
           (material_numbers T).
Lemma flat_find {A} (g : A -> text) (l : list (Z * A)) : NoDup (map fst l) ->
  flat_map (fun p => g (snd p)) l = flat_map (fun k => match mfind k l with Some v => g v | None => [] end) (map fst l).
Proof.
  intros N. induction l as [|[k v] l IH]; [reflexivity|]. cbn [map fst flat_map mfind snd]. rewrite Z.eqb_refl.
  inversion N as [|? ? Nk Nl]; subst. f_equal. rewrite IH by exact Nl. apply flat_map_ext'. apply Forall_forall. intros x Hx.
  destruct (Z.eqb_spec x k); [subst; contradiction|reflexivity].
Qed.
Lemma close_closed c mat : in_cols 4 mat ->
  close (Val c) (Val (pr_sdiv (mksdiv zero_cont mat 0 0))) = Val (closed c mat).
Proof. intros H. rewrite pr_end by exact H. now destruct c. Qed.
Lemma file_content_wf f : wff f -> 0 < tf_mat f < 10000 -> file_content f = Val (file_text f).
Proof.
  intros [H1 H2] Hm. unfold file_content, file_text, section_numbers, file_section, at_.
  rewrite (flat_find ts_text) by now apply strict_NoDup. unfold close. cbn [obind].
  assert (E : flat_map (fun k => match mfind k (tf_secs f) with Some v => ts_text v | None => [] end) (map fst (tf_secs f))
            = flat_map (fun mt => match match mfind mt (tf_secs f) with Some v => Val v | None => Throw EOor end with Val s => ts_text s | _ => [] end) (map fst (tf_secs f))).
  { apply flat_map_ext'. apply Forall_forall. intros x _. now destruct (mfind x (tf_secs f)). }
  rewrite <- E. destruct (flat_map _ _); [reflexivity|]. unfold pr_FEND, FEND. replace (tf_mat f <? 1) with false by lia.
  cbn [obind]. now rewrite pr_end by (unfold in_cols; cbn; lia).
Qed.
Lemma mat_content_wf m : wfm m -> 0 < tm_mat m < 10000 -> mat_content m = Val (mat_text m).
Proof.
  intros [H1 H2] Hm. unfold mat_content, mat_text, file_numbers, mat_file, at_.
  rewrite (oconcat_val _ (fun p => file_text (snd p))).
  - rewrite (flat_find file_text) by now apply strict_NoDup. unfold close. cbn [obind].
    assert (E : flat_map (fun k => match mfind k (tm_files m) with Some v => file_text v | None => [] end) (map fst (tm_files m))
            = flat_map (fun mt => match match mfind mt (tm_files m) with Some v => Val v | None => Throw EOor end with Val s => file_text s | _ => [] end) (map fst (tm_files m))).
    { apply flat_map_ext'. apply Forall_forall. intros x _. now destruct (mfind x (tm_files m)). }
    rewrite <- E. destruct (flat_map _ _); [reflexivity|].
    change (pr_sdiv MEND) with (pr_sdiv (mksdiv zero_cont 0 0 0)). now rewrite pr_end by (unfold in_cols; cbn; lia).
  - eapply Forall_impl; [|exact H2]. intros [k f] (K1 & K2 & K3). apply file_content_wf; [exact K3|]. cbn in *. lia.
Qed.
Lemma mmrange_cons {A} k a (v : A) l : mmrange k ((a, v) :: l) = if a =? k then v :: mmrange k l else mmrange k l.
Proof. unfold mmrange. cbn. now destruct (a =? k). Qed.
Lemma strict_mid pre a (post : list Z) : ascending Z.lt (pre ++ a :: post) -> Forall (fun x => x < a) pre /\ Forall (Z.lt a) post.
Proof.
  induction pre as [|b pre IH]; intros H.
  - apply strict_cons in H. split; [constructor|tauto].
  - cbn [app] in H. apply strict_cons in H. destruct H as [F H]. destruct (IH H). split; [|assumption]. constructor; [|assumption].
    rewrite Forall_forall in F. apply F. apply in_or_app. right. now left.
Qed.
Lemma flat_nil {A B} (g : A -> list B) l : Forall (fun a => g a = []) l -> flat_map g l = [].
Proof. induction 1 as [|a l E _ IH]; [reflexivity|]. cbn. now rewrite E, IH. Qed.
Lemma flat_range {A} (g : A -> text) (l : list (Z * A)) ks : ascending Z.le (map fst l) -> ascending Z.lt ks ->
  (forall k, In k (map fst l) -> In k ks) ->
  flat_map (fun p => g (snd p)) l = flat_map (fun k => flat_map g (mmrange k l)) ks.
Proof.
  intros H Hk. induction l as [|[a v] l IH]; intros Hi.
  - symmetry. apply flat_nil. apply Forall_forall. reflexivity.
  - cbn [map fst] in H, Hi. apply weak_cons in H. destruct H as [F H]. cbn [flat_map snd].
    rewrite (IH H) by (intros k K; apply Hi; now right). destruct (in_split a ks) as (pre & post & ->); [apply Hi; now left|].
    destruct (strict_mid _ _ _ Hk) as [F1 F2]. rewrite !flat_map_app. cbn [flat_map]. rewrite mmrange_cons, Z.eqb_refl. cbn [flat_map].
    rewrite !(flat_nil _ pre).
    + cbn [app]. rewrite <- app_assoc. do 2 f_equal. apply flat_map_ext'. eapply Forall_impl; [|exact F2]. cbv beta. intros x Hx.
      rewrite mmrange_cons. now replace (a =? x) with false by lia.
    + eapply Forall_impl; [|exact F1]. cbv beta. intros x Hx. rewrite mmrange_cons. replace (a =? x) with false by lia.
      rewrite mmrange_none; [reflexivity|]. eapply Forall_impl; [|exact F]. cbv beta. lia.
    + eapply Forall_impl; [|exact F1]. cbv beta. intros x Hx.
      rewrite mmrange_none; [reflexivity|]. eapply Forall_impl; [|exact F]. cbv beta. lia.
Qed.
Lemma unique_In l x : In x (unique l) <-> In x l.
Proof.
  induction l as [|a [|b l] IH]; [reflexivity|reflexivity|]. cbn [unique]. destruct (Z.eqb_spec a b) as [->|N].
  - rewrite IH. cbn. tauto.
  - change (match l with [] => b :: l | b0 :: _ => if b =? b0 then unique l else b :: unique l end) with (unique (b :: l)).
    cbn [In] in *. rewrite IH. tauto.
Qed.
Lemma unique_strict l : ascending Z.le l -> ascending Z.lt (unique l).
Proof.
  induction l as [|a [|b l] IH]; intros H; [exact I|exact I|]. apply weak_cons in H. destruct H as [F H]. cbn [unique].
  destruct (Z.eqb_spec a b) as [->|N]; [apply (IH H)|].
  change (match l with [] => b :: l | b0 :: _ => if b =? b0 then unique l else b :: unique l end) with (unique (b :: l)).
  apply strict_cons. split; [|apply (IH H)]. apply Forall_forall. intros x Hx. apply (proj1 (unique_In _ _)) in Hx.
  apply weak_cons in H. destruct H as [Fb H]. inversion F; subst. destruct Hx as [<-|Hx]; [lia|].
  rewrite Forall_forall in Fb. specialize (Fb x Hx). lia.
Qed.
Theorem C21_material_numbers : forall T, made_tape T ->
  ascending Z.lt (material_numbers T) /\ forall mat, In mat (material_numbers T) <-> tape_has T mat = true.
Proof.
  intros T H. apply made_tape_wf in H. split; [apply unique_strict, H|]. intros mat. unfold material_numbers.
  rewrite unique_In. unfold tape_has, tape_number, mmrange. rewrite map_length. rewrite in_map_iff. split.
  - intros ([k m] & <- & Hk). assert (K : In (k, m) (filter (fun p => fst p =? fst (k, m)) (tt_mats T))) by (apply filter_In; split; [exact Hk|cbn; lia]).
    destruct (filter _ _); [elim K|cbn [length]; lia].
  - intros K. destruct (filter _ _) as [|p r] eqn:E; [discriminate|]. assert (Hp : In p (filter (fun p => fst p =? mat) (tt_mats T))) by (rewrite E; now left).
    apply filter_In in Hp. exists p. split; [lia|tauto].
Qed.
Theorem C21_file_content : forall f, made_file f ->
  (0 < tf_mat f < 10000 -> file_content f = Val (file_text f))
  /\ (tf_mat f < 1 -> file_content f = Val [] \/ file_content f = Throw EStd).
Proof.
  intros f H. apply made_file_wf in H. split; [now apply file_content_wf|].
  intros Hm. unfold file_content, close. cbn [obind]. destruct (flat_map _ _); [auto|]. right. unfold pr_FEND, FEND.
  now replace (tf_mat f <? 1) with true by lia.
Qed.
Theorem C21_material_content : forall m, made_mat m -> 0 < tm_mat m < 10000 -> mat_content m = Val (mat_text m).
Proof. intros m H. apply made_mat_wf in H. now apply mat_content_wf. Qed.
Theorem C21_tape_content : forall T, made_tape T ->
  (forall mat, tape_has T mat = true -> 0 < mat < 10000) ->
  tape_content T = Val (closed (match tt_tpid T with
                                | Some i => lj 66 (tptext i) ++ canonical_tail ++ [LF]
                                | None => [] end ++ tape_mats_text T) (-1)).
Proof.
  intros T H Hm. pose proof (C21_material_numbers T H) as [_ Hn]. apply made_tape_wf in H. destruct H as [H1 H2].
  unfold tape_content, tape_mats_text.
  rewrite (oconcat_val _ (fun p => mat_text (snd p))).
  - rewrite (flat_range mat_text (tt_mats T) (material_numbers T)); [|exact H1|apply unique_strict, H1|intros k; apply (proj2 (unique_In _ _))].
    assert (E : flat_map (fun k => flat_map mat_text (mmrange k (tt_mats T))) (material_numbers T)
              = flat_map (fun k => match tape_material T k with Val l => flat_map mat_text l | _ => [] end) (material_numbers T)).
    { apply flat_map_ext'. apply Forall_forall. intros k Hk. apply Hn in Hk. unfold tape_material. now rewrite Hk. }
    rewrite E. unfold oapp. cbn [obind].
    assert (Et : match tt_tpid T with Some i => pr_tpid i 0 0 0 | None => [] end = match tt_tpid T with Some i => lj 66 (tptext i) ++ canonical_tail ++ [LF] | None => [] end).
    { destruct (tt_tpid T); [|reflexivity]. unfold pr_tpid. reflexivity. }
    rewrite Et. apply close_closed. unfold in_cols; cbn; lia.
  - rewrite Forall_forall in *. intros [k m] Hk. destruct (H2 _ Hk) as [K1 K2]. cbn in *. apply mat_content_wf; [exact K2|].
    rewrite K1. apply Hm, Hn. apply unique_In. apply (in_map fst) in Hk. exact Hk.
Qed.
